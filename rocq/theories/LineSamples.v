(** * LineSamples: lines of assembly text for the examples of PropLine.v. *)
From Verif Require Import Base Strings Tables Event Regex TextEvent SpecTable SpecDecimal SpecKey SpecAssemble SpecSurvive SpecRead SpecTrack SpecLine AssembleProofs TextProofs LineProofs.

Definition absent (word s : bytes) (n : nat) : bool := match strip_fold word (skipn n s) with None => true | _ => false end.

Lemma absent_says : forall word s a x b, s = a ++ x ++ b -> spelled word x -> absent word s (length a) = false.
Proof.
  intros word s a x b -> X. unfold absent. rewrite skipn_app, skipn_all, Nat.sub_diag. cbn [skipn app]. rewrite (strip_spelled _ _ _ X). reflexivity.
Qed.

Lemma first_check : forall word s n, forallb (absent word s) (seq 0 n) = true -> first_at word s n.
Proof.
  intros word s n H a x b E X. destruct (Nat.le_gt_cases n (length a)) as [L|L]; [exact L|exfalso].
  rewrite forallb_forall in H. specialize (H (length a) ltac:(apply in_seq; lia)). rewrite (absent_says word s a x b E X) in H. discriminate.
Qed.

Lemma only_check : forall word s n, forallb (fun i => (i =? n)%nat || absent word s i) (seq 0 (S (length s))) = true -> only_at word s.
Proof.
  intros word s n H. assert (P : forall a x b, s = a ++ x ++ b -> spelled word x -> length a = n).
  { intros a x b E X. rewrite forallb_forall in H. specialize (H (length a) ltac:(apply in_seq; rewrite E, app_length; lia)).
    rewrite (absent_says word s a x b E X), orb_false_r in H. apply Nat.eqb_eq, H. }
  intros a x b a' x' b' E X E' X'. rewrite (P a x b E X), (P a' x' b' E' X'). reflexivity.
Qed.

Lemma spelled_same : forall l, spelled l l.
Proof. induction l as [|c l IH]; [constructor|]. apply sp_letter; [left; reflexivity|exact IH]. Qed.

Ltac letter := first [left; reflexivity|right; left; split; [split; vm_compute; discriminate|reflexivity]|right; right; split; [split; vm_compute; discriminate|reflexivity]].
Ltac letters := repeat (apply sp_letter; [letter|]); constructor.
Ltac numeral := split; [discriminate|split; [repeat (constructor; [split; vm_compute; discriminate|]); constructor|vm_compute; reflexivity]].
Ltac stop := let E := fresh in intros c r E; vm_compute in E; first [discriminate E|injection E as <- _; intros [? ?]; lia].
Ltac blanked := split; [discriminate|repeat (constructor; [vm_compute; tauto|]); constructor].

(** A controller with its prefix in hexadecimal, and other letters in "delta" and "channel". *)
Definition controller_line : bytes := str "00 B7 01 40  tick:480  Delta:0480  B7 Controller  CHANNEL:7  1/Modulation Wheel, value:64".
Definition controller_event : event := Event 0 480 [] 183 0 (Controller 7 (lookup_controller 1) 64).

Lemma controller_parts : line_parts [] controller_line (str "00 B7 01 40  tick:480  ") (str "Delta:") (str "0480") (str "  B7 ") (str "Controller")
  (str "  CHANNEL:7  1/Modulation Wheel, value:64") controller_event.
Proof.
  split; [vm_compute; reflexivity|].
  split; [letters|].
  split; [numeral|].
  split; [stop|].
  split; [cbn [e_delta controller_event]; lia|].
  split; [vm_compute; intros C; repeat destruct C as [C|C]; discriminate || exact C|].
  split; [apply spelled_same|].
  apply (de_control [] [] (str "  CHANNEL:7  ") (str "1") (str "/Modulation Wheel, ") (str "value:") (str "64") [] 7 (lookup_controller 1) 64 1).
  - intros [].
  - exists (str "  "), (str "CHANNEL:"), (str "7"), (str "  ").
    assert (B : blank (str "  ")) by blanked.
    split; [vm_compute; reflexivity|]. split; [exact B|]. split; [letters|].
    split; [numeral|].
    split; [exact B|lia].
  - numeral.
  - stop.
  - vm_compute; intros C; repeat destruct C as [C|C]; discriminate || exact C.
  - apply spelled_same.
  - numeral.
  - stop.
  - lia.
  - lia.
  - reflexivity.
Qed.

Lemma controller_plain : line_plain controller_line (str "00 B7 01 40  tick:480  ") (str "  B7 ") (str "Controller")
  (str "  CHANNEL:7  1/Modulation Wheel, value:64") (e_body controller_event).
Proof.
  split; [apply first_check; vm_compute; reflexivity|]. split; [apply first_check; vm_compute; reflexivity|].
  split; [apply (only_check _ _ 2)|apply (only_check _ _ 33)]; vm_compute; reflexivity.
Qed.

Lemma controller_kind : line_kind controller_line (e_body controller_event).
Proof.
  split; [exists (str "00 B7 01 40  tick:480  Delta:0480  B7 "), (str "  CHANNEL:7  1/Modulation Wheel, value:64"); vm_compute; reflexivity|].
  intros t (i & j & L & I & J) O.
  assert (N : nth_error tag_order 21 = Some (str "Controller")) by reflexivity.
  assert (J' : j = 21%nat).
  { apply (tag_position_unique j 21%nat (str "Controller") J N). }
  subst j. apply contains_spec in O.
  assert (C : forallb (fun t => negb (contains controller_line t)) (firstn 21 tag_order) = true) by (vm_compute; reflexivity).
  rewrite forallb_forall in C. specialize (C t). rewrite O in C. discriminate C.
  apply (nth_error_In _ i). revert I. clear -L. do 21 (destruct i as [|i]; [intros I; exact I|]). lia.
Qed.

Lemma controller_header : line_header controller_event.
Proof. repeat split. intros st E. vm_compute in E. injection E as <-. reflexivity. Qed.

(** Note names whose letter and sign lie in different octaves, a note above 127, a key that there is not. *)
Definition b_sharp_line : bytes := str "delta:0 NoteOn channel:0 note:B♯4, velocity:64".
Definition c_flat_line : bytes := str "delta:0 NoteOn channel:0 note:C♭4, velocity:64".
Definition high_line : bytes := str "delta:0 NoteOn channel:0 note:G♯9, velocity:64".
Definition g_sharp_line : bytes := str "delta:0 KeySignature G♯ major".

Lemma no_g_sharp : forall m z, key_range z -> key_name m z <> str "G♯ major".
Proof.
  assert (C : forallb (fun p => negb (bytes_eqb (key_name (fst p) (snd p)) (str "G♯ major")))
    (list_prod [true; false] [-7; -6; -5; -4; -3; -2; -1; 0; 1; 2; 3; 4; 5; 6; 7]) = true) by (vm_compute; reflexivity).
  intros m z K E. rewrite forallb_forall in C. specialize (C (m, z)). cbn [fst snd] in C. rewrite (proj2 (bytes_eqb_eq _ _) E) in C. discriminate C.
  apply in_prod; [destruct m; cbn [In]; tauto|unfold key_range in K; cbn [In]; lia].
Qed.
