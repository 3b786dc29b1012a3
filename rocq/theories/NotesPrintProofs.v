(** * NotesPrintProofs: the listing of the notes command. *)
From Coq Require Import Permutation.
From Verif Require Import Base Strings Tables Event Track File SpecDecimal DecimalProofs SpecText HexProofs SpecNote Utf8 Tsv Transpose Notes NotesPrint SpecDuration DurationProofs.

(** ** Lines *)

Lemma no_newline_app : forall a b : bytes, ~ In 10 a -> ~ In 10 b -> ~ In 10 (a ++ b).
Proof. intros a b A B H. apply in_app_or in H. tauto. Qed.

Lemma digits_no_newline : forall s, Forall is_digit s -> ~ In 10 s.
Proof. intros s H I. rewrite Forall_forall in H. apply H in I. unfold is_digit in I. lia. Qed.

Lemma decimal_no_newline : forall n s, decimal n s -> ~ In 10 s.
Proof.
  intros n s D. destruct D as [|s H _|s H _]; [intros [H|[]]; discriminate|apply digits_no_newline; exact H|].
  intros [E|I]; [discriminate|]. exact (digits_no_newline _ H I).
Qed.

Lemma unit_no_newline : forall u n, In (u, n) units -> ~ In 10 u.
Proof.
  intros u n H I. vm_compute in H. repeat (destruct H as [H|H]; [apply pair_equal_spec in H as [<- <-]; cbn [In] in I; lia|]). destruct H.
Qed.

Lemma amount_no_newline : forall v s, amount v s -> ~ In 10 s.
Proof.
  intros v s A. destruct A as [v i u n N D U V|v i f u n N D Nf Df U V].
  - apply no_newline_app; [apply digits_no_newline; exact D|eapply unit_no_newline; exact U].
  - apply no_newline_app; [apply digits_no_newline; exact D|]. intros [E|I]; [discriminate|]. revert I.
    apply no_newline_app; [apply digits_no_newline; exact Df|eapply unit_no_newline; exact U].
Qed.

Lemma time_no_newline : forall v s, time_text v s -> ~ In 10 s.
Proof.
  assert (G : forall v s, amounts v s -> ~ In 10 s).
  { induction 1 as [v s A|v s w t A B IH]; [eapply amount_no_newline; exact A|]. apply no_newline_app; [eapply amount_no_newline; exact A|exact IH]. }
  intros v s T. destruct T as [v s A|v s A]; [eapply G; exact A|]. intros [E|I]; [discriminate|]. exact (G _ _ A I).
Qed.

Lemma spaces_no_newline : forall n, ~ In 10 (spaces n).
Proof. intros n H. apply repeat_spec in H. discriminate. Qed.

Lemma label_no_newline : forall s, existsb (Z.eqb 10) s = false -> ~ In 10 s.
Proof. intros s H I. assert (existsb (Z.eqb 10) s = true) by (apply existsb_exists; exists 10; auto). congruence. Qed.

Lemma digit16_newline : forall c v, digit16 c v -> c <> 10.
Proof. intros c v H. destruct H; lia. Qed.

Lemma line_shape : forall x line, note_line x line -> exists t, line = t ++ [10] /\ ~ In 10 t.
Proof.
  intros x line A. apply note_line_inv in A as (c & h1 & h2 & d1 & d2 & v & s & e & t & n1 & n2 & n3 & n4 & n5 & N1 & N2 & N3 & C & H1 & H2 & HN & V & S & E & T & L).
  eexists (l_name x ++ spaces n1 ++ str " channel:" ++ c ++ spaces n2 ++ str "  note:" ++ [h1; h2] ++ str "  velocity:" ++ v ++ spaces n3 ++
      str "  start:" ++ s ++ spaces n4 ++ str "  end:" ++ e ++ spaces n5 ++ str "  duration:" ++ t).
  split; [rewrite L, <- !app_assoc; reflexivity|].
  repeat (apply no_newline_app; [first [exact N3|apply spaces_no_newline|eapply decimal_no_newline; eassumption|eapply time_no_newline; eassumption
    |apply label_no_newline; reflexivity|idtac]|]); [|eapply time_no_newline; exact T].
  apply digit16_newline in H1. apply digit16_newline in H2. cbn [In]. intros [H|[H|[]]]; congruence.
Qed.

Lemma line_prefix : forall (t t' : bytes) x y, ~ In 10 t -> ~ In 10 t' -> (t ++ [10]) ++ x = (t' ++ [10]) ++ y -> t = t' /\ x = y.
Proof.
  induction t as [|c t IH]; intros [|c' t'] x y A B E; cbn [app] in E.
  - injection E as E. auto.
  - injection E as E _. exfalso. apply B. left. congruence.
  - injection E as E _. exfalso. apply A. left. congruence.
  - injection E as -> E. destruct (IH t' x y) as [-> ->]; [intro H; apply A; right; exact H|intro H; apply B; right; exact H|exact E|auto].
Qed.

Theorem listing_unambiguous : forall xs ys text, listing xs text -> listing ys text -> xs = ys.
Proof.
  intros xs ys text (ls & -> & A) (ms & E & B). revert ys ms E B.
  induction A as [|x l xs ls Hx A IH]; intros ys ms E B; destruct B as [|y m ys ms Hy B]; cbn [concat] in E.
  - reflexivity.
  - exfalso. destruct (line_shape _ _ Hy) as (t & -> & _). rewrite <- app_assoc in E. destruct t; discriminate.
  - exfalso. destruct (line_shape _ _ Hx) as (t & -> & _). rewrite <- app_assoc in E. destruct t; discriminate.
  - destruct (line_shape _ _ Hx) as (t & -> & Nt). destruct (line_shape _ _ Hy) as (t' & -> & Nt').
    apply line_prefix in E as [-> E]; [|assumption|assumption]. f_equal; [eapply line_unambiguous; eassumption|]. eapply IH; eassumption.
Qed.

(** ** Names *)

Lemma dec_no_char : forall n c, ~ is_digit c -> c <> 45 -> ~ In c (dec n).
Proof.
  intros n c N M. pose proof (dec_decimal n) as D. assert (G : forall s, Forall is_digit s -> ~ In c s).
  { intros s H I. rewrite Forall_forall in H. apply H in I. contradiction. }
  assert (Z0 : is_digit 48) by (unfold is_digit; lia).
  destruct D as [|s H _|s H _]; [intros [<-|[]]; contradiction|apply G; exact H|]. intros [E|I]; [congruence|]. exact (G _ H I).
Qed.

Lemma name_no_char : forall env fl n c, c = 10 \/ c = 32 -> ~ In c (format_note env fl n).
Proof.
  intros env fl n c Hc H. unfold format_note in H. apply in_app_or in H as [H|H].
  - assert (F : forall l, Forall (fun s : bytes => ~ In c s) l -> forall k, ~ In c (nth k l [])) by (induction 1; destruct k; cbn; auto).
    revert H. apply F. apply Forall_forall. intros s Hs.
    assert (A : forallb (fun s => negb (existsb (fun b => (b =? 10) || (b =? 32)) s)) (if fl then Flats else Sharps) = true) by (destruct fl; vm_compute; reflexivity).
    rewrite forallb_forall in A. apply A in Hs. intro I.
    assert (existsb (fun b => (b =? 10) || (b =? 32)) s = true) by (apply existsb_exists; exists c; split; [exact I|lia]). rewrite H in Hs. discriminate.
  - revert H. apply dec_no_char; unfold is_digit; lia.
Qed.

Lemma name_not_empty : forall env fl n, format_note env fl n <> [].
Proof.
  intros env fl n H. unfold format_note in H. apply app_eq_nil in H as [_ H]. pose proof (dec_decimal (n / 12 - (if env_c4 env then 2 else 1))) as D. rewrite H in D.
  inversion D as [| s Hs H1 |]. subst s. cbn in H1. lia.
Qed.

(** ** Printed notes *)

Lemma truncate_whole : forall t, truncate_ms t = whole_ms t.
Proof. intro t. unfold truncate_ms, whole_ms. pose proof (Z.quot_rem' t 1000000). lia. Qed.

Lemma print_note_line : forall n, o_name n <> [] -> ~ In 32 (o_name n) -> ~ In 10 (o_name n) -> 0 <= o_note n < 256 -> note_line (shown n) (print_note n).
Proof.
  intros n N1 N2 N3 R. unfold print_note, left_justify. rewrite !truncate_whole, <- !app_assoc. unfold hex2.
  apply (nl (shown n) _ _ _ (o_note n / 16) (o_note n mod 16)); cbn [shown l_name l_ch l_note l_vel l_start l_end l_dur]; try assumption.
  - apply dec_decimal.
  - apply digit16_hexdigit. lia.
  - apply digit16_hexdigit. lia.
  - lia.
  - apply dec_decimal.
  - apply duration_text.
  - apply duration_text.
  - apply duration_text.
Qed.

(** ** Notes of a file *)

(** What the steps of the extraction keep. *)
Definition rounded (e : nevent) : Prop := exists t, ne_at e = round_ms (wrap64 t).
Definition is_on (e : nevent) : Prop := match ne_body e with NoteOn _ _ _ => True | _ => False end.
Definition from_extract (env : env) (n : note_out) : Prop :=
  exists fl a b, 0 <= o_note n < 256 /\ o_name n = format_note env fl (o_note n) /\ o_start n = round_ms (wrap64 a) /\ o_end n = round_ms (wrap64 b) /\
    o_duration n = wrap64 (o_end n - o_start n).

Lemma timestamps_rounded : forall l tempo at_ fl ppqn es, timestamps tempo at_ fl ppqn l = Ok es -> Forall rounded es.
Proof.
  induction l as [|e l IH]; intros tempo at_ fl ppqn es H; cbn [timestamps] in H; [apply Ok_inj in H; subst; constructor|].
  destruct (delta_time (ne_delta e) tempo ppqn) as [d| | | |]; try discriminate. cbn [bind] in H.
  match type of H with context [timestamps ?a ?b ?c ?d l] => destruct (timestamps a b c d l) as [r| | | |] eqn:T end; try discriminate.
  cbn [bind] in H. apply Ok_inj in H. subst es. constructor; [|eapply IH; exact T]. exists (at_ + d). reflexivity.
Qed.

Lemma transpose_byte : forall v steps, 0 <= note_transpose v steps < 256.
Proof. intros v steps. unfold note_transpose. cbv zeta. generalize (wrap64 (v + steps)). intro x. destruct (Z.ltb_spec x 0); [lia|]. destruct (Z.ltb_spec 255 x); lia. Qed.

Lemma finished_from : forall env steps p e, is_on p -> rounded p -> rounded e -> from_extract env (finished env steps p e).
Proof.
  intros env steps p e O (a & A) (b & B). unfold is_on in O. unfold finished. destruct (ne_body p); try contradiction.
  exists (ne_flats p), a, b. cbn [o_note o_name o_start o_end o_duration]. split; [apply transpose_byte|]. auto.
Qed.

Lemma note_list_from : forall env steps order, (forall l, Permutation l (order l)) ->
  forall es p ns, Forall rounded es -> Forall (fun x => is_on (snd x) /\ rounded (snd x)) p -> note_list env steps order p es = Ok ns -> Forall (from_extract env) ns.
Proof.
  intros env steps order O. induction es as [|e es IH]; intros p ns R P H; [apply Ok_inj in H; subst; constructor|].
  inversion R as [|? ? Re Res]; subst.
  assert (Fin : forall k out p', finish env steps p k e = (out, p') -> Forall (from_extract env) out /\ Forall (fun x => is_on (snd x) /\ rounded (snd x)) p').
  { intros k out p' F. unfold finish in F. destruct (find_key k p) as [on|] eqn:Fk.
    - apply pair_equal_spec in F as [<- <-]. split.
      + constructor; [|constructor]. assert (I : is_on on /\ rounded on).
        { clear - Fk P. induction p as [|[k' x] p IH]; cbn [find_key] in Fk; [discriminate|]. inversion P; subst. destruct (key_eqb k k'); [injection Fk as <-; assumption|auto]. }
        destruct I. apply finished_from; assumption.
      + unfold drop_key. apply Forall_forall. intros x Hx. apply filter_In in Hx as [Hx _]. rewrite Forall_forall in P. auto.
    - apply pair_equal_spec in F as [<- <-]. split; [constructor|exact P]. }
  cbn [note_list] in H. destruct (ne_body e) eqn:Eb; try (exact (IH p ns Res P H)).
  all: try (destruct (finish env steps p _ e) as [out p'] eqn:F; destruct (Fin _ _ _ F) as [F1 F2];
    destruct (note_list env steps order p' es) as [ms| | | |] eqn:N; try discriminate; cbn [bind] in H; apply Ok_inj in H; subst ns;
    apply Forall_app; split; [exact F1|exact (IH p' ms Res F2 N)]).
  - (* NoteOn *)
    match type of H with context [0 <? ?v] => destruct (0 <? v) end.
    + destruct (find_key _ p); [exact (IH p ns Res P H)|]. match type of H with context [?c <? 16] => destruct (c <? 16) end; [|discriminate]. refine (IH _ ns Res _ H). constructor; [|exact P].
      cbn [snd]. split; [unfold is_on; rewrite Eb; exact I|exact Re].
    + destruct (finish env steps p _ e) as [out p'] eqn:F; destruct (Fin _ _ _ F) as [F1 F2];
      destruct (note_list env steps order p' es) as [ms| | | |] eqn:N; try discriminate; cbn [bind] in H; apply Ok_inj in H; subst ns;
      apply Forall_app; split; [exact F1|exact (IH p' ms Res F2 N)].
  - (* EndOfTrack *)
    match type of H with context [note_list env steps order ?q es] => set (q' := q) in *; destruct (note_list env steps order q' es) as [ms| | | |] eqn:N end; try discriminate.
    cbn [bind] in H. apply Ok_inj in H. subst ns. apply Forall_app. split.
    + apply Forall_forall. intros x Hx. unfold finish_all in Hx. apply in_flat_map in Hx as (ch & _ & Hx). apply in_map_iff in Hx as (on & <- & Hx).
      apply (Permutation_in _ (Permutation_sym (O _))) in Hx. apply in_map_iff in Hx as (y & <- & Hy). apply filter_In in Hy as [Hy _].
      rewrite Forall_forall in P. destruct (P _ Hy). apply finished_from; assumption.
    + refine (IH q' ms Res _ N). apply Forall_forall. intros x Hx. apply filter_In in Hx as [Hx _]. rewrite Forall_forall in P. auto.
Qed.

Lemma extract_from : forall env steps order s ns, (forall l, Permutation l (order l)) -> extract env steps order s = Ok ns -> Forall (from_extract env) ns.
Proof.
  intros env steps order s ns O H. unfold extract in H. destruct (f_tracks s) as [|t0 ts]; [discriminate|].
  assert (G : forall ts tm ppqn ns, tracks_notes env steps order tm ppqn ts = Ok ns -> Forall (from_extract env) ns).
  { clear - O. induction ts as [|t ts IH]; intros tm ppqn ns H; cbn [tracks_notes] in H; [apply Ok_inj in H; subst; constructor|].
    destruct (track_notes env steps order tm ppqn t) as [a| | | |] eqn:T; try discriminate. cbn [bind] in H.
    destruct (tracks_notes env steps order tm ppqn ts) as [b| | | |] eqn:U; try discriminate. cbn [bind] in H. apply Ok_inj in H. subst ns.
    apply Forall_app. split; [|eapply IH; exact U]. unfold track_notes, build_track_events in T.
    destruct (timestamps 50000 0 false ppqn (sort_ticks (unsorted (t_events t) tm))) as [es| | | |] eqn:S; try discriminate. cbn [bind] in T.
    apply timestamps_rounded in S. eapply note_list_from; [exact O| |constructor|exact T].
    apply Forall_forall. intros x Hx. apply filter_In in Hx as [Hx _]. rewrite Forall_forall in S. auto. }
  destruct ts as [|t ts]; [destruct (f_mthd s); apply Ok_inj in H; subst; constructor|]. destruct (f_mthd s) as [h|]; [|discriminate]. eapply G; exact H.
Qed.

Theorem notes_printed : forall env steps order s notes, (forall l, Permutation l (order l)) -> extract env steps order s = Ok notes ->
  listing (map shown notes) (print_notes notes).
Proof.
  intros env steps order s notes O H. apply extract_from in H; [|exact O]. exists (map print_note notes). split; [reflexivity|].
  clear - H. induction H as [|n notes (fl & a & b & R & N & _) _ IH]; [constructor|]. cbn [map]. constructor; [|exact IH].
  apply print_note_line; rewrite ?N; [apply name_not_empty|apply name_no_char; auto|apply name_no_char; auto|exact R].
Qed.

Lemma rem_multiple : forall k, Z.rem (1000000 * k) 1000000 = 0.
Proof. intro k. rewrite Z.mul_comm. apply Z.rem_mul. lia. Qed.

Lemma round_whole : forall t, let x := round_ms (wrap64 t) in Z.rem x 1000000 = 0 \/ x = 9223372036854775807 \/ x = -9223372036854775808.
Proof.
  intro t. assert (B : -9223372036854775808 <= wrap64 t < 9223372036854775808) by (unfold wrap64; lia). revert B. generalize (wrap64 t). clear t. intros t B. cbv zeta.
  unfold round_ms. cbv zeta. pose proof (Z.quot_rem' t 1000000) as Q. pose proof (Z.rem_bound_abs t 1000000 ltac:(lia)) as R.
  set (q := Z.quot t 1000000) in *. set (r := Z.rem t 1000000) in *. clearbody q r.
  destruct (Z.ltb_spec t 0).
  - destruct (Z.ltb_spec (- r + - r) 1000000).
    + left. replace (t + - r) with (1000000 * q) by lia. apply rem_multiple.
    + destruct (Z.ltb_spec (wrap64 (t - 1000000 + - r)) t) as [L|L]; [|right; right; reflexivity].
      left. unfold wrap64 in *. replace ((t - 1000000 + - r + 9223372036854775808) mod 18446744073709551616 - 9223372036854775808) with (1000000 * (q - 1)) by lia. apply rem_multiple.
  - destruct (Z.ltb_spec (r + r) 1000000).
    + left. replace (t - r) with (1000000 * q) by lia. apply rem_multiple.
    + destruct (Z.ltb_spec t (wrap64 (t + 1000000 - r))) as [L|L]; [|right; left; reflexivity].
      left. unfold wrap64 in *. replace ((t + 1000000 - r + 9223372036854775808) mod 18446744073709551616 - 9223372036854775808) with (1000000 * (q + 1)) by lia. apply rem_multiple.
Qed.

Lemma whole_exact : forall t, Z.rem t 1000000 = 0 -> whole_ms t = t.
Proof. intros t H. unfold whole_ms. pose proof (Z.quot_rem' t 1000000). lia. Qed.

Theorem times_exact : forall env steps order s notes, (forall l, Permutation l (order l)) -> extract env steps order s = Ok notes ->
  Forall (fun n => 0 <= o_start n < 9223372036854775807 -> 0 <= o_end n < 9223372036854775807 ->
    l_start (shown n) = o_start n /\ l_end (shown n) = o_end n /\ l_dur (shown n) = o_end n - o_start n) notes.
Proof.
  intros env steps order s notes O H. apply extract_from in H; [|exact O]. eapply Forall_impl; [|exact H]. clear.
  intros n (fl & a & b & _ & _ & A & B & D) S E. cbn [shown l_start l_end l_dur].
  assert (RA : Z.rem (o_start n) 1000000 = 0) by (destruct (round_whole a) as [K|K]; rewrite <- A in K; [exact K|lia]).
  assert (RB : Z.rem (o_end n) 1000000 = 0) by (destruct (round_whole b) as [K|K]; rewrite <- B in K; [exact K|lia]).
  split; [apply whole_exact; exact RA|]. split; [apply whole_exact; exact RB|].
  assert (W : o_duration n = o_end n - o_start n) by (rewrite D; unfold wrap64; lia). rewrite W. apply whole_exact.
  pose proof (Z.quot_rem' (o_start n) 1000000). pose proof (Z.quot_rem' (o_end n) 1000000).
  replace (o_end n - o_start n) with (1000000 * (Z.quot (o_end n) 1000000 - Z.quot (o_start n) 1000000)) by lia. apply rem_multiple.
Qed.
