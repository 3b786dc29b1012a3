(** * LineProofs: the lines that the assembler accepts say what they are read as, and plain lines are read. *)
From Verif Require Import Base Strings Vlq SpecVlq Tables Event SpecEvent SpecTrack SpecKey SpecDecimal SpecText SpecTable SpecAssemble SpecSurvive SpecRead SpecLine
  Manufacturer Hex Regex TextEvent DecimalProofs AssembleProofs RegexProofs TextProofs.

(** ** Words *)

Lemma lower_same : forall c x, lower x = lower c <-> same_letter c x.
Proof.
  intros c x. unfold lower, same_letter. destruct ((65 <=? x) && (x <=? 90)) eqn:E1; destruct ((65 <=? c) && (c <=? 90)) eqn:E2; lia.
Qed.

Lemma prefix_split : forall p s, has_prefix p s = true -> s = p ++ skipn (length p) s.
Proof.
  induction p as [|c p IH]; intros s H; [reflexivity|]. destruct s as [|x s]; [discriminate|]. cbn [has_prefix] in H.
  apply andb_prop in H as [H1 H2]. cbn [app length skipn]. f_equal; [lia|apply IH; exact H2].
Qed.

Lemma fold1_says : forall c s r, fold1 c s = Some r -> exists x, s = x ++ r /\ spelled [c] x.
Proof.
  intros c [|x s] r H; [discriminate|]. cbn [fold1] in H. destruct (lower x =? lower c) eqn:E.
  - injection H as <-. exists [x]. split; [reflexivity|]. constructor; [apply lower_same; lia|constructor].
  - destruct ((lower c =? 107) && _) eqn:K.
    + injection H as <-. apply andb_prop in K as [K P]. apply prefix_split in P. exists [226; 132; 170]. split; [exact P|].
      apply (sp_kelvin c [] []); [|constructor]. apply lower_same. change (lower 75) with 107. lia.
    + destruct ((lower c =? 115) && _) eqn:L; [|discriminate]. injection H as <-. apply andb_prop in L as [L P]. apply prefix_split in P.
      exists [197; 191]. split; [exact P|]. apply (sp_long_s c [] []); [|constructor]. apply lower_same. change (lower 83) with 115. lia.
Qed.

Lemma spelled_cons : forall c l x s, spelled [c] x -> spelled l s -> spelled (c :: l) (x ++ s).
Proof.
  intros c l x s H S. remember [c] as w eqn:E. destruct H as [|c' x' l' s' L H|c' l' s' L H|c' l' s' L H]; try discriminate; injection E as -> ->;
  destruct s'; try (inversion H; fail); cbn [app]; [apply sp_letter|apply (sp_kelvin c l s)|apply (sp_long_s c l s)]; assumption.
Qed.

Lemma strip_says : forall l s r, strip_fold l s = Some r -> exists x, s = x ++ r /\ spelled l x.
Proof.
  induction l as [|c l IH]; intros s r H.
  - injection H as <-. exists []. split; [reflexivity|constructor].
  - cbn [strip_fold] in H. destruct (fold1 c s) as [s'|] eqn:F; [|discriminate]. apply fold1_says in F as (x & -> & X). apply IH in H as (y & -> & Y).
    exists (x ++ y). split; [rewrite app_assoc; reflexivity|apply spelled_cons; assumption].
Qed.

Lemma strip_spelled : forall l x r, spelled l x -> strip_fold l (x ++ r) = Some r.
Proof.
  intros l x r H. induction H as [|c x l s L H IH|c l s L H IH|c l s L H IH]; [reflexivity| | |].
  - cbn [app strip_fold fold1]. apply lower_same in L. replace (lower x =? lower c) with true by lia. exact IH.
  - apply lower_same in L. change (lower 75) with 107 in L. cbn [app strip_fold fold1]. change (lower 226) with 226. rewrite L.
    change (226 =? 107) with false. change (107 =? 107) with true. cbn [andb has_prefix Z.eqb Pos.eqb skipn]. exact IH.
  - apply lower_same in L. change (lower 83) with 115 in L. cbn [app strip_fold fold1]. change (lower 197) with 197. rewrite L.
    change (197 =? 115) with false. change (115 =? 107) with false. change (115 =? 115) with true. cbn [andb has_prefix Z.eqb Pos.eqb skipn]. exact IH.
Qed.

(** ** Matches taken apart *)

(** Success does not depend on the groups so far. *)
Definition blind (k : list bytes -> bytes -> option (list bytes)) : Prop := forall c1 c2 s, k c1 s = None -> k c2 s = None.

Lemma star_blind : forall g c k, blind k -> forall c1 c2 s, star g c c1 k s = None -> star g c c2 k s = None.
Proof.
  intros g c k B c1 c2 s. induction s as [|x s IH]; intros H; [exact (B c1 c2 [] H)|]. cbn [star] in *. destruct (c x); [|exact (B c1 c2 _ H)].
  destruct g.
  - destruct (star true c c1 k s); [discriminate|]. rewrite IH by reflexivity. exact (B c1 c2 _ H).
  - destruct (k c1 (x :: s)) eqn:K; [discriminate|]. rewrite (B c1 c2 _ K). apply IH, H.
Qed.

Lemma rmatch_blind : forall r k, blind k -> forall c1 c2 s, rmatch r c1 s k = None -> rmatch r c2 s k = None.
Proof.
  induction r as [|p|g c|a IHa b IHb|a IHa b IHb|a IHa]; intros k B c1 c2 s H; cbn [rmatch] in *.
  - exact (B c1 c2 s H).
  - destruct (p s) as [s'|]; [exact (B c1 c2 s' H)|reflexivity].
  - eapply star_blind; [exact B|exact H].
  - revert H. apply IHa. intros d1 d2 t. apply IHb, B.
  - destruct (rmatch a c1 s k) eqn:E; [discriminate|]. rewrite (IHa k B c1 c2 s E). exact (IHb k B c1 c2 s H).
  - revert H. apply IHa. intros d1 d2 t. apply B.
Qed.

Lemma fin_blind : blind fin.
Proof. intros c1 c2 s H. discriminate. Qed.
Lemma cat_blind : forall rs, blind (fun caps s => rmatch (cat rs) caps s fin).
Proof. intros rs c1 c2 s. apply rmatch_blind, fin_blind. Qed.

Lemma star_none_k : forall c caps k s, star true c caps k s = None -> k caps s = None.
Proof.
  intros c caps k [|x s] H; [exact H|]. cbn [star] in H. destruct (c x); [|exact H]. destruct (star true c caps k s); [discriminate|exact H].
Qed.

Lemma star_greedy : forall c caps k s y, star true c caps k s = Some y -> exists u v, s = u ++ v /\ forallb c u = true /\ k caps v = Some y /\
  forall x v', v = x :: v' -> c x = true -> k caps v' = None.
Proof.
  intros c caps k s y. induction s as [|x s IH]; intros H.
  - exists [], []. split; [reflexivity|]. split; [reflexivity|]. split; [exact H|]. intros; discriminate.
  - cbn [star] in H. destruct (c x) eqn:C.
    + destruct (star true c caps k s) as [z|] eqn:E.
      * injection H as ->. destruct (IH eq_refl) as (u & v & -> & U & K & M). exists (x :: u), v. split; [reflexivity|].
        split; [cbn [forallb]; rewrite C; exact U|]. split; assumption.
      * exists [], (x :: s). split; [reflexivity|]. split; [reflexivity|]. split; [exact H|]. intros x' v' F _. injection F as <- <-.
        apply star_none_k with (1 := E).
    + exists [], (x :: s). split; [reflexivity|]. split; [reflexivity|]. split; [exact H|]. intros x' v' F C'. injection F as <- <-. congruence.
Qed.

Lemma star_shortest : forall c caps k s y, star false c caps k s = Some y -> exists u v, s = u ++ v /\ forallb c u = true /\ k caps v = Some y /\
  forall a b, u = a ++ b -> b <> [] -> k caps (b ++ v) = None.
Proof.
  intros c caps k s y. induction s as [|x s IH]; intros H.
  - exists [], []. split; [reflexivity|]. split; [reflexivity|]. split; [exact H|]. intros a b E N. symmetry in E. apply app_eq_nil in E as [_ E]. contradiction.
  - cbn [star] in H. 
    assert (Z : k caps (x :: s) = Some y -> exists u v, x :: s = u ++ v /\ forallb c u = true /\ k caps v = Some y /\ forall a b, u = a ++ b -> b <> [] -> k caps (b ++ v) = None).
    { intros K. exists [], (x :: s). split; [reflexivity|]. split; [reflexivity|]. split; [exact K|].
      intros a b E N. symmetry in E. apply app_eq_nil in E as [_ E]. contradiction. }
    destruct (c x) eqn:C; [|exact (Z H)]. destruct (k caps (x :: s)) as [z|] eqn:E; [exact (Z H)|].
    destruct (IH H) as (u & v & -> & U & K & M). exists (x :: u), v. split; [reflexivity|]. split; [cbn [forallb]; rewrite C; exact U|]. split; [exact K|].
    intros [|a0 a] b F N; [cbn [app] in F; subst b; exact E|]. cbn [app] in F. injection F as _ F. exact (M a b F N).
Qed.

Lemma digit_is : forall c, digit c = true <-> is_digit c.
Proof. intros c. unfold digit, is_digit. lia. Qed.
Lemma digits_are : forall s, forallb digit s = true <-> Forall is_digit s.
Proof. intros s. rewrite forallb_forall, Forall_forall. split; intros H c I; apply digit_is, H, I. Qed.
Lemma white_is : forall c, white c = true <-> white_space c.
Proof. intros c. unfold white, white_space. lia. Qed.
Lemma whites_are : forall s, forallb white s = true <-> Forall white_space s.
Proof. intros s. rewrite forallb_forall, Forall_forall. split; intros H c I; apply white_is, H, I. Qed.
Lemma dots_are : forall s, forallb dot s = true <-> ~ In 10 s.
Proof.
  intros s. rewrite forallb_forall. split.
  - intros H I. specialize (H 10 I). discriminate.
  - intros H c I. unfold dot. destruct (c =? 10) eqn:E; [|reflexivity]. apply Z.eqb_eq in E. subst. contradiction.
Qed.

(** What matches before a character of class [p] also matches after it. *)
Definition passes (p : Z -> bool) (k : list bytes -> bytes -> option (list bytes)) : Prop :=
  forall caps caps' x r, p x = true -> k caps (x :: r) <> None -> k caps' r <> None.

Lemma i_group_plus : forall c rs caps s y, rmatch (cat (Group (plus c) :: rs)) caps s fin = Some y ->
  exists u v, s = u ++ v /\ u <> [] /\ forallb c u = true /\ rmatch (cat rs) (caps ++ [u]) v fin = Some y /\
    (passes c (fun caps s => rmatch (cat rs) caps s fin) -> starts c v = false).
Proof.
  intros c rs caps s y H. rewrite rmatch_cat in H. unfold plus in H. cbn [rmatch cls] in H. destruct s as [|x s]; [discriminate|]. cbn [byte1] in H.
  destruct (c x) eqn:C; [|discriminate]. apply star_greedy in H as (u & v & -> & U & K & M). exists (x :: u), v.
  change (x :: u ++ v) with ((x :: u) ++ v) in K. rewrite group_capture in K.
  split; [reflexivity|]. split; [discriminate|]. split; [cbn [forallb]; rewrite C; exact U|]. split; [exact K|].
  intros P. destruct v as [|z v]; [reflexivity|]. cbn [starts]. destruct (c z) eqn:Z; [|reflexivity]. exfalso.
  specialize (M z v eq_refl Z). 
  apply (P (caps ++ [x :: u]) (caps ++ [firstn (length (x :: u ++ z :: v) - length v) (x :: u ++ z :: v)]) z v Z); [congruence|exact M].
Qed.

Lemma i_plus : forall c rs caps s y, rmatch (cat (plus c :: rs)) caps s fin = Some y ->
  exists u v, s = u ++ v /\ u <> [] /\ forallb c u = true /\ rmatch (cat rs) caps v fin = Some y /\
    (passes c (fun caps s => rmatch (cat rs) caps s fin) -> starts c v = false).
Proof.
  intros c rs caps s y H. rewrite rmatch_cat in H. unfold plus in H. cbn [rmatch cls] in H. destruct s as [|x s]; [discriminate|]. cbn [byte1] in H.
  destruct (c x) eqn:C; [|discriminate]. apply star_greedy in H as (u & v & -> & U & K & M). exists (x :: u), v.
  split; [reflexivity|]. split; [discriminate|]. split; [cbn [forallb]; rewrite C; exact U|]. split; [exact K|].
  intros P. destruct v as [|z v]; [reflexivity|]. cbn [starts]. destruct (c z) eqn:Z; [|reflexivity]. exfalso.
  specialize (M z v eq_refl Z). apply (P caps caps z v Z); [congruence|exact M].
Qed.

Lemma i_star : forall c rs caps s y, rmatch (cat (star_of c :: rs)) caps s fin = Some y ->
  exists u v, s = u ++ v /\ forallb c u = true /\ rmatch (cat rs) caps v fin = Some y /\
    (passes c (fun caps s => rmatch (cat rs) caps s fin) -> starts c v = false).
Proof.
  intros c rs caps s y H. rewrite rmatch_cat in H. cbn [rmatch star_of] in H. apply star_greedy in H as (u & v & -> & U & K & M). exists u, v.
  split; [reflexivity|]. split; [exact U|]. split; [exact K|].
  intros P. destruct v as [|z v]; [reflexivity|]. cbn [starts]. destruct (c z) eqn:Z; [|reflexivity]. exfalso.
  specialize (M z v eq_refl Z). apply (P caps caps z v Z); [congruence|exact M].
Qed.

Lemma i_sp : forall rs caps s y, rmatch (cat (spaces_re :: rs)) caps s fin = Some y ->
  exists w v, s = w ++ v /\ blank w /\ rmatch (cat rs) caps v fin = Some y /\ (passes white (fun caps s => rmatch (cat rs) caps s fin) -> no_white v).
Proof.
  intros rs caps s y H. apply i_plus in H as (u & v & -> & N & U & K & M). exists u, v. split; [reflexivity|]. split; [split; [exact N|apply whites_are, U]|].
  split; [exact K|]. intros P c r -> W. specialize (M P). cbn [starts] in M. apply white_is in W. congruence.
Qed.

Lemma i_ws : forall rs caps s y, rmatch (cat (star_of white :: rs)) caps s fin = Some y ->
  exists w v, s = w ++ v /\ blanks w /\ rmatch (cat rs) caps v fin = Some y.
Proof.
  intros rs caps s y H. apply i_star in H as (u & v & -> & U & K & _). exists u, v. split; [reflexivity|]. split; [apply whites_are, U|exact K].
Qed.

Lemma i_num : forall rs caps s y, rmatch (cat (number :: rs)) caps s fin = Some y ->
  exists u v, s = u ++ v /\ rmatch (cat rs) (caps ++ [u]) v fin = Some y /\ (passes digit (fun caps s => rmatch (cat rs) caps s fin) -> no_digit v).
Proof.
  intros rs caps s y H. apply i_group_plus in H as (u & v & -> & N & U & K & M). exists u, v. split; [reflexivity|].
  split; [exact K|]. intros P c r -> W. specialize (M P). cbn [starts] in M. apply digit_is in W. congruence.
Qed.

Lemma i_word : forall l rs caps s y, rmatch (cat (ilit l :: rs)) caps s fin = Some y ->
  exists x v, s = x ++ v /\ spelled l x /\ rmatch (cat rs) caps v fin = Some y.
Proof.
  intros l rs caps s y H. rewrite rmatch_cat in H. cbn [rmatch ilit] in H. destruct (strip_fold l s) as [v|] eqn:E; [|discriminate].
  apply strip_says in E as (x & -> & X). exists x, v. split; [reflexivity|]. split; assumption.
Qed.

(** The group of the rest of the line. *)
Lemma i_rest : forall caps s y, rmatch (cat [rest_re]) caps s fin = Some y -> exists t r, s = t ++ r /\ ~ In 10 t /\ line_end r /\ y = caps ++ [t].
Proof.
  intros caps s y H. rewrite rmatch_cat in H. unfold rest_re in H. cbn [rmatch star_of] in H. apply star_greedy in H as (u & v & -> & U & K & M).
  rewrite group_capture in K. injection K as <-. exists u, v. split; [reflexivity|]. split; [apply dots_are, U|]. split; [|reflexivity].
  destruct v as [|x v]; [left; reflexivity|]. right. destruct (dot x) eqn:D; [discriminate (M x v eq_refl D)|]. exists v. unfold dot in D. f_equal. lia.
Qed.

(** ** What passes *)

Lemma fin_passes : forall p, passes p (fun caps s => rmatch (cat []) caps s fin).
Proof. intros p caps caps' x r _ _ H. discriminate H. Qed.

Lemma word_passes : forall p c l rs, (forall x r, p x = true -> fold1 c (x :: r) = None) -> passes p (fun caps s => rmatch (cat (ilit (c :: l) :: rs)) caps s fin).
Proof.
  intros p c l rs N caps caps' x r P H. exfalso. apply H. rewrite rmatch_cat. cbn [rmatch ilit strip_fold]. rewrite (N x r P). reflexivity.
Qed.

Lemma sp_passes : forall rs, passes digit (fun caps s => rmatch (cat (spaces_re :: rs)) caps s fin).
Proof.
  intros rs caps caps' x r P H. exfalso. apply H. rewrite rmatch_cat. unfold spaces_re, plus. cbn [rmatch cls byte1].
  replace (white x) with false by (unfold white, digit in *; lia). reflexivity.
Qed.

Lemma digit_fold : forall c x r, digit x = true -> lower c <> 107 -> lower c <> 115 -> digit (lower c) = false -> fold1 c (x :: r) = None.
Proof.
  intros c x r D K S N. destruct (fold1 c (x :: r)) as [s|] eqn:F; [|reflexivity]. apply fold1_byte in F as [F _]; [|exact K|exact S].
  rewrite <- F in N. unfold lower, digit in *. destruct ((65 <=? x) && (x <=? 90)) eqn:E; lia.
Qed.

Lemma ascii_fold : forall c x r, x < 128 -> lower x <> lower c -> fold1 c (x :: r) = None.
Proof.
  intros c x r A N. destruct (fold1 c (x :: r)) as [s|] eqn:F; [|reflexivity]. apply fold1_ascii in F as [F _]; [|exact A]. congruence.
Qed.

Lemma digit_word : forall c, digit (lower c) = false -> forall x r, digit x = true -> fold1 c (x :: r) = None.
Proof.
  intros c N x r D. apply ascii_fold; [unfold digit in D; lia|]. intros F. rewrite <- F in N. unfold lower, digit in *.
  destruct ((65 <=? x) && (x <=? 90)) eqn:E; lia.
Qed.

Lemma tag_passes : forall c l rest, digit (lower c) = false ->
  passes digit (fun caps s => rmatch (cat (Star false dot :: ilit (c :: l) :: rest)) caps s fin).
Proof.
  intros c l rest N caps caps' x r P H. rewrite rmatch_cat in *. cbn [rmatch] in *. cbn [star] in H.
  replace (dot x) with true in H by (unfold dot, digit in *; lia).
  rewrite (rmatch_cat (ilit (c :: l)) rest) in H. cbn [rmatch ilit] in H. cbn [strip_fold] in H. rewrite (digit_word c N x r P) in H.
  intros E. apply H. revert E. apply star_blind. intros c1 c2 s. apply (cat_blind (ilit (c :: l) :: rest)).
Qed.

Lemma rfind_inv : forall r s y, rfind r s = Some y -> exists a b, s = a ++ b /\ rmatch r [] b fin = Some y /\
  forall a' b', s = a' ++ b' -> (length a' < length a)%nat -> rmatch r [] b' fin = None.
Proof.
  intros r s y. induction s as [|x s IH]; intros H; cbn [rfind] in H.
  - destruct (rmatch r [] [] _) as [z|] eqn:E; [|discriminate]. injection H as ->. exists [], []. split; [reflexivity|]. split; [exact E|]. cbn [length]. intros; lia.
  - destruct (rmatch r [] (x :: s) _) as [z|] eqn:E.
    + injection H as ->. exists [], (x :: s). split; [reflexivity|]. split; [exact E|]. cbn [length]. intros; lia.
    + destruct (IH H) as (a & b & -> & M & L). exists (x :: a), b. split; [reflexivity|]. split; [exact M|].
      intros [|x' a'] b' Q N; cbn [app length] in *; [subst b'; exact E|]. injection Q as <- Q. apply (L a' b' Q). lia.
Qed.

Lemma max_split : forall p (u v u' v' : bytes), forallb p u = true -> forallb p u' = true -> starts p v = false -> starts p v' = false -> u ++ v = u' ++ v' -> u = u' /\ v = v'.
Proof.
  intros p u. induction u as [|x u IH]; intros v [|x' u'] v' U U' V V' E; cbn [app] in E.
  - split; [reflexivity|exact E].
  - subst v. cbn [starts] in V. cbn [forallb] in U'. rewrite V in U'. discriminate.
  - subst v'. cbn [starts] in V'. cbn [forallb] in U. rewrite V' in U. discriminate.
  - injection E as <- E. cbn [forallb] in U, U'. apply andb_prop in U as [_ U]. apply andb_prop in U' as [_ U'].
    destruct (IH v u' v' U U' V V' E) as [-> ->]. split; reflexivity.
Qed.

Lemma same_split : forall (a v a' v' : bytes), length a = length a' -> a ++ v = a' ++ v' -> a = a' /\ v = v'.
Proof. intros a. induction a as [|x a IH]; intros v [|x' a'] v' L E; try discriminate; [split; [reflexivity|exact E]|]. injection E as <- E. injection L as L. destruct (IH v a' v' L E) as [-> ->]. split; reflexivity. Qed.

Lemma spelled_split : forall l x x' v v', spelled l x -> spelled l x' -> x ++ v = x' ++ v' -> v = v'.
Proof. intros l x x' v v' X X' E. pose proof (strip_spelled l x v X) as S. rewrite E, (strip_spelled l x' v' X') in S. congruence. Qed.

(** What the patterns have after the name of the kind of event. *)
Definition tails : list (bytes * list re) :=
  [(str "SequenceNumber", [spaces_re; number]); (str "MIDIChannelPrefix", [spaces_re; number]); (str "MIDIPort", [spaces_re; number]);
   (str "Text", [spaces_re; rest_re]); (str "Copyright", [spaces_re; rest_re]); (str "TrackName", [spaces_re; rest_re]); (str "InstrumentName", [spaces_re; rest_re]);
   (str "Lyric", [spaces_re; rest_re]); (str "Marker", [spaces_re; rest_re]); (str "CuePoint", [spaces_re; rest_re]); (str "ProgramName", [spaces_re; rest_re]);
   (str "DeviceName", [spaces_re; rest_re]); (str "SysExContinuation", [spaces_re; rest_re]); (str "SysExEscape", [spaces_re; rest_re]);
   (str "Tempo", [spaces_re; ilit (str "tempo:"); number]);
   (str "TimeSignature", [spaces_re; number; ilit (str "/"); Group (cat [cls (fun c => (49 <=? c) && (c <=? 57)); star_of digit]); ilit (str ","); star_of white;
     ilit (str " "); number; ilit (str " ticks per click,"); star_of white;
     Group (cat [cls (fun c => (49 <=? c) && (c <=? 57)); star_of (fun c => (48 <=? c) && (c <=? 56))]); ilit (str "/32 per quarter")]);
   (str "KeySignature", [spaces_re; Group (cat [cls note_letter_i; opt (One accidental)]); spaces_re; Group (Alt (ilit (str "major")) (ilit (str "minor")))]);
   (str "SMPTEOffset", [spaces_re; number; spaces_re; number; spaces_re; number; spaces_re; number; spaces_re; number; spaces_re; number]);
   (str "EndOfTrack", []); (str "SequencerSpecificEvent", spaces_re :: comma_re); (str "SysExMessage", spaces_re :: comma_re);
   (str "NoteOff", channel_re ++ [ilit (str "note:"); note_field; ilit (str ","); star_of white; ilit (str "velocity:"); number]);
   (str "NoteOn", channel_re ++ [ilit (str "note:"); note_field; ilit (str ","); star_of white; ilit (str "velocity:"); number]);
   (str "PolyphonicPressure", channel_re ++ [ilit (str "pressure:"); number]); (str "ChannelPressure", channel_re ++ [ilit (str "pressure:"); number]);
   (str "Controller", star_of dot :: channel_re ++ [number; opt (star_of dot); ilit (str "value:"); number]);
   (str "ProgramChange", channel_re ++ [ilit (str "bank:"); number; ilit (str ","); star_of white; ilit (str "program:"); number]);
   (str "PitchBend", channel_re ++ [ilit (str "bend:"); number])].
Definition rests (tag : bytes) : list re := match find (fun p => bytes_eqb (fst p) tag) tails with Some p => snd p | None => [] end.

(** The text after the name matches. *)
Definition fits (tag tail : bytes) : Prop := rmatch (cat (rests tag)) [] tail fin <> None.
(** A line taken apart; there is no earlier way to do so. *)
Definition taken (tag s pre x d mid z tail : bytes) : Prop :=
  s = pre ++ x ++ d ++ mid ++ z ++ tail /\ spelled (str "delta:") x /\ (d <> [] /\ Forall is_digit d) /\ no_digit (mid ++ z) /\ ~ In 10 mid /\ spelled tag z /\ fits tag tail.
Definition earliest (tag s pre mid : bytes) : Prop := forall pre' x' d' mid' z' tail', taken tag s pre' x' d' mid' z' tail' ->
  (length pre < length pre')%nat \/ (length pre = length pre' /\ (length mid <= length mid')%nat).

Lemma no_digit_app : forall a b, a <> [] -> no_digit a -> no_digit (a ++ b).
Proof. intros [|c a] b N D; [congruence|]. intros c' r E. injection E as <- _. apply (D c a eq_refl). Qed.

Lemma no_digit_begins : forall v, no_digit v -> starts digit v = false.
Proof. intros [|c v] N; [reflexivity|]. cbn [starts]. destruct (digit c) eqn:W; [|reflexivity]. apply digit_is in W. destruct (N c v eq_refl W). Qed.

Lemma cat_some : forall rs c1 c2 s, rmatch (cat rs) c1 s fin <> None -> rmatch (cat rs) c2 s fin <> None.
Proof. intros rs c1 c2 s H E. apply H. revert E. apply cat_blind. Qed.

Lemma word_some : forall l rs caps x v, spelled l x -> rmatch (cat rs) [] v fin <> None -> rmatch (cat (ilit l :: rs)) caps (x ++ v) fin <> None.
Proof. intros l rs caps x v X R. rewrite rmatch_cat. cbn [rmatch ilit]. rewrite (strip_spelled l x v X). revert R. apply cat_some. Qed.

Lemma lazy_some : forall c caps k u v, forallb c u = true -> k caps v <> None -> star false c caps k (u ++ v) <> None.
Proof.
  intros c caps k u v U K. induction u as [|x u IH]; cbn [app].
  - destruct v as [|z v]; [exact K|]. cbn [star]. destruct (c z); [|exact K]. destruct (k caps (z :: v)); [discriminate|congruence].
  - cbn [forallb] in U. apply andb_prop in U as [X U]. cbn [star]. rewrite X. destruct (k caps (x :: u ++ v)); [discriminate|apply IH, U].
Qed.

Lemma greedy_some : forall c caps k u v, forallb c u = true -> k caps v <> None -> star true c caps k (u ++ v) <> None.
Proof.
  intros c caps k u v U K. induction u as [|x u IH]; cbn [app].
  - intros E. apply star_none_k in E. contradiction.
  - cbn [forallb] in U. apply andb_prop in U as [X U]. cbn [star]. rewrite X. specialize (IH U). destruct (star true c caps k (u ++ v)); [discriminate|congruence].
Qed.

Lemma number_some : forall rs caps d v, d <> [] -> Forall is_digit d -> rmatch (cat rs) [] v fin <> None -> rmatch (cat (number :: rs)) caps (d ++ v) fin <> None.
Proof.
  intros rs caps d v N D R. rewrite rmatch_cat. unfold number, plus. cbn [rmatch cls]. destruct d as [|c d]; [congruence|]. cbn [app byte1].
  apply digits_are in D. cbn [forallb] in D. apply andb_prop in D as [C D]. rewrite C. apply greedy_some; [exact D|]. revert R. apply cat_some.
Qed.

Lemma taken_matches : forall tag s pre x d mid z tail, taken tag s pre x d mid z tail -> rmatch (event_re tag (rests tag)) [] (x ++ d ++ mid ++ z ++ tail) fin <> None.
Proof.
  intros tag s pre x d mid z tail (_ & X & (N & D) & _ & M & Z & F). unfold event_re. cbn [app]. apply word_some; [exact X|]. apply number_some; [exact N|exact D|].
  rewrite rmatch_cat. cbn [rmatch]. apply lazy_some; [apply dots_are, M|]. apply word_some; [exact Z|exact F].
Qed.

(** The parts of a line up to the name of the kind of event. *)
Definition found (tag s d tail : bytes) : Prop :=
  exists pre x mid z, s = pre ++ x ++ d ++ mid ++ z ++ tail /\ spelled (str "delta:") x /\ ~ In 10 mid /\ spelled tag z /\ no_digit (mid ++ z) /\
    taken tag s pre x d mid z tail /\ earliest tag s pre mid.

Lemma spelled_nonempty : forall c l z, spelled (c :: l) z -> z <> [].
Proof. intros c l z H. remember (c :: l) as w. destruct H; discriminate. Qed.

Lemma event_inv : forall c l rest s y, digit (lower c) = false -> rest = rests (c :: l) -> rfind (event_re (c :: l) rest) s = Some y ->
  exists d tail, found (c :: l) s d tail /\ rmatch (cat rest) [d] tail fin = Some y.
Proof.
  intros c l rest s y N ER H. apply rfind_inv in H as (pre & b & -> & H & L). unfold event_re in H. cbn [app] in H.
  apply i_word in H as (x & v & -> & X & H). apply i_group_plus in H as (d & v' & -> & ND & DD & H & MD). specialize (MD (tag_passes c l rest N)).
  rewrite rmatch_cat in H. cbn [rmatch] in H. apply star_shortest in H as (mid & w & -> & U & H & M).
  apply i_word in H as (z & tail & -> & Z & H). exists d, tail. split; [|exact H]. exists pre, x, mid, z.
  assert (NM : no_digit (mid ++ z)). { intros k r E. rewrite app_assoc, E in MD. cbn [app starts] in MD. intros Q. apply digit_is in Q. congruence. }
  split; [reflexivity|]. split; [exact X|]. split; [apply dots_are, U|]. split; [exact Z|]. split; [exact NM|]. split.
  - split; [reflexivity|]. split; [exact X|]. split; [split; [exact ND|apply digits_are, DD]|]. split; [exact NM|]. split; [apply dots_are, U|]. split; [exact Z|].
    unfold fits. rewrite <- ER. apply (cat_some _ ([] ++ [d])). rewrite H. discriminate.
  - intros pre' x' d' mid' z' tail' T. destruct (Nat.lt_ge_cases (length pre') (length pre)) as [G|G].
    + exfalso. pose proof (taken_matches _ _ _ _ _ _ _ _ T) as Q. apply Q. rewrite <- ER. destruct T as (E & _). apply (L pre' _ E G).
    + destruct (Nat.eq_dec (length pre) (length pre')) as [EL|]; [|left; lia]. right. split; [exact EL|].
      destruct T as (E & X' & (ND' & DD') & NM' & M' & Z' & F). apply (same_split _ _ _ _ EL) in E as [_ E]. apply (spelled_split _ _ _ _ _ X X') in E.
      apply (max_split digit) in E as [_ E]; [|exact DD|apply digits_are, DD'|exact MD|].
      2:{ rewrite app_assoc. apply no_digit_begins, no_digit_app; [|exact NM']. intros Q. apply app_eq_nil in Q as [_ Q]. apply (spelled_nonempty _ _ _ Z' Q). }
      destruct (Nat.le_gt_cases (length mid) (length mid')) as [|G']; [assumption|exfalso].
      assert (EM : mid = mid' ++ skipn (length mid') mid).
      { rewrite <- (firstn_skipn (length mid') mid) at 1. f_equal. pose proof (f_equal (firstn (length mid')) E) as Q. rewrite firstn_app in Q.
        replace (length mid' - length mid)%nat with 0%nat in Q by lia. rewrite firstn_O, app_nil_r in Q. rewrite Q, firstn_app, firstn_all, Nat.sub_diag, firstn_O, app_nil_r. reflexivity. }
      rewrite EM in E. rewrite <- app_assoc in E. apply app_inv_head in E.
      assert (NB : skipn (length mid') mid <> []). { intros Q. pose proof (skipn_length (length mid') mid) as SL. rewrite Q in SL. cbn [length] in SL. lia. }
      specialize (M _ _ EM NB). revert M. rewrite E. apply word_some; [exact Z'|]. unfold fits in F. rewrite <- ER in F. exact F.
Qed.

Lemma value_nonneg : forall s, Forall is_digit s -> 0 <= digits_value s.
Proof.
  intros s F. unfold digits_value. assert (G : forall v, 0 <= v -> 0 <= fold_left (fun v c => v * 10 + (c - 48)) s v); [|apply G; lia].
  induction F as [|c s C F IH]; intros v V; cbn [fold_left]; [exact V|]. apply IH. unfold is_digit in C. lia.
Qed.

Lemma parse_uint_inv : forall bits s n, parse_uint bits s = Ok n -> num n s /\ 0 <= n < 2 ^ bits.
Proof.
  intros bits s n H. unfold parse_uint in H. destruct s as [|c s]; [discriminate|]. destruct (forallb digit (c :: s)) eqn:F; [|discriminate].
  destruct (decimal_value (c :: s) <? 2 ^ bits) eqn:B; [|discriminate]. apply Ok_inj in H. subst n. apply digits_are in F.
  split; [split; [discriminate|split; [exact F|reflexivity]]|]. split; [apply (value_nonneg _ F)|lia].
Qed.

Lemma parse_uint_num : forall bits s n, num n s -> n < 2 ^ bits -> parse_uint bits s = Ok n.
Proof.
  intros bits s n (N & F & ->) B. unfold parse_uint. destruct s as [|c s]; [congruence|]. apply digits_are in F. rewrite F.
  change (decimal_value (c :: s)) with (digits_value (c :: s)). replace (digits_value (c :: s) <? 2 ^ bits) with true by lia. reflexivity.
Qed.

Lemma uint8 : forall s n, parse_uint 8 s = Ok n -> num n s /\ 0 <= n < 256.
Proof. intros s n. exact (parse_uint_inv 8 s n). Qed.
Lemma uint16 : forall s n, parse_uint 16 s = Ok n -> num n s /\ 0 <= n < 65536.
Proof. intros s n. exact (parse_uint_inv 16 s n). Qed.
Lemma uint32 : forall s n, parse_uint 32 s = Ok n -> num n s /\ 0 <= n < 4294967296.
Proof. intros s n. exact (parse_uint_inv 32 s n). Qed.

Lemma parse_channel_inv : forall s n, parse_channel s = Ok n -> num n s /\ 0 <= n < 16.
Proof.
  intros s n H. unfold parse_channel in H. destruct (parse_uint 8 s) as [c| | | |] eqn:E; try discriminate. cbn [bind] in H.
  destruct (15 <? c) eqn:L; [discriminate|]. apply Ok_inj in H. subst c. apply uint8 in E as [E B]. split; [exact E|lia].
Qed.

Definition parts (table : list (bytes * manufacturer)) (s : bytes) (e : event) : Prop :=
  line_header e /\ exists pre x d mid y tail, line_parts table s pre x d mid y tail e /\
    taken (kind_name (e_body e)) s pre x d mid y tail /\ earliest (kind_name (e_body e)) s pre mid.

Lemma mk_parts : forall table s d tail delta st ty b, found (kind_name b) s d tail -> parse_delta d = Ok delta -> details table tail b ->
  line_header (Event 0 delta [] st ty b) -> parts table s (Event 0 delta [] st ty b).
Proof.
  intros table s d tail delta st ty b (pre & x & mid & z & -> & X & M & Z & N & TK & FP) D T H. apply uint32 in D as [D B]. split; [exact H|].
  exists pre, x, d, mid, z, tail. split; [|split; [exact TK|exact FP]]. split; [reflexivity|]. cbn [e_delta e_body]. repeat (split; [assumption || lia|]). assumption.
Qed.

Ltac ok_step H := match type of H with
  | bind ?x _ = Ok _ => let E := fresh "P" in destruct x eqn:E; try discriminate H; cbn [bind] in H
  | (if ?x then _ else _) = Ok _ => let E := fresh "C" in destruct x eqn:E; try discriminate H
  end.
Ltac find H T := match type of H with match ?x with _ => _ end = Ok _ => let F := fresh "F" in let y := fresh "y" in destruct x as [y|] eqn:F; [|discriminate H];
  apply event_inv in F as (d & tail & F & T); [|reflexivity|reflexivity] end.
Ltac done_re T := rewrite rmatch_nil in T; injection T as <-; cbn [app] in *.

Lemma seqno_parts : forall table s e, text_sequence_number s = Ok e -> parts table s e.
Proof.
  intros table s e H. unfold text_sequence_number, re_sequence_number in H. find H T.
  apply i_sp in T as (w & v & -> & W & T & _). apply i_num in T as (u & r & -> & T & N). specialize (N (fin_passes digit)). done_re T.
  repeat ok_step H. apply Ok_inj in H. subst e. apply uint16 in P0 as [P0 B]. eapply mk_parts; [exact F|exact P| |].
  - apply de_seqno; [exact W|exact P0|exact N|lia].
  - repeat split; cbn; try discriminate; congruence.
Qed.

Ltac no_status := repeat split; cbn; try discriminate; try reflexivity; try congruence.

(** ** The rest of the kinds *)

Lemma rest_passes : forall p, passes p (fun caps s => rmatch (cat [rest_re]) caps s fin).
Proof.
  intros p caps caps' x r _ _ E. rewrite rmatch_cat in E. unfold rest_re in E. cbn [rmatch star_of] in E. apply star_none_k in E. discriminate.
Qed.

Lemma i_text : forall caps s y, rmatch (cat [spaces_re; rest_re]) caps s fin = Some y ->
  exists w t r, s = w ++ t ++ r /\ blank w /\ no_white (t ++ r) /\ ~ In 10 t /\ line_end r /\ y = caps ++ [t].
Proof.
  intros caps s y H. apply i_sp in H as (w & v & -> & W & H & N). specialize (N (rest_passes white)). apply i_rest in H as (t & r & -> & T & R & ->).
  exists w, t, r. repeat (split; [reflexivity || assumption|]). reflexivity.
Qed.

Lemma text_parts : forall k table s e, text_text k s = Ok e -> parts table s e.
Proof.
  intros k table s e H. unfold text_text, re_text in H. 
  assert (K : text_tag k = kind_name (TextEvent k [])) by (destruct k; reflexivity).
  destruct (rfind _ s) as [y|] eqn:F; [|discriminate H].
  assert (G : exists d tail, found (text_tag k) s d tail /\ rmatch (cat [spaces_re; rest_re]) [d] tail fin = Some y).
  { destruct k; (apply event_inv in F; [exact F|reflexivity|reflexivity]). }
  destruct G as (d & tail & G & T). apply i_text in T as (w & t & r & -> & W & N & I & R & ->). cbn [app] in H. ok_step H. apply Ok_inj in H. subst e.
  unfold make_text. eapply mk_parts.
  - change (kind_name (TextEvent k t)) with (kind_name (TextEvent k [])). rewrite <- K. exact G.
  - exact P.
  - apply de_text; assumption.
  - destruct k; no_status.
Qed.

Lemma prefix_parts : forall table s e, text_channel_prefix s = Ok e -> parts table s e.
Proof.
  intros table s e H. unfold text_channel_prefix, re_channel_prefix in H. find H T.
  apply i_sp in T as (w & v & -> & W & T & _). apply i_num in T as (u & r & -> & T & N). specialize (N (fin_passes digit)). done_re T.
  repeat ok_step H. unfold make_channel_prefix in H. rewrite C in H. apply Ok_inj in H. subst e. apply uint8 in P0 as [P0 B].
  eapply mk_parts; [exact F|exact P| |no_status]. apply de_prefix; [exact W|exact P0|exact N|lia].
Qed.

Lemma port_parts : forall table s e, text_port s = Ok e -> parts table s e.
Proof.
  intros table s e H. unfold text_port, re_port in H. find H T.
  apply i_sp in T as (w & v & -> & W & T & _). apply i_num in T as (u & r & -> & T & N). specialize (N (fin_passes digit)). done_re T.
  repeat ok_step H. unfold make_port in H. rewrite C in H. apply Ok_inj in H. subst e. apply uint8 in P0 as [P0 B].
  eapply mk_parts; [exact F|exact P| |no_status]. apply de_port; [exact W|exact P0|exact N|lia].
Qed.

Lemma tempo_parts : forall table s e, text_tempo s = Ok e -> parts table s e.
Proof.
  intros table s e H. unfold text_tempo, re_tempo in H. find H T.
  apply i_sp in T as (w & v & -> & W & T & _). apply i_word in T as (x & v' & -> & X & T).
  apply i_num in T as (u & r & -> & T & N). specialize (N (fin_passes digit)). done_re T.
  repeat ok_step H. apply Ok_inj in H. subst e. apply uint32 in P0 as [P0 B].
  eapply mk_parts; [exact F|exact P| |no_status]. apply de_tempo; [exact W|exact X|exact P0|exact N|lia].
Qed.

Lemma spelled_one : forall c x, lower c <> 107 -> lower c <> 115 -> c < 65 -> spelled [c] x -> x = [c].
Proof.
  intros c x K S L H. remember [c] as w eqn:E. destruct H as [|c' x l s L' H|c' l s L' H|c' l s L' H]; try discriminate; injection E as -> ->;
  destruct s as [|z s]; try (inversion H; fail).
  - f_equal. unfold same_letter in L'. lia.
  - apply lower_same in L'. change (lower 75) with 107 in L'. congruence.
  - apply lower_same in L'. change (lower 83) with 115 in L'. congruence.
Qed.

Lemma i_lead : forall (p : Z -> bool) rs caps s y, rmatch (cat (Group (cat [cls (fun c => (49 <=? c) && (c <=? 57)); star_of p]) :: rs)) caps s fin = Some y ->
  exists c u v, s = (c :: u) ++ v /\ 49 <= c <= 57 /\ forallb p u = true /\ rmatch (cat rs) (caps ++ [c :: u]) v fin = Some y.
Proof.
  intros p rs caps s y H. rewrite rmatch_cat in H. cbn [rmatch cat fold_right cls star_of] in H. destruct s as [|c s]; [discriminate|]. cbn [byte1] in H.
  destruct ((49 <=? c) && (c <=? 57)) eqn:C; [|discriminate]. apply star_greedy in H as (u & v & -> & U & K & _). exists c, u, v.
  change (c :: u ++ v) with ((c :: u) ++ v) in K. rewrite group_capture in K. split; [reflexivity|]. split; [lia|]. split; [exact U|exact K].
Qed.

Lemma log2_limit : forall d, 0 <= d < 256 -> (exists x, log2_loop 9 1 d 0 = Ok x) <-> d <= 128.
Proof.
  intros d D. pose proof (byte_sweep (fun b => match log2_loop 9 1 b 0 with Ok _ => b <=? 128 | _ => 128 <? b end) ltac:(vm_compute; reflexivity) d D) as E.
  cbv beta in E. destruct (log2_loop 9 1 d 0); (split; [intros [x X]; try discriminate X; lia|intros L; try lia; eexists; reflexivity]).
Qed.

Lemma time_parts : forall table s e, text_time_signature s = Ok e -> parts table s e.
Proof.
  intros table s e H. unfold text_time_signature, re_time_signature in H. find H T.
  apply i_sp in T as (w & v & -> & W & T & _). apply i_num in T as (s1 & v1 & -> & T & _). apply i_word in T as (x1 & v2 & -> & X1 & T).
  apply i_lead in T as (c2 & s2 & v3 & -> & C2 & _ & T). apply i_word in T as (x2 & v4 & -> & X2 & T). apply i_ws in T as (w2 & v5 & -> & W2 & T).
  apply i_word in T as (x3 & v6 & -> & X3 & T). apply i_num in T as (s3 & v7 & -> & T & _). apply i_word in T as (x4 & v8 & -> & X4 & T).
  apply i_ws in T as (w3 & v9 & -> & W3 & T). apply i_lead in T as (c4 & s4 & v10 & -> & C4 & S4 & T). apply i_word in T as (x5 & r & -> & X5 & T). done_re T.
  apply spelled_one in X1; [|discriminate|discriminate|reflexivity]. apply spelled_one in X2; [|discriminate|discriminate|reflexivity].
  apply spelled_one in X3; [|discriminate|discriminate|reflexivity]. subst x1 x2 x3.
  repeat ok_step H. unfold make_time_signature in H. ok_step H. apply Ok_inj in H. subst e.
  apply uint8 in P0 as [P0 B0]. apply uint8 in P1 as [P1 B1]. apply uint8 in P2 as [P2 B2]. apply uint8 in P3 as [P3 B3].
  assert (L : a1 <= 128) by (apply log2_limit; [exact B1|eexists; exact P4]).
  eapply mk_parts; [exact F|exact P| |no_status].
  apply (de_time table w s1 (c2 :: s2) w2 s3 x4 w3 (c4 :: s4) x5 r); try assumption; try lia; [cbn [hd]; lia|cbn [hd]; lia|].
  cbn [tl]. apply Forall_forall. intros c I. rewrite forallb_forall in S4. specialize (S4 c I). lia.
Qed.

(** ** Notes and keys *)

Lemma accidental_says : forall s r, accidental s = Some r -> exists a k, s = a ++ r /\ sign a k /\ a <> [].
Proof.
  assert (S : forall l s r, strip l s = Some r -> s = l ++ r).
  { induction l as [|c l IH]; intros s r H; [destruct s; injection H as <-; reflexivity|]. destruct s as [|x s]; [discriminate|]. cbn [strip] in H.
    destruct (c =? x) eqn:E; [|discriminate]. apply IH in H. subst s. cbn [app]. f_equal. lia. }
  intros s r H. unfold accidental in H. destruct (strip (str "♯") s) as [z|] eqn:E.
  - injection H as ->. apply S in E. exists [226; 153; 175], 1. split; [exact E|]. split; [constructor|discriminate].
  - apply S in H. exists [226; 153; 173], (-1). split; [exact H|]. split; [constructor|discriminate].
Qed.

Lemma letter_says : forall c, note_letter_i c = true -> exists l, 65 <= l <= 71 /\ same_letter l c.
Proof.
  intros c H. unfold note_letter_i, note_letter in H. destruct (97 <=? c) eqn:E; [exists (c - 32)|exists c]; unfold same_letter; lia.
Qed.

Lemma i_note : forall rs caps s y, rmatch (cat (note_field :: rs)) caps s fin = Some y ->
  exists c a k o v, s = (c :: a ++ [o]) ++ v /\ note_letter_i c = true /\ sign a k /\ is_digit o /\ rmatch (cat rs) (caps ++ [c :: a ++ [o]]) v fin = Some y.
Proof.
  intros rs caps s y H. rewrite rmatch_cat in H. unfold note_field in H. cbn [rmatch cat fold_right cls opt] in H. destruct s as [|c s]; [discriminate|].
  cbn [byte1] in H. destruct (note_letter_i c) eqn:C; [|discriminate].
  assert (G : forall a k t, sign a k -> s = a ++ t -> match byte1 digit t with
     | Some s'0 => rmatch (cat rs) (caps ++ [firstn (length (c :: s) - length s'0) (c :: s)]) s'0 fin | None => None end = Some y ->
     exists c0 a0 k0 o v, c :: s = (c0 :: a0 ++ [o]) ++ v /\ note_letter_i c0 = true /\ sign a0 k0 /\ is_digit o /\ rmatch (cat rs) (caps ++ [c0 :: a0 ++ [o]]) v fin = Some y).
  { intros a k t A -> K. destruct t as [|o t]; [discriminate|]. cbn [byte1] in K. destruct (digit o) eqn:O; [|discriminate].
    exists c, a, k, o, t. assert (E : c :: a ++ o :: t = (c :: a ++ [o]) ++ t) by (cbn [app]; rewrite <- app_assoc; reflexivity).
    split; [exact E|]. split; [exact C|]. split; [exact A|]. split; [apply digit_is, O|]. rewrite E, group_capture in K. exact K. }
  unfold opt in H. cbn [rmatch] in H.
  destruct (accidental s) as [t|] eqn:A.
  - destruct (byte1 digit t) as [v|] eqn:B.
    + match type of H with match ?m with _ => _ end = _ => destruct m as [z|] eqn:E end.
      * destruct (accidental_says s t A) as (a & k & S & K & _). apply (G a k t K S). rewrite B. rewrite <- H. exact E.
      * apply (G [] 0 s sg_none eq_refl). exact H.
    + apply (G [] 0 s sg_none eq_refl). exact H.
  - apply (G [] 0 s sg_none eq_refl). exact H.
Qed.

Lemma parse_note_is : forall c a k o, note_letter_i c = true -> sign a k -> is_digit o ->
  parse_note (c :: a ++ [o]) =
    if note_letter c then Ok (Note (12 * (o - 48 + 1) + (letter_class c + k) mod 12) (c :: a ++ [o]) (c :: a ++ [o])) else Err.
Proof.
  intros c a k o C A O.
  assert (CC : c = 65 \/ c = 66 \/ c = 67 \/ c = 68 \/ c = 69 \/ c = 70 \/ c = 71 \/ c = 97 \/ c = 98 \/ c = 99 \/ c = 100 \/ c = 101 \/ c = 102 \/ c = 103)
    by (unfold note_letter_i, note_letter in C; lia).
  assert (OO : o = 48 \/ o = 49 \/ o = 50 \/ o = 51 \/ o = 52 \/ o = 53 \/ o = 54 \/ o = 55 \/ o = 56 \/ o = 57) by (unfold is_digit in O; lia).
  clear C O. destruct A; decompose [or] CC; subst c; decompose [or] OO; subst o; vm_compute; reflexivity.
Qed.

Lemma parse_note_inv : forall c a k o n, note_letter_i c = true -> sign a k -> is_digit o -> parse_note (c :: a ++ [o]) = Ok n -> note_says (c :: a ++ [o]) n.
Proof.
  intros c a k o n C A O H. rewrite (parse_note_is c a k o C A O) in H. destruct (note_letter c) eqn:L; [|discriminate]. apply Ok_inj in H. subst n.
  apply ns; [unfold note_letter in L; lia|exact A|exact O].
Qed.

Lemma i_mode : forall rs caps s y, rmatch (cat (Group (Alt (ilit (str "major")) (ilit (str "minor"))) :: rs)) caps s fin = Some y ->
  exists (minor : bool) x v, s = x ++ v /\ spelled (if minor then str "minor" else str "major") x /\ rmatch (cat rs) (caps ++ [x]) v fin = Some y.
Proof.
  intros rs caps s y H. rewrite rmatch_cat in H. cbn [rmatch ilit] in H.
  destruct (strip_fold (str "major") s) as [v|] eqn:E.
  - match type of H with match ?m with _ => _ end = _ => destruct m as [z|] eqn:R end.
    + apply strip_says in E as (x & -> & X). rewrite group_capture in R. exists false, x, v. split; [reflexivity|]. split; [exact X|]. rewrite R. exact H.
    + destruct (strip_fold (str "minor") s) as [v'|] eqn:E'; [|discriminate]. apply strip_says in E' as (x & -> & X). rewrite group_capture in H.
      exists true, x, v'. split; [reflexivity|]. split; [exact X|exact H].
  - destruct (strip_fold (str "minor") s) as [v'|] eqn:E'; [|discriminate]. apply strip_says in E' as (x & -> & X). rewrite group_capture in H.
    exists true, x, v'. split; [reflexivity|]. split; [exact X|exact H].
Qed.

Lemma i_tonic : forall rs caps s y, rmatch (cat (Group (cat [cls note_letter_i; opt (One accidental)]) :: rs)) caps s fin = Some y ->
  exists c a k v, s = (c :: a) ++ v /\ note_letter_i c = true /\ sign a k /\ rmatch (cat rs) (caps ++ [c :: a]) v fin = Some y.
Proof.
  intros rs caps s y H. rewrite rmatch_cat in H. cbn [rmatch cat fold_right cls opt] in H. destruct s as [|c s]; [discriminate|].
  cbn [byte1] in H. destruct (note_letter_i c) eqn:C; [|discriminate].
  assert (G : forall a k t, sign a k -> s = a ++ t -> rmatch (cat rs) (caps ++ [firstn (length (c :: s) - length t) (c :: s)]) t fin = Some y ->
    exists c0 a0 k0 v, c :: s = (c0 :: a0) ++ v /\ note_letter_i c0 = true /\ sign a0 k0 /\ rmatch (cat rs) (caps ++ [c0 :: a0]) v fin = Some y).
  { intros a k t A -> K. exists c, a, k, t. split; [reflexivity|]. split; [exact C|]. split; [exact A|].
    change (c :: a ++ t) with ((c :: a) ++ t) in K. rewrite group_capture in K. exact K. }
  unfold opt in H. cbn [rmatch] in H. destruct (accidental s) as [t|] eqn:A.
  - match type of H with match ?m with _ => _ end = _ => destruct m as [z|] eqn:E end.
    + destruct (accidental_says s t A) as (a & k & S & K & _). apply (G a k t K S). rewrite <- H. exact E.
    + apply (G [] 0 s sg_none eq_refl). exact H.
  - apply (G [] 0 s sg_none eq_refl). exact H.
Qed.

Lemma spelled_lower : forall l x, forallb (fun c => negb (lower c =? 107) && negb (lower c =? 115)) l = true -> spelled l x -> map lower x = map lower l.
Proof.
  intros l x F H. induction H as [|c x l s L H IH|c l s L H IH|c l s L H IH]; [reflexivity| | |]; cbn [forallb] in F; apply andb_prop in F as [F1 F2]; apply lower_same in L.
  - cbn [map]. rewrite L. f_equal. apply IH, F2.
  - change (lower 75) with 107 in L. lia.
  - change (lower 83) with 115 in L. lia.
Qed.

Definition mode_word (minor : bool) : bytes := if minor then str "minor" else str "major".

Ltac try_keys k := first [exact (ks_key k (-7) ltac:(unfold key_range; lia)) | exact (ks_key k (-6) ltac:(unfold key_range; lia))
  | exact (ks_key k (-5) ltac:(unfold key_range; lia)) | exact (ks_key k (-4) ltac:(unfold key_range; lia)) | exact (ks_key k (-3) ltac:(unfold key_range; lia))
  | exact (ks_key k (-2) ltac:(unfold key_range; lia)) | exact (ks_key k (-1) ltac:(unfold key_range; lia)) | exact (ks_key k 0 ltac:(unfold key_range; lia))
  | exact (ks_key k 1 ltac:(unfold key_range; lia)) | exact (ks_key k 2 ltac:(unfold key_range; lia)) | exact (ks_key k 3 ltac:(unfold key_range; lia))
  | exact (ks_key k 4 ltac:(unfold key_range; lia)) | exact (ks_key k 5 ltac:(unfold key_range; lia)) | exact (ks_key k 6 ltac:(unfold key_range; lia))
  | exact (ks_key k 7 ltac:(unfold key_range; lia))].

Ltac not_key := apply ks_none; intros m acc K;
  assert (A : acc = -7 \/ acc = -6 \/ acc = -5 \/ acc = -4 \/ acc = -3 \/ acc = -2 \/ acc = -1 \/ acc = 0 \/ acc = 1 \/
    acc = 2 \/ acc = 3 \/ acc = 4 \/ acc = 5 \/ acc = 6 \/ acc = 7) by (unfold key_range in K; lia); clear K;
  destruct m; decompose [or] A; subst acc; vm_compute; discriminate.

(** The event of a key. *)
Lemma key_is : forall l a k (minor : bool) c x delta, 65 <= l <= 71 -> same_letter l c -> sign a k -> spelled (mode_word minor) x ->
  exists b, (let '(acc, kt) := key_by_name (to_lower ((c :: a) ++ [32] ++ x)) in make_key_signature 0 delta acc kt []) = Ok (Event 0 delta [] 255 89 b) /\
    key_says (l :: a ++ (if minor then str " minor" else str " major")) b /\ kind_name b = str "KeySignature".
Proof.
  intros l a k minor c x delta L S A X. apply lower_same in S.
  assert (E : to_lower ((c :: a) ++ [32] ++ x) = map lower (l :: a ++ (if minor then str " minor" else str " major"))).
  { unfold to_lower. cbn [app map]. rewrite S. f_equal. rewrite !map_app. f_equal.
    assert (X' : map lower x = map lower (mode_word minor)) by (apply spelled_lower; [destruct minor; reflexivity|exact X]).
    cbn [map]. rewrite X'. destruct minor; reflexivity. }
  rewrite E. clear E X S.
  assert (LL : l = 65 \/ l = 66 \/ l = 67 \/ l = 68 \/ l = 69 \/ l = 70 \/ l = 71) by lia. clear L.
  destruct A, minor; decompose [or] LL; subst l;
  (eexists; split; [cbv; reflexivity|split; [|reflexivity]]; first [try_keys true|try_keys false|not_key]).
Qed.

Lemma key_parts : forall table s e, text_key_signature s = Ok e -> parts table s e.
Proof.
  intros table s e H. unfold text_key_signature, re_key_signature in H. find H T.
  apply i_sp in T as (w & v & -> & W & T & _). apply i_tonic in T as (c & a & k & v1 & -> & C & A & T). apply i_sp in T as (w2 & v2 & -> & W2 & T & _).
  apply i_mode in T as (minor & x & r & -> & X & T). done_re T. ok_step H. apply letter_says in C as (l & L & S).
  destruct (key_is l a k minor c x a0 L S A X) as (b & E & K & N). 
  assert (Q : Ok e = Ok (Event 0 a0 [] 255 89 b)) by (rewrite <- E; symmetry; exact H). apply Ok_inj in Q. subst e.
  eapply mk_parts; [rewrite N; exact F|exact P| |].
  - apply (de_key table w l c a k w2 minor x r b); assumption.
  - destruct K; no_status.
Qed.

(** ** Numbers only *)

Lemma smpte_parts : forall table s e, text_smpte_offset s = Ok e -> parts table s e.
Proof.
  intros table s e H. unfold text_smpte_offset, re_smpte_offset in H. find H T.
  apply i_sp in T as (w1 & v & -> & W1 & T & _). apply i_num in T as (s1 & v1 & -> & T & _). apply i_sp in T as (w2 & v2 & -> & W2 & T & _).
  apply i_num in T as (s2 & v3 & -> & T & _). apply i_sp in T as (w3 & v4 & -> & W3 & T & _). apply i_num in T as (s3 & v5 & -> & T & _).
  apply i_sp in T as (w4 & v6 & -> & W4 & T & _). apply i_num in T as (s4 & v7 & -> & T & _). apply i_sp in T as (w5 & v8 & -> & W5 & T & _).
  apply i_num in T as (s5 & v9 & -> & T & _). apply i_sp in T as (w6 & v10 & -> & W6 & T & _). apply i_num in T as (s6 & r & -> & T & N).
  specialize (N (fin_passes digit)). done_re T. repeat ok_step H. unfold make_smpte_offset in H. repeat ok_step H. apply Ok_inj in H. subst e.
  apply uint8 in P0 as [P0 B0]. apply uint8 in P1 as [P1 B1]. apply uint8 in P2 as [P2 B2]. apply uint8 in P3 as [P3 B3]. apply uint8 in P4 as [P4 B4].
  apply uint8 in P5 as [P5 B5]. eapply mk_parts; [exact F|exact P| |no_status].
  apply de_smpte; try assumption; try lia. cbn [In]. lia.
Qed.

Lemma end_parts : forall table s e, text_end_of_track s = Ok e -> parts table s e.
Proof.
  intros table s e H. unfold text_end_of_track, re_end_of_track in H. find H T. done_re T. ok_step H. apply Ok_inj in H. subst e.
  eapply mk_parts; [exact F|exact P|apply de_end|no_status].
Qed.

(** ** Manufacturers and data *)

Lemma comma_says : forall x, spelled [44] x -> x = [44].
Proof. intros x. apply spelled_one; [discriminate|discriminate|reflexivity]. Qed.

Lemma comma_passes : passes white (fun caps s => rmatch (cat comma_re) caps s fin).
Proof.
  intros caps caps' x r W H E. apply H. clear H. unfold comma_re in *. rewrite rmatch_cat in *. cbn [rmatch] in *. cbn [star].
  assert (K : forall c, rmatch (cat [ilit (str ","); rest_re]) c (x :: r) fin = None).
  { intros c. rewrite rmatch_cat. cbn [rmatch ilit]. change (str ",") with [44]. cbn [strip_fold]. rewrite ascii_fold; [reflexivity|unfold white in W; lia|].
    change (lower 44) with 44. unfold lower, white in *. destruct ((65 <=? x) && (x <=? 90)) eqn:Q; lia. }
  rewrite K. destruct (dot x); [|reflexivity].
  assert (B : forall s0 c1 k1 s1, star false dot c1 (fun (caps'0 : list bytes) (s' : bytes) => rmatch (cat [ilit (str ","); rest_re]) (caps'0 ++ [firstn (length s0 - length s') s0]) s' fin) s1 = k1 -> k1 = None ->
     forall s2 c2, star false dot c2 (fun (caps'0 : list bytes) (s' : bytes) => rmatch (cat [ilit (str ","); rest_re]) (caps'0 ++ [firstn (length s2 - length s') s2]) s' fin) s1 = None).
  { intros s0 c1 k1 s1 <- Q s2 c2. revert Q. induction s1 as [|z s1 IH]; intros Q; cbn [star] in *.
    - revert Q. apply cat_blind.
    - destruct (dot z).
      + match type of Q with match ?m with _ => _ end = _ => destruct m eqn:M; [discriminate|] end.
        match goal with |- match ?m with _ => _ end = _ => replace m with (@None (list bytes)) by (symmetry; revert M; apply cat_blind) end. apply IH, Q.
      + revert Q. apply cat_blind. }
  eapply B; [exact E|reflexivity].
Qed.

Lemma i_comma : forall caps s y, rmatch (cat (spaces_re :: comma_re)) caps s fin = Some y ->
  exists w name t r, s = w ++ name ++ [44] ++ t ++ r /\ blank w /\ no_white (name ++ [44]) /\ ~ In 44 name /\ ~ In 10 name /\ ~ In 10 t /\ line_end r /\
    y = (caps ++ [name]) ++ [t].
Proof.
  intros caps s y H. apply i_sp in H as (w & v & -> & W & H & N). specialize (N comma_passes). unfold comma_re in H. rewrite rmatch_cat in H. cbn [rmatch] in H.
  apply star_shortest in H as (name & v' & -> & D & H & M). rewrite group_capture in H. apply i_word in H as (x & v'' & -> & X & H). apply comma_says in X. subst x.
  apply i_rest in H as (t & r & -> & T & R & ->). exists w, name, t, r. split; [reflexivity|]. split; [exact W|].
  split. { intros c z E. apply (N c (z ++ t ++ r)). rewrite app_assoc, E. reflexivity. }
  split; [|split; [apply dots_are, D|repeat (split; [assumption|]); reflexivity]].
  intros I. apply in_split in I as (a & b & ->). specialize (M a (44 :: b) eq_refl ltac:(discriminate)). cbn [app] in M.
  rewrite rmatch_cat in M. cbn [rmatch ilit] in M. change (str ",") with [44] in M. cbn [strip_fold fold1] in M. rewrite Z.eqb_refl in M.
  apply (rest_passes dot [] _ 0 _) in M; [contradiction|reflexivity|]. intros Q. rewrite rmatch_cat in Q. unfold rest_re in Q. cbn [rmatch star_of] in Q.
  apply star_none_k in Q. discriminate.
Qed.

Lemma maker_is : forall table s m, find_manufacturer table s = Ok m <-> maker_says table s m.
Proof.
  intros table s m. split.
  - induction table as [|[k m'] table IH]; intros H; [discriminate|]. cbn [find_manufacturer] in H. destruct (bytes_eqb s (m_name m')) eqn:E.
    + apply Ok_inj in H. subst m'. exists [], k, table. split; [reflexivity|]. apply bytes_eqb_eq in E. split; [congruence|constructor].
    + destruct (IH H) as (l1 & k' & l2 & -> & N & F). exists ((k, m') :: l1), k', l2. split; [reflexivity|]. split; [exact N|]. constructor; [|exact F].
      cbn [snd]. intros Q. rewrite (proj2 (bytes_eqb_eq _ _)) in E by (symmetry; exact Q). discriminate.
  - intros (l1 & k & l2 & -> & N & F). induction F as [|[k' m'] l1 Q F IH]; cbn [app find_manufacturer].
    + rewrite (proj2 (bytes_eqb_eq _ _)) by (symmetry; exact N). reflexivity.
    + cbn [snd] in Q. destruct (bytes_eqb s (m_name m')) eqn:E; [apply bytes_eqb_eq in E; congruence|exact IH].
Qed.

Lemma nibble_is : forall c v, from_hex_char c = Some v <-> nibble c v.
Proof.
  intros c v. unfold from_hex_char. split.
  - destruct ((48 <=? c) && (c <=? 57)) eqn:A; [intros H; injection H as <-|destruct ((97 <=? c) && (c <=? 102)) eqn:B;
      [intros H; injection H as <-|destruct ((65 <=? c) && (c <=? 70)) eqn:C; [intros H; injection H as <-|discriminate]]].
    + replace c with (48 + (c - 48)) at 1 by lia. apply nb_num. lia.
    + replace c with (87 + (c - 87)) at 1 by lia. apply nb_lower. lia.
    + replace c with (55 + (c - 55)) at 1 by lia. apply nb_upper. lia.
  - intros H. destruct H as [v V|v V|v V].
    + replace ((48 <=? 48 + v) && (48 + v <=? 57)) with true by lia. f_equal. lia.
    + replace ((48 <=? 55 + v) && (55 + v <=? 57)) with false by lia. replace ((97 <=? 55 + v) && (55 + v <=? 102)) with false by lia.
      replace ((65 <=? 55 + v) && (55 + v <=? 70)) with true by lia. f_equal. lia.
    + replace ((48 <=? 87 + v) && (87 + v <=? 57)) with false by lia. replace ((97 <=? 87 + v) && (87 + v <=? 102)) with true by lia. f_equal. lia.
Qed.

Lemma nibble_not_white : forall c v, nibble c v -> is_space c = false.
Proof. intros c v H. destruct H; unfold is_space; lia. Qed.

Lemma decode_pairs : forall n f bs, (length f <= n)%nat -> decode_hex f = Ok bs -> exists l, Forall2 nibble f l /\ pairs l bs.
Proof.
  induction n as [|n IH]; intros f bs L H.
  - destruct f; [|cbn in L; lia]. apply Ok_inj in H. subst bs. exists []. split; constructor.
  - destruct f as [|c [|d f]]; [apply Ok_inj in H; subst bs; exists []; split; constructor|discriminate|]. cbn [decode_hex] in H.
    destruct (from_hex_char c) as [a|] eqn:A; [|discriminate]. destruct (from_hex_char d) as [b|] eqn:B; [|discriminate].
    destruct (decode_hex f) as [r| | | |] eqn:D; try discriminate. cbn [bind] in H. apply Ok_inj in H. subst bs.
    destruct (IH f r ltac:(cbn [length] in L; lia) D) as (l & F & P). exists (a :: b :: l). split; [|constructor; exact P].
    repeat (constructor; [apply nibble_is; assumption|]). exact F.
Qed.

Lemma pairs_decode : forall l bs, pairs l bs -> forall f, Forall2 nibble f l -> decode_hex f = Ok bs.
Proof.
  intros l bs H. induction H as [|a b l r H IH]; intros f F; [inversion F; reflexivity|].
  inversion F as [|c a' f1 l1 A F1]; subst. inversion F1 as [|d b' f2 l2 B F2]; subst. cbn [decode_hex].
  rewrite (proj2 (nibble_is _ _) A), (proj2 (nibble_is _ _) B), (IH f2 F2). reflexivity.
Qed.

Lemma nibbles_filter : forall s l, nibbles s l <-> Forall2 nibble (filter (fun c => negb (is_space c)) s) l.
Proof.
  intros s l. split.
  - intros H. induction H as [|c s l W H IH|c v s l N H IH]; [constructor| |]; cbn [filter].
    + replace (is_space c) with true by (unfold is_space, white_space in *; lia). exact IH.
    + rewrite (nibble_not_white c v N). constructor; assumption.
  - revert l. induction s as [|c s IH]; intros l H; cbn [filter] in H; [inversion H; constructor|].
    destruct (is_space c) eqn:W; cbn [negb] in H.
    + apply nbs_white; [unfold is_space, white_space in *; lia|apply IH, H].
    + inversion H; subst. apply nbs_digit; [assumption|apply IH; assumption].
Qed.

Lemma hex_is : forall s bs, parse_hex s = Ok bs <-> hex_says s bs.
Proof.
  intros s bs. unfold parse_hex, hex_says. split.
  - intros H. apply (decode_pairs _ _ _ (le_n _)) in H as (l & F & P). exists l. split; [apply nibbles_filter, F|exact P].
  - intros (l & N & P). apply (pairs_decode l bs P). apply nibbles_filter, N.
Qed.

Lemma seqspec_parts : forall table s e, text_sequencer_specific table s = Ok e -> parts table s e.
Proof.
  intros table s e H. unfold text_sequencer_specific, re_sequencer_specific in H. find H T.
  apply i_comma in T as (w & name & t & r & -> & W & N & C & D & I & R & ->). cbn [app] in H. repeat ok_step H. apply Ok_inj in H. subst e.
  apply maker_is in P0. apply hex_is in P1. eapply mk_parts; [exact F|exact P| |no_status]. apply de_seqspec; assumption.
Qed.

Lemma sysex_parts : forall table s e, text_sysex table s = Ok e -> parts table s e.
Proof.
  intros table s e H. unfold text_sysex, re_sysex in H. find H T.
  apply i_comma in T as (w & name & t & r & -> & W & N & C & D & I & R & ->). cbn [app] in H. repeat ok_step H. apply Ok_inj in H. subst e.
  apply maker_is in P0. apply hex_is in P1. eapply mk_parts; [exact F|exact P| |no_status]. apply de_sysex; assumption.
Qed.

Lemma cont_parts : forall table s e, text_continuation s = Ok e -> parts table s e.
Proof.
  intros table s e H. unfold text_continuation, re_continuation in H. find H T.
  apply i_text in T as (w & t & r & -> & W & N & I & R & ->). cbn [app] in H. repeat ok_step H. apply Ok_inj in H. subst e.
  apply hex_is in P0. eapply mk_parts; [exact F|exact P| |no_status]. apply de_cont; assumption.
Qed.

Lemma escape_parts : forall table s e, text_escape s = Ok e -> parts table s e.
Proof.
  intros table s e H. unfold text_escape, re_escape in H. find H T.
  apply i_text in T as (w & t & r & -> & W & N & I & R & ->). cbn [app] in H. repeat ok_step H. apply Ok_inj in H. subst e.
  apply hex_is in P0. eapply mk_parts; [exact F|exact P| |no_status]. apply de_escape; assumption.
Qed.

(** ** Channel messages *)

Lemma status_is : forall ch, 0 <= ch < 16 -> or_status 128 ch = 128 + ch /\ Z.lor 144 ch = 144 + ch /\ or_status 160 ch = 160 + ch /\
  or_status 176 ch = 176 + ch /\ or_status 192 ch = 192 + ch /\ or_status 208 ch = 208 + ch /\ Z.lor 224 ch = 224 + ch.
Proof.
  intros ch C. assert (A : ch = 0 \/ ch = 1 \/ ch = 2 \/ ch = 3 \/ ch = 4 \/ ch = 5 \/ ch = 6 \/ ch = 7 \/ ch = 8 \/ ch = 9 \/ ch = 10 \/ ch = 11 \/
    ch = 12 \/ ch = 13 \/ ch = 14 \/ ch = 15) by lia. clear C. decompose [or] A; subst ch; repeat split.
Qed.

Ltac status_ok B := apply status_is in B; repeat split; cbn [line_status e_body e_status e_type]; intros st Q; injection Q as <-; tauto.

(** The channel in the text [c]; its digits are the group [d]. *)
Definition channel_text (c d : bytes) : Prop :=
  exists w x v, c = w ++ x ++ d ++ v /\ blank w /\ spelled (str "channel:") x /\ blank v.

Lemma i_channel : forall rs caps s y, rmatch (cat (channel_re ++ rs)) caps s fin = Some y ->
  exists c d v, s = c ++ v /\ channel_text c d /\ rmatch (cat rs) (caps ++ [d]) v fin = Some y.
Proof.
  intros rs caps s y H. unfold channel_re in H. cbn [app] in H. apply i_sp in H as (w & v & -> & W & H & _). apply i_word in H as (x & v1 & -> & X & H).
  apply i_num in H as (d & v2 & -> & H & _). apply i_sp in H as (w2 & v3 & -> & W2 & H & _).
  exists (w ++ x ++ d ++ w2), d, v3. split; [rewrite <- !app_assoc; reflexivity|]. split; [|exact H]. exists w, x, w2. repeat (split; [reflexivity || assumption|]). assumption.
Qed.

Lemma mk_channel : forall c d ch, channel_text c d -> num ch d -> 0 <= ch < 16 -> channel_says c ch.
Proof.
  intros c d ch (w & x & v & -> & W & X & V) N B. exists w, x, d, v. repeat (split; [reflexivity || assumption|]). assumption.
Qed.

Lemma off_parts : forall table s e, text_note_off s = Ok e -> parts table s e.
Proof.
  intros table s e H. unfold text_note_off, re_note in H. find H T. apply i_channel in T as (c & dc & v & -> & C & T). apply i_word in T as (x & v1 & -> & X & T).
  apply i_note in T as (l & a & k & o & v2 & -> & L & A & O & T). apply i_word in T as (q & v3 & -> & Y & T). apply comma_says in Y.
  apply i_ws in T as (w & v4 & -> & W & T). apply i_word in T as (z & v5 & -> & Z & T). apply i_num in T as (dv & r & -> & T & N). specialize (N (fin_passes digit)).
  done_re T. repeat ok_step H. apply Ok_inj in H. subst e. apply parse_channel_inv in P0 as [P0 B0]. apply (parse_note_inv l a k o _ L A O) in P1. apply uint8 in P2 as [P2 B2].
  eapply mk_parts; [exact F|exact P| |status_ok B0].
  apply (de_off table c x (l :: a ++ [o])); try assumption; [apply (mk_channel c dc); assumption|lia].
Qed.

Lemma on_parts : forall table s e, text_note_on s = Ok e -> parts table s e.
Proof.
  intros table s e H. unfold text_note_on, re_note in H. find H T. apply i_channel in T as (c & dc & v & -> & C & T). apply i_word in T as (x & v1 & -> & X & T).
  apply i_note in T as (l & a & k & o & v2 & -> & L & A & O & T). apply i_word in T as (q & v3 & -> & Y & T). apply comma_says in Y.
  apply i_ws in T as (w & v4 & -> & W & T). apply i_word in T as (z & v5 & -> & Z & T). apply i_num in T as (dv & r & -> & T & N). specialize (N (fin_passes digit)).
  done_re T. repeat ok_step H. unfold make_note_on in H. repeat ok_step H. apply Ok_inj in H. subst e.
  apply parse_channel_inv in P0 as [P0 B0]. apply (parse_note_inv l a k o _ L A O) in P1. apply uint8 in P2 as [P2 B2].
  eapply mk_parts; [exact F|exact P| |status_ok B0].
  apply (de_on table c x (l :: a ++ [o])); try assumption; [apply (mk_channel c dc); assumption|lia].
Qed.

Lemma poly_parts : forall table s e, text_polyphonic_pressure s = Ok e -> parts table s e.
Proof.
  intros table s e H. unfold text_polyphonic_pressure, re_pressure in H. find H T. apply i_channel in T as (c & dc & v & -> & C & T).
  apply i_word in T as (x & v1 & -> & X & T). apply i_num in T as (dv & r & -> & T & N). specialize (N (fin_passes digit)).
  done_re T. repeat ok_step H. unfold make_polyphonic_pressure in H. repeat ok_step H. apply Ok_inj in H. subst e.
  apply parse_channel_inv in P0 as [P0 B0]. apply uint8 in P1 as [P1 B1].
  eapply mk_parts; [exact F|exact P| |status_ok B0]. apply de_poly; try assumption; [apply (mk_channel c dc); assumption|lia].
Qed.

Lemma pressure_parts : forall table s e, text_channel_pressure s = Ok e -> parts table s e.
Proof.
  intros table s e H. unfold text_channel_pressure, re_pressure in H. find H T. apply i_channel in T as (c & dc & v & -> & C & T).
  apply i_word in T as (x & v1 & -> & X & T). apply i_num in T as (dv & r & -> & T & N). specialize (N (fin_passes digit)).
  done_re T. repeat ok_step H. unfold make_channel_pressure in H. repeat ok_step H. apply Ok_inj in H. subst e.
  apply parse_channel_inv in P0 as [P0 B0]. apply uint8 in P1 as [P1 B1].
  eapply mk_parts; [exact F|exact P| |status_ok B0]. apply de_pressure; try assumption; [apply (mk_channel c dc); assumption|lia].
Qed.

Lemma bend_parts : forall table s e, text_pitch_bend s = Ok e -> parts table s e.
Proof.
  intros table s e H. unfold text_pitch_bend, re_pitch_bend in H. find H T. apply i_channel in T as (c & dc & v & -> & C & T).
  apply i_word in T as (x & v1 & -> & X & T). apply i_num in T as (dv & r & -> & T & N). specialize (N (fin_passes digit)).
  done_re T. repeat ok_step H. unfold make_pitch_bend in H. repeat ok_step H. apply Ok_inj in H. subst e.
  apply parse_channel_inv in P0 as [P0 B0]. apply uint16 in P1 as [P1 B1].
  eapply mk_parts; [exact F|exact P| |status_ok B0]. apply de_bend; try assumption; [apply (mk_channel c dc); assumption|lia].
Qed.

Lemma program_parts : forall table s e, text_program_change s = Ok e -> parts table s e.
Proof.
  intros table s e H. unfold text_program_change, re_program_change in H. find H T. apply i_channel in T as (c & dc & v & -> & C & T).
  apply i_word in T as (x & v1 & -> & X & T). apply i_num in T as (db & v2 & -> & T & _). apply i_word in T as (q & v3 & -> & Y & T). apply comma_says in Y.
  apply i_ws in T as (w & v4 & -> & W & T). apply i_word in T as (z & v5 & -> & Z & T). apply i_num in T as (dv & r & -> & T & N). specialize (N (fin_passes digit)).
  done_re T. repeat ok_step H. unfold make_program_change in H. repeat ok_step H. apply Ok_inj in H. subst e.
  apply parse_channel_inv in P0 as [P0 B0]. apply uint16 in P1 as [P1 B1]. apply uint8 in P2 as [P2 B2].
  eapply mk_parts; [exact F|exact P| |status_ok B0]. apply de_program; try assumption; [apply (mk_channel c dc); assumption|lia|lia].
Qed.

Lemma value_passes : passes digit (fun caps s => rmatch (cat [opt (star_of dot); ilit (str "value:"); number]) caps s fin).
Proof.
  intros caps caps' x r D H E. apply H. clear H. rewrite rmatch_cat in *. unfold opt in *. cbn [rmatch star_of] in *.
  assert (K : forall c, rmatch (cat [ilit (str "value:"); number]) c (x :: r) fin = None).
  { intros c. rewrite rmatch_cat. cbn [rmatch ilit]. change (str "value:") with (118 :: str "alue:"). cbn [strip_fold]. rewrite digit_word; [reflexivity|reflexivity|exact D]. }
  cbn [star]. rewrite K. destruct (dot x); [|reflexivity].
  match type of E with match ?m with _ => _ end = _ => destruct m eqn:M; [discriminate|] end.
  rewrite (star_blind true dot (fun caps s => rmatch (cat [ilit (str "value:"); number]) caps s fin) (cat_blind _) caps' caps r M). reflexivity.
Qed.

Lemma i_skip : forall rs caps s y, rmatch (cat (opt (star_of dot) :: rs)) caps s fin = Some y ->
  exists b v, s = b ++ v /\ ~ In 10 b /\ rmatch (cat rs) caps v fin = Some y.
Proof.
  intros rs caps s y H. rewrite rmatch_cat in H. unfold opt in H. cbn [rmatch star_of] in H.
  match type of H with match ?m with _ => _ end = _ => destruct m eqn:M end.
  - apply star_greedy in M as (u & v & -> & U & K & _). exists u, v. split; [reflexivity|]. split; [apply dots_are, U|]. rewrite K. exact H.
  - exists [], s. split; [reflexivity|]. split; [intros []|exact H].
Qed.

Lemma control_parts : forall table s e, text_controller s = Ok e -> parts table s e.
Proof.
  intros table s e H. unfold text_controller, re_controller in H. find H T. apply i_star in T as (a & v & -> & A & T & _).
  apply i_channel in T as (c & dc & v1 & -> & C & T). apply i_num in T as (di & v2 & -> & T & M). specialize (M value_passes).
  apply i_skip in T as (b & v3 & -> & B & T). apply i_word in T as (x & v4 & -> & X & T). apply i_num in T as (dv & r & -> & T & N). specialize (N (fin_passes digit)).
  done_re T. repeat ok_step H. unfold make_controller in H. repeat ok_step H. apply Ok_inj in H. subst e.
  apply parse_channel_inv in P0 as [P0 B0]. apply uint8 in P1 as [P1 B1]. apply uint8 in P2 as [P2 B2].
  eapply mk_parts; [exact F|exact P| |status_ok B0].
  eapply de_control; try eassumption; try lia; [apply dots_are, A|apply (mk_channel c dc); assumption| |reflexivity].
  intros z q Q. apply (M z (q ++ dv ++ r)). rewrite app_assoc, Q. reflexivity.
Qed.

Lemma case_parts : forall table i t f s e, nth_error (text_cases table) i = Some (t, f) -> f s = Ok e -> parts table s e.
Proof.
  intros table i t f s e N H. apply nth_error_In in N. unfold text_cases in N. cbn [In] in N.
  repeat (destruct N as [N|N]; [injection N as <- <-|]); [..|contradiction];
  first [exact (seqno_parts _ _ _ H)|exact (text_parts _ _ _ _ H)|exact (prefix_parts _ _ _ H)|exact (port_parts _ _ _ H)|exact (tempo_parts _ _ _ H)|exact (time_parts _ _ _ H)
    |exact (key_parts _ _ _ H)|exact (smpte_parts _ _ _ H)|exact (end_parts _ _ _ H)|exact (seqspec_parts _ _ _ H)|exact (off_parts _ _ _ H)|exact (on_parts _ _ _ H)
    |exact (poly_parts _ _ _ H)|exact (control_parts _ _ _ H)|exact (program_parts _ _ _ H)|exact (pressure_parts _ _ _ H)|exact (bend_parts _ _ _ H)
    |exact (sysex_parts _ _ _ H)|exact (cont_parts _ _ _ H)|exact (escape_parts _ _ _ H)].
Qed.

Lemma line_first : forall table s e, unmarshal_text table s = Ok e -> line_kind s (e_body e) /\ parts table s e.
Proof.
  intros table s e H. apply first_case_inv in H as (i & t & f & N & C & H & E). pose proof (case_kind table i t f s e N H) as K.
  split; [|exact (case_parts table i t f s e N H)].
  assert (O : forall j, nth_error tag_order j = option_map fst (nth_error (text_cases table) j)).
  { intros j. change tag_order with (map fst (text_cases table)). apply nth_error_map. }
  split; [rewrite K; apply contains_spec, C|]. intros u (a & b & L & A & B) OC. rewrite K in B.
  assert (b = i).
  { pose proof (O i) as I. rewrite N in I. cbn [option_map fst] in I. 
    assert (ND : NoDup tag_order) by (unfold tag_order; repeat (constructor; [vm_compute; intuition discriminate|]); constructor).
    apply (proj1 (NoDup_nth_error _) ND); [apply nth_error_Some; congruence|congruence]. }
  subst b. rewrite O in A. destruct (nth_error (text_cases table) a) as [[u' f']|] eqn:Q; [|discriminate]. cbn [option_map fst] in A. injection A as ->.
  pose proof (E a u f' L Q) as Z. apply contains_spec in OC. congruence.
Qed.

Lemma line_sound : forall table s e, unmarshal_text table s = Ok e -> line_says table s e.
Proof.
  intros table s e H. apply line_first in H as (K & HD & pre & x & d & mid & y & tail & P & _). split; [exact K|]. split; [exact HD|]. exists pre, x, d, mid, y, tail. exact P.
Qed.
