(** * TextLineProofs: which event a line is read as, and which lines crash the assembler or make it hang. *)
From Verif Require Import Base Strings Tables Event SpecTable SpecDecimal SpecKey SpecAssemble SpecSurvive SpecRead SpecTrack SpecLine SpecSource SpecJsonEnd SpecTextEnd
  Manufacturer Hex Regex TextEvent AssembleProofs RegexProofs TextProofs TextReadProofs TextCrashProofs LineProofs LineReadProofs TextShapeProofs.

(** ** The first reading *)

Lemma reading_taken : forall t s pre x d mid y tail, In t tag_order -> reading t s pre x d mid y tail <-> taken t s pre x d mid y tail.
Proof.
  intros t s pre x d mid y tail I. unfold reading, taken, digits. assert (E : shape t tail <-> fits t tail) by (split; [apply shape_fits|apply fits_shape, I]). rewrite E. reflexivity.
Qed.

Lemma first_taken : forall t s pre x d mid y tail, In t tag_order -> first_reading t s pre x d mid y tail <-> taken t s pre x d mid y tail /\ earliest t s pre mid.
Proof.
  intros t s pre x d mid y tail I. unfold first_reading, earliest. rewrite (reading_taken _ _ _ _ _ _ _ _ I). split; intros [T F]; (split; [exact T|]);
  intros pre' x' d' mid' y' tail' T'; apply (F pre' x' d' mid' y' tail'), (reading_taken _ _ _ _ _ _ _ _ I), T'.
Qed.

Lemma tag_letter : forall t, In t tag_order -> exists c l, t = c :: l /\ digit (lower c) = false.
Proof. intros t I. unfold tag_order in I. cbn [In] in I. repeat (destruct I as [<-|I]; [do 2 eexists; split; reflexivity|]). contradiction. Qed.

Lemma taken_once : forall t s pre x d mid y tail pre' x' d' mid' y' tail', In t tag_order -> taken t s pre x d mid y tail -> earliest t s pre mid -> taken t s pre' x' d' mid' y' tail' -> earliest t s pre' mid' ->
  d = d' /\ tail = tail'.
Proof.
  intros t s pre x d mid y tail pre' x' d' mid' y' tail' I T E T' E'. apply tag_letter in I as (c & l & -> & N).
  assert (L : length pre = length pre' /\ length mid = length mid') by (specialize (E _ _ _ _ _ _ T'); specialize (E' _ _ _ _ _ _ T); lia). destruct L as [L LM].
  destruct T as (-> & X & (ND & DD) & NM & M & Y & _). destruct T' as (Q & X' & (ND' & DD') & NM' & M' & Y' & _).
  apply (same_split _ _ _ _ L) in Q as [_ Q]. apply (spelled_split _ _ _ _ _ X X') in Q.
  assert (NE : forall (mid y tail : bytes), spelled (c :: l) y -> no_digit (mid ++ y) -> starts digit (mid ++ y ++ tail) = false).
  { clear. intros mid y tail Y N. rewrite app_assoc. apply no_digit_begins, no_digit_app; [|exact N]. intros Q. apply app_eq_nil in Q as [_ Q]. apply (spelled_nonempty _ _ _ Y Q). }
  apply (max_split digit) in Q as [<- Q]; [|apply digits_are, DD|apply digits_are, DD'|apply NE; assumption|apply NE; assumption].
  apply (same_split _ _ _ _ LM) in Q as [_ Q]. apply (spelled_split _ _ _ _ _ Y Y') in Q. auto.
Qed.

Lemma rfind_some : forall r a b, rmatch r [] b fin <> None -> rfind r (a ++ b) <> None.
Proof.
  intros r a b H. induction a as [|c a IH]; cbn [app].
  - destruct b; cbn [rfind]; destruct (rmatch r [] _ _); (congruence || discriminate).
  - cbn [rfind]. destruct (rmatch r [] (c :: a ++ b) _); [discriminate|exact IH].
Qed.

Lemma first_found : forall t s pre x d mid y tail rest caps, In t tag_order -> taken t s pre x d mid y tail -> earliest t s pre mid -> rest = rests t ->
  rmatch (cat rest) [d] tail fin = Some caps -> rfind (event_re t rest) s = Some caps.
Proof.
  intros t s pre x d mid y tail rest caps I T E R M. 
  assert (S : rfind (event_re t rest) s <> None).
  { pose proof (taken_matches _ _ _ _ _ _ _ _ T) as Q. rewrite R. destruct T as (-> & _). apply rfind_some, Q. }
  destruct (rfind (event_re t rest) s) as [caps'|] eqn:F; [|congruence]. destruct (tag_letter t I) as (c & l & -> & N).
  apply event_inv in F as (d' & tail' & (pre' & x' & mid' & z' & _ & _ & _ & _ & _ & T' & E') & M'); [|exact N|exact R].
  destruct (taken_once _ _ _ _ _ _ _ _ _ _ _ _ _ _ I T E T' E') as [<- <-]. congruence.
Qed.

(** ** Controllers *)

Lemma star_greatest : forall c caps k s y, star true c caps k s = Some y -> exists u v, s = u ++ v /\ forallb c u = true /\ k caps v = Some y /\
  forall u' v', s = u' ++ v' -> forallb c u' = true -> (length u < length u')%nat -> k caps v' = None.
Proof.
  intros c caps k s y. induction s as [|x s IH]; intros H.
  - exists [], []. split; [reflexivity|]. split; [reflexivity|]. split; [exact H|]. intros u' v' E _ L. symmetry in E. apply app_eq_nil in E as [-> _]. cbn [length] in L. lia.
  - cbn [star] in H. destruct (c x) eqn:C.
    + destruct (star true c caps k s) as [z|] eqn:E.
      * injection H as ->. destruct (IH eq_refl) as (u & v & -> & U & K & M). exists (x :: u), v. split; [reflexivity|].
        split; [cbn [forallb]; rewrite C; exact U|]. split; [exact K|]. intros [|x' u'] v' Q U' L; cbn [length] in L; [lia|]. cbn [app] in Q. injection Q as <- Q.
        cbn [forallb] in U'. apply andb_prop in U' as [_ U']. apply (M u' v' Q U'). lia.
      * exists [], (x :: s). split; [reflexivity|]. split; [reflexivity|]. split; [exact H|]. intros [|x' u'] v' Q U' L; cbn [length] in L; [lia|]. cbn [app] in Q. injection Q as <- ->.
        cbn [forallb] in U'. apply andb_prop in U' as [_ U']. destruct (k caps v') eqn:K; [|reflexivity]. exfalso. revert E. apply greedy_some; [exact U'|congruence].
    + exists [], (x :: s). split; [reflexivity|]. split; [reflexivity|]. split; [exact H|]. intros [|x' u'] v' Q U' L; cbn [length] in L; [lia|]. cbn [app] in Q. injection Q as <- Q.
      cbn [forallb] in U'. rewrite C in U'. discriminate.
Qed.

Definition control_rest : list re := star_of dot :: channel_re ++ [number; opt (star_of dot); ilit (str "value:"); number].

Lemma some_ways : forall rs caps s, rmatch (cat rs) caps s fin <> None <-> ways rs s.
Proof.
  intros rs caps s. rewrite (rmatch_way _ _ fin_blind). unfold ways. split; [intros (s' & W & _); eauto|]. intros (s' & W). exists s'. split; [exact W|discriminate].
Qed.

Lemma digits_white : forall n v, digits n -> starts white (n ++ v) = false.
Proof. intros n v [N D]. apply (num_white (digits_value n)). split; [exact N|split; [exact D|reflexivity]]. Qed.

Lemma place_split : forall w xc dc w2 n v w' xc' dc' w2' n' v', blank w -> spelled (str "channel:") xc -> digits dc -> blank w2 -> digits n ->
  blank w' -> spelled (str "channel:") xc' -> digits dc' -> blank w2' -> digits n' ->
  w ++ xc ++ dc ++ w2 ++ n ++ v = w' ++ xc' ++ dc' ++ w2' ++ n' ++ v' -> w ++ xc ++ dc ++ w2 = w' ++ xc' ++ dc' ++ w2' /\ dc = dc' /\ n ++ v = n' ++ v'.
Proof.
  intros w xc dc w2 n v w' xc' dc' w2' n' v' W X D W2 N W' X' D' W2' N' E. pose proof E as E0.
  apply (max_split white) in E as [-> E]; [|apply whites_are, W|apply whites_are, W'|word_start X|word_start X'].
  apply (spelled_split _ _ _ _ _ X X') in E. 
  apply (max_split digit) in E as [-> E]; [|apply digits_are, D|apply digits_are, D'|apply blank_digit, W2|apply blank_digit, W2'].
  apply (max_split white) in E as [-> E]; [|apply whites_are, W2|apply whites_are, W2'|apply digits_white, N|apply digits_white, N'].
  split; [|auto]. apply (app_inv_tail (n' ++ v')). rewrite <- !app_assoc. rewrite <- E at 1. exact E0.
Qed.

Lemma digits_prefix : forall n v n' v' : bytes, forallb digit n' = true -> starts digit v = false -> n ++ v = n' ++ v' -> exists n2, n = n' ++ n2 /\ v' = n2 ++ v.
Proof.
  induction n as [|c n IH]; intros v [|c' n'] v' D S E; cbn [app] in E.
  - exists []. auto.
  - subst v. cbn [forallb] in D. cbn [starts] in S. rewrite S in D. discriminate.
  - exists (c :: n). auto.
  - injection E as <- E. cbn [forallb] in D. apply andb_prop in D as [_ D]. destruct (IH v n' v' D S E) as (n2 & -> & ->). exists n2. auto.
Qed.

Lemma app_longer : forall u v u' v' : bytes, u ++ v = u' ++ v' -> (length u <= length u')%nat -> exists q, u' = u ++ q /\ v = q ++ v'.
Proof.
  induction u as [|c u IH]; intros v [|c' u'] v' E L; cbn [app length] in *; try lia.
  - exists []. auto.
  - exists (c' :: u'). auto.
  - injection E as <- E. destruct (IH v u' v' E ltac:(lia)) as (q & -> & ->). exists q. auto.
Qed.

Lemma not_in_skip : forall (a b : bytes), ~ In 10 (a ++ b) -> ~ In 10 b.
Proof. intros a b N I. apply N, in_or_app. auto. Qed.

(** The control that the pattern takes *)
Definition control_parts_of (tail a w xc dc w2 n b x dv r : bytes) : Prop :=
  tail = a ++ (w ++ xc ++ dc ++ w2) ++ n ++ b ++ x ++ dv ++ r /\ blank w /\ spelled (str "channel:") xc /\ digits dc /\ blank w2 /\ digits n /\ ~ In 10 b /\
  no_digit (b ++ x) /\ spelled (str "value:") x /\ digits dv /\ no_digit r.

Lemma control_last : forall caps tail y, rmatch (cat control_rest) caps tail fin = Some y -> exists a w xc dc w2 n b x dv r,
  control_parts_of tail a w xc dc w2 n b x dv r /\ last_control tail a (x ++ dv ++ r) /\ y = ((caps ++ [dc]) ++ [n]) ++ [dv].
Proof.
  intros caps tail y H. unfold control_rest in H. rewrite rmatch_cat in H. cbn [rmatch star_of] in H. apply star_greatest in H as (a & v0 & -> & A & H & G).
  unfold channel_re in H. cbn [app] in H. apply i_sp in H as (w & v1 & -> & W & H & _). apply i_word in H as (xc & v2 & -> & XC & H). apply i_number in H as (dc & v3 & -> & NC & DC & H & _).
  apply i_sp in H as (w2 & v4 & -> & W2 & H & _). apply i_number in H as (n & v5 & -> & NN & DN & H & MN). specialize (MN value_passes).
  rewrite rmatch_cat in H. unfold opt in H. cbn [rmatch] in H.
  assert (K : exists b v6, v5 = b ++ v6 /\ forallb dot b = true /\ rmatch (cat [ilit (str "value:"); number]) ((caps ++ [dc]) ++ [n]) v6 fin = Some y /\
    forall u' v', v5 = u' ++ v' -> forallb dot u' = true -> (length b < length u')%nat -> rmatch (cat [ilit (str "value:"); number]) ((caps ++ [dc]) ++ [n]) v' fin = None).
  { match type of H with match ?m with _ => _ end = _ => destruct m as [z|] eqn:E end.
    - injection H as ->. unfold star_of in E. cbn [rmatch] in E. apply star_greatest in E. exact E.
    - exfalso. revert E. unfold star_of. cbn [rmatch]. apply (greedy_some dot _ _ [] v5 eq_refl). rewrite H. discriminate. }
  destruct K as (b & v6 & -> & B & T & G2). apply i_word in T as (x & v7 & -> & X & T). apply i_number in T as (dv & r & -> & NV & DV & T & R). specialize (R (fin_passes digit)).
  rewrite rmatch_nil in T. injection T as <-.
  assert (NB : no_digit (b ++ x)). { intros k q E. apply (MN k (q ++ dv ++ r)). rewrite app_assoc, E. reflexivity. }
  exists a, w, xc, dc, w2, n, b, x, dv, r. split; [|split; [|reflexivity]].
  { split; [rewrite <- !app_assoc; reflexivity|]. split; [exact W|]. split; [exact XC|]. split; [split; assumption|]. split; [exact W2|]. split; [split; assumption|].
    split; [apply dots_are, B|]. split; [exact NB|]. split; [exact X|]. split; [split; assumption|exact R]. }
  split.
  { exists (w ++ xc ++ dc ++ w2), n, b, x, dv, r. split; [rewrite <- !app_assoc; reflexivity|]. split; [reflexivity|]. split; [apply dots_are, A|].
    split; [exists w, xc, dc, w2; repeat (split; [reflexivity || assumption || (split; assumption)|]); assumption|]. split; [split; assumption|]. split; [apply dots_are, B|]. split; [exact X|split; assumption]. }
  intros a' y' (c' & n' & b' & x' & d' & r' & E & -> & A' & C' & N' & B' & X' & D').
  destruct (Nat.lt_ge_cases (length a) (length a')) as [L|L].
  - exfalso. specialize (G a' _ E (proj2 (dots_are _) A') L). revert G.
    change (rmatch (cat (channel_re ++ [number; opt (star_of dot); ilit (str "value:"); number])) caps (c' ++ n' ++ b' ++ x' ++ d' ++ r') fin <> None). apply some_ways.
    apply w_channel. exists c', (n' ++ b' ++ x' ++ d' ++ r'). split; [reflexivity|]. split; [exact C'|]. apply w_num. exists n', (b' ++ x' ++ d' ++ r'). split; [reflexivity|]. split; [exact N'|].
    apply w_skip. exists b', (x' ++ d' ++ r'). split; [reflexivity|]. split; [exact B'|]. apply w_word. exists x', (d' ++ r'). split; [reflexivity|]. split; [exact X'|].
    apply w_num. exists d', r'. split; [reflexivity|]. split; [exact D'|]. apply ways_nil.
  - destruct (Nat.eq_dec (length a') (length a)) as [EL|]; [|left; lia]. right. split; [exact EL|]. symmetry in EL. apply (same_split _ _ _ _ EL) in E as [_ E].
    destruct C' as (w' & xc' & dc' & w2' & -> & W' & XC' & DC' & W2'). rewrite <- !app_assoc in E.
    apply place_split in E as (_ & _ & E); try assumption; try (split; assumption).
    assert (SB : starts digit (b ++ x ++ dv ++ r) = false). { rewrite app_assoc. apply no_digit_begins, no_digit_app; [|exact NB]. intros Q. apply app_eq_nil in Q as [_ ->]. inversion X. }
    destruct (digits_prefix n _ n' _ (proj2 (digits_are _) (proj2 N')) SB E) as (n2 & -> & E2).
    destruct (Nat.le_gt_cases (length (x ++ dv ++ r)) (length (x' ++ d' ++ r'))) as [|L2]; [assumption|exfalso].
    assert (L3 : (length (n2 ++ b) < length b')%nat).
    { pose proof (f_equal (@length Z) E2) as Q. rewrite !app_length in *. lia. }
    rewrite (app_assoc n2 b) in E2. symmetry in E2. destruct (app_longer _ _ _ _ E2 (Nat.lt_le_incl _ _ L3)) as (q & -> & E3).
    assert (B2 : ~ In 10 (b ++ q)) by (apply (not_in_skip n2); rewrite app_assoc; exact B').
    specialize (G2 (b ++ q) (x' ++ d' ++ r')). rewrite E3, <- app_assoc in G2. specialize (G2 eq_refl (proj2 (dots_are _) B2)).
    assert (L4 : (length b < length (b ++ q))%nat) by (rewrite !app_length in *; lia). specialize (G2 L4). revert G2. apply some_ways.
    apply w_word. exists x', (d' ++ r'). split; [reflexivity|]. split; [exact X'|]. apply w_num. exists d', r'. split; [reflexivity|]. split; [exact D'|]. apply ways_nil.
Qed.

Lemma control_once : forall tail a w xc dc w2 n b x dv r a' w' xc' dc' w2' n' b' x' dv' r', control_parts_of tail a w xc dc w2 n b x dv r -> last_control tail a (x ++ dv ++ r) ->
  control_parts_of tail a' w' xc' dc' w2' n' b' x' dv' r' -> last_control tail a' (x' ++ dv' ++ r') -> dc = dc' /\ n = n' /\ dv = dv'.
Proof.
  intros tail a w xc dc w2 n b x dv r a' w' xc' dc' w2' n' b' x' dv' r' (E & W & XC & DC & W2 & N & B & NB & X & DV & R) [P L] (E' & W' & XC' & DC' & W2' & N' & B' & NB' & X' & DV' & R') [P' L'].
  assert (LL : length a = length a' /\ length (x ++ dv ++ r) = length (x' ++ dv' ++ r')) by (specialize (L _ _ P'); specialize (L' _ _ P); lia). destruct LL as [LA LY].
  rewrite E in E'. apply (same_split _ _ _ _ LA) in E' as [_ E']. rewrite <- !app_assoc in E'. apply place_split in E' as (_ & -> & E'); try assumption. split; [reflexivity|].
  assert (SB : forall (b x q : bytes), spelled (str "value:") x -> no_digit (b ++ x) -> starts digit (b ++ x ++ q) = false).
  { clear. intros b x q X NB. rewrite app_assoc. apply no_digit_begins, no_digit_app; [|exact NB]. intros Q. apply app_eq_nil in Q as [_ ->]. inversion X. }
  apply (max_split digit) in E' as [-> E']; [|apply digits_are, N|apply digits_are, N'|apply SB; assumption|apply SB; assumption]. split; [reflexivity|].
  assert (LB : length b = length b') by (pose proof (f_equal (@length Z) E') as Q; rewrite !app_length in *; lia).
  apply (same_split _ _ _ _ LB) in E' as [_ E']. apply (spelled_split _ _ _ _ _ X X') in E'.
  apply (max_split digit) in E' as [-> _]; [reflexivity|apply digits_are, DV|apply digits_are, DV'|apply no_digit_starts, R|apply no_digit_starts, R'].
Qed.

(** ** The event of a line *)

Lemma kind_in : forall b, In (kind_name b) tag_order.
Proof. intros b. unfold tag_order. destruct b as [| | | | | | | |k ?| | | | | | | | | | |]; [..|]; try destruct k; cbn [kind_name In]; tauto. Qed.

Lemma control_reads : forall tail a c k b x d r ch, tail = a ++ c ++ k ++ b ++ x ++ d ++ r -> last_control tail a (x ++ d ++ r) -> channel_says c ch -> digits k -> ~ In 10 b ->
  no_digit (b ++ x) -> spelled (str "value:") x -> digits d -> no_digit r -> exists dc, num ch dc /\ forall caps, rmatch (cat control_rest) caps tail fin = Some (((caps ++ [dc]) ++ [k]) ++ [d]).
Proof.
  intros tail a c k b x d r ch E L (w & xc & dc & w2 & -> & W & XC & N & W2 & _) K B NB X D R. exists dc. split; [exact N|]. intros caps.
  assert (DC : digits dc) by (split; apply N).
  assert (S : rmatch (cat control_rest) caps tail fin <> None).
  { pose proof (shape_fits (str "Controller") tail (sh_control _ _ _ (proj1 L))) as Q. apply some_ways. apply (some_ways _ []). exact Q. }
  destruct (rmatch (cat control_rest) caps tail fin) as [y|] eqn:M; [|congruence].
  apply control_last in M as (a' & w' & xc' & dc' & w2' & n' & b' & x' & dv' & r' & P & L' & ->).
  assert (Q : control_parts_of tail a w xc dc w2 k b x d r) by (repeat (split; [assumption|]); assumption).
  destruct (control_once _ _ _ _ _ _ _ _ _ _ _ _ _ _ _ _ _ _ _ _ _ Q L P L') as (-> & -> & ->). reflexivity.
Qed.

Lemma exact_sound : forall table s e, unmarshal_text table s = Ok e -> exactly table s e.
Proof.
  intros table s e H. pose proof (line_first table s e H) as (K & LH & pre & x & d & mid & y & tail & (_ & _ & D & _ & B & _ & _ & DE) & T & FE).
  assert (FR : first_reading (kind_name (e_body e)) s pre x d mid y tail) by (apply first_taken; [apply kind_in|split; assumption]).
  split; [exact K|]. split; [exact LH|]. exists pre, x, d, mid, y, tail. split; [exact FR|]. split; [exact D|]. split; [exact B|].
  destruct (e_body e) eqn:EB; try exact DE. match type of EB with _ = Controller ?a ?b ?c => rename a into ch, b into n, c into v end.
  rewrite (dispatch table s (Controller ch n v) 21 text_controller eq_refl K) in H. unfold text_controller, re_controller in H.
  assert (S : rmatch (cat control_rest) [d] tail fin <> None).
  { inversion FR as [(_ & _ & _ & _ & _ & _ & SH) _]. pose proof (shape_fits _ _ SH) as Q. apply some_ways. apply (some_ways _ []). exact Q. }
  destruct (rmatch (cat control_rest) [d] tail fin) as [caps|] eqn:M; [|congruence].
  assert (I : In (str "Controller") tag_order) by (exact (kind_in (Controller ch n v))).
  pose proof (first_found (str "Controller") s pre x d mid y tail control_rest caps I T FE eq_refl M) as Q. unfold control_rest in Q. rewrite Q in H. clear Q.
  apply control_last in M as (a & w & xc & dc & w2 & k & b & x' & dv & r & (E & W & XC & DC & W2 & DK & NB & N & X & DV & R) & L & ->). cbn [app] in H.
  repeat ok_step H. unfold make_controller in H. repeat ok_step H. apply Ok_inj in H. subst e. cbn [e_body] in EB.
  apply parse_channel_inv in P0 as [P0 B0]. apply uint8 in P1 as [P1 B1]. apply uint8 in P2 as [P2 B2].
  injection EB as -> <- ->. destruct P1 as (_ & _ & ->).
  exists a, (w ++ xc ++ dc ++ w2), k, b, x', dv, r. split; [exact E|]. split; [exact L|]. split; [exists w, xc, dc, w2; repeat (split; [reflexivity || assumption|]); lia|].
  repeat (split; [assumption || reflexivity || lia|]). lia.
Qed.

Lemma exact_complete : forall table s e, exactly table s e -> unmarshal_text table s = Ok e.
Proof.
  intros table s e (K & LH & pre & x & d & mid & y & tail & FR & D & B & DE). apply first_taken in FR as [T FE]; [|apply kind_in].
  assert (PD : parse_delta d = Ok (e_delta e)) by (apply parse_uint_num; [exact D|exact B]).
  assert (F : forall rest caps, rest = rests (kind_name (e_body e)) -> rmatch (cat rest) [d] tail fin = Some caps -> rfind (event_re (kind_name (e_body e)) rest) s = Some caps).
  { intros rest caps R M. apply (first_found _ s pre x d mid y tail rest caps (kind_in _) T FE R M). }
  destruct (e_body e) eqn:EB; try (rewrite <- EB in *; apply (line_complete_by table s e d tail K LH PD); [rewrite EB in DE; cbv iota in DE; rewrite EB; exact DE|exact F|rewrite EB; exact I]).
  match type of EB with _ = Controller ?a ?b ?c => rename a into ch, b into n, c into v end.
  destruct DE as (a & c & k & b & x' & dv & r & E & L & C & DK & NB & N & X & BK & -> & V & R & BV).
  assert (DV : digits dv) by (split; apply V).
  destruct (control_reads tail a c k b x' dv r ch E L C DK NB N X DV R) as (dc & NC & M).
  rewrite (dispatch table s (Controller ch _ v) 21 text_controller eq_refl K). unfold text_controller, re_controller.
  pose proof (F control_rest _ eq_refl (M [d])) as Q. unfold control_rest in Q. cbn [kind_name] in Q. rewrite Q. clear Q. cbn [app]. rewrite PD. cbn [bind]. destruct C as (_ & _ & _ & _ & _ & _ & _ & _ & _ & CB).
  assert (PC : parse_channel dc = Ok ch).
  { unfold parse_channel. rewrite (parse_uint_num 8 dc ch NC) by (change (2 ^ 8) with 256; lia). cbn [bind]. replace (15 <? ch) with false by lia. reflexivity. }
  rewrite PC. cbn [bind]. rewrite (parse_uint_num 8 k (digits_value k)) by (change (2 ^ 8) with 256; (lia || (split; [apply DK|split; [apply DK|reflexivity]]))). cbn [bind].
  rewrite (parse_uint_num 8 dv v V BV). cbn [bind]. unfold make_controller. pass. destruct (status_is ch CB) as (_ & _ & _ & ES & _). rewrite ES.
  destruct LH as (HT & HB & HL & HS & HY). destruct e as [tk de bs st ty b0]. cbn [e_tick e_delta e_bytes e_body e_status e_type] in *. subst tk bs b0. 
  pose proof (HS _ eq_refl) as ->. rewrite (HY ltac:(lia)). reflexivity.
Qed.

(** ** Crashes and hangs *)

Lemma first_case_any : forall cases s o, first_case cases s = o -> o <> Err -> exists i t f, nth_error cases i = Some (t, f) /\ contains s t = true /\
  f s = o /\ (forall j t' f', (j < i)%nat -> nth_error cases j = Some (t', f') -> contains s t' = false).
Proof.
  induction cases as [|[t0 f0] cases IH]; intros s o H N; [cbn in H; congruence|]. cbn [first_case] in H. destruct (contains s t0) eqn:C.
  - exists O, t0, f0. split; [reflexivity|]. split; [exact C|]. split; [exact H|]. intros. lia.
  - destruct (IH s o H N) as (i & t & f & M & C' & F & E). exists (S i), t, f. split; [exact M|]. split; [exact C'|]. split; [exact F|].
    intros [|j] t' f' J Q; [cbn in Q; congruence|]. apply (E j t' f'); [lia|exact Q].
Qed.

Lemma kind_from : forall table s i t f, nth_error (text_cases table) i = Some (t, f) -> contains s t = true ->
  (forall j t' f', (j < i)%nat -> nth_error (text_cases table) j = Some (t', f') -> contains s t' = false) -> kind_of s t.
Proof.
  intros table s i t f N C E.
  assert (O : forall j, nth_error tag_order j = option_map fst (nth_error (text_cases table) j)).
  { intros j. change tag_order with (map fst (text_cases table)). apply nth_error_map. }
  split; [apply contains_spec, C|]. intros u (a & b & L & A & B) OC.
  assert (b = i).
  { pose proof (O i) as I. rewrite N in I. cbn [option_map fst] in I. 
    assert (ND : NoDup tag_order) by (unfold tag_order; repeat (constructor; [vm_compute; intuition discriminate|]); constructor).
    apply (proj1 (NoDup_nth_error _) ND); [apply nth_error_Some; congruence|congruence]. }
  subst b. rewrite O in A. destruct (nth_error (text_cases table) a) as [[u' f']|] eqn:Q; [|discriminate]. cbn [option_map fst] in A. injection A as ->.
  pose proof (E a u f' L Q) as Z. apply contains_spec in OC. congruence.
Qed.

Ltac no_more H := match type of H with
  | text_sequence_number ?s = _ => pose proof (only_sequence_number s) | text_text ?k ?s = _ => pose proof (only_text k s)
  | text_channel_prefix ?s = _ => pose proof (only_channel_prefix s) | text_port ?s = _ => pose proof (only_port s)
  | text_tempo ?s = _ => pose proof (only_tempo s) | text_time_signature ?s = _ => pose proof (only_time_signature s)
  | text_key_signature ?s = _ => pose proof (only_key_signature s) | text_smpte_offset ?s = _ => pose proof (only_smpte_offset s)
  | text_end_of_track ?s = _ => pose proof (only_end_of_track s) | text_sequencer_specific ?t ?s = _ => pose proof (only_sequencer_specific t s)
  | text_note_off ?s = _ => pose proof (only_note_off s) | text_note_on ?s = _ => pose proof (only_note_on s)
  | text_polyphonic_pressure ?s = _ => pose proof (only_poly s) | text_controller ?s = _ => pose proof (only_controller s)
  | text_program_change ?s = _ => pose proof (only_program s) | text_channel_pressure ?s = _ => pose proof (only_pressure s)
  | text_pitch_bend ?s = _ => pose proof (only_bend s) | text_sysex ?t ?s = _ => pose proof (only_sysex t s)
  | text_continuation ?s = _ => pose proof (only_continuation s) | text_escape ?s = _ => pose proof (only_escape s)
  end; rewrite H in *; cbn [only] in *; contradiction.

Lemma panic_case : forall table i t f s, nth_error (text_cases table) i = Some (t, f) -> f s = Panic -> t = str "SMPTEOffset" /\ text_smpte_offset s = Panic.
Proof.
  intros table i t f s N H. apply nth_error_In in N. unfold text_cases in N. cbn [In] in N.
  repeat (destruct N as [N|N]; [injection N as <- <-; first [no_more H|split; [reflexivity|exact H]]|]). contradiction.
Qed.
Lemma loop_case : forall table i t f s, nth_error (text_cases table) i = Some (t, f) -> f s = Loop -> t = str "TimeSignature" /\ text_time_signature s = Loop.
Proof.
  intros table i t f s N H. apply nth_error_In in N. unfold text_cases in N. cbn [In] in N.
  repeat (destruct N as [N|N]; [injection N as <- <-; first [no_more H|split; [reflexivity|exact H]]|]). contradiction.
Qed.

Lemma line_end : forall table s, unmarshal_text table s <> Eof.
Proof. intros table s H. pose proof (only_event table s) as O. rewrite H in O. exact O. Qed.

Lemma uint_ends : forall b s, parse_uint b s <> Panic /\ parse_uint b s <> Loop.
Proof. intros b s. pose proof (only_uint False False b s) as O. split; intros H; rewrite H in O; exact O. Qed.

Ltac other_step H := match type of H with
  | bind ?x _ = _ => let E := fresh "P" in destruct x eqn:E; cbn [bind] in H; try discriminate H; try (exfalso; first [apply (proj1 (uint_ends _ _) E)|apply (proj2 (uint_ends _ _) E)])
  | (if ?x then _ else _) = _ => let E := fresh "C" in destruct x eqn:E; try discriminate H
  end.
Ltac find_other H T := match type of H with match ?x with _ => _ end = _ => let F := fresh "F" in let y := fresh "y" in destruct x as [y|] eqn:F; [|discriminate H];
  apply event_inv in F as (d & tail & F & T); [|reflexivity|reflexivity] end.

Lemma panic_sound : forall table s, unmarshal_text table s = Panic -> line_crashes s.
Proof.
  intros table s H. apply first_case_any in H as (i & t & f & N & C & H & E); [|discriminate]. pose proof (kind_from _ _ _ _ _ N C E) as K.
  apply (panic_case _ _ _ _ _ N) in H as [-> H]. split; [exact K|]. clear N C E K i f. unfold text_smpte_offset, re_smpte_offset in H. find_other H T.
  apply i_sp in T as (w1 & v & -> & W1 & T & _). apply i_num in T as (s1 & v1 & -> & T & _). apply i_sp in T as (w2 & v2 & -> & W2 & T & _).
  apply i_num in T as (s2 & v3 & -> & T & _). apply i_sp in T as (w3 & v4 & -> & W3 & T & _). apply i_num in T as (s3 & v5 & -> & T & _).
  apply i_sp in T as (w4 & v6 & -> & W4 & T & _). apply i_num in T as (s4 & v7 & -> & T & _). apply i_sp in T as (w5 & v8 & -> & W5 & T & _).
  apply i_num in T as (s5 & v9 & -> & T & _). apply i_sp in T as (w6 & v10 & -> & W6 & T & _). apply i_num in T as (s6 & r & -> & T & N).
  specialize (N (fin_passes digit)). done_re T. unfold parse_delta in H.
  other_step H. other_step H. other_step H. other_step H. other_step H. other_step H. other_step H. other_step H. other_step H.
  apply uint32 in P as [P B]. apply uint8 in P0 as [P0 B0]. apply uint8 in P1 as [P1 B1]. apply uint8 in P2 as [P2 B2]. apply uint8 in P3 as [P3 B3]. apply uint8 in P4 as [P4 B4].
  apply uint8 in P5 as [P5 B5]. destruct F as (pre & x & mid & z & _ & _ & _ & _ & _ & TK & FP).
  exists pre, x, d, mid, z, (w1 ++ s1 ++ w2 ++ s2 ++ w3 ++ s3 ++ w4 ++ s4 ++ w5 ++ s5 ++ w6 ++ s6 ++ r), a0, a1, a2, a3, a4, a5.
  split; [apply first_taken; [exact (kind_in (SMPTEOffset 0 0 0 0 0 0))|split; assumption]|]. split; [destruct P as (_ & _ & <-); lia|].
  split; [do 13 eexists; split; [reflexivity|]; repeat (split; [assumption|]); assumption|]. repeat (split; [lia || (cbn [In]; lia)|]).
  intros (R1 & R2 & R3 & R4 & R5 & R6). unfold make_smpte_offset in H. repeat other_step H; lia.
Qed.

Lemma panic_complete : forall table s, line_crashes s -> unmarshal_text table s = Panic.
Proof.
  intros table s (K & pre & x & d & mid & y & tail & h & m & sc & rate & f & ff & FR & BD &
    (w1 & s1 & w2 & s2 & w3 & s3 & w4 & s4 & w5 & s5 & w6 & s6 & r & -> & W1 & W2 & W3 & W4 & W5 & W6 & S1 & S2 & S3 & S4 & S5 & S6 & R) & B1 & B2 & B3 & B4 & B5 & B6 & NR).
  apply first_taken in FR as [T FE]; [|exact (kind_in (SMPTEOffset 0 0 0 0 0 0))].
  rewrite (dispatch table s (SMPTEOffset 0 0 0 0 0 0) 15 text_smpte_offset eq_refl K). unfold text_smpte_offset, re_smpte_offset.
  assert (PD : parse_delta d = Ok (digits_value d)).
  { destruct T as (_ & _ & DD & _). apply parse_uint_num; [split; [apply DD|split; [apply DD|reflexivity]]|exact BD]. }
  erewrite (first_found (str "SMPTEOffset") s pre x d mid y); [|exact (kind_in (SMPTEOffset 0 0 0 0 0 0))|exact T|exact FE|reflexivity|
      apply f_sp; [exact W1|apply (num_white _ _ _ S1)|]; apply (f_num _ _ h); [exact S1|apply blank_digit, W2|];
      apply f_sp; [exact W2|apply (num_white _ _ _ S2)|]; apply (f_num _ _ m); [exact S2|apply blank_digit, W3|];
      apply f_sp; [exact W3|apply (num_white _ _ _ S3)|]; apply (f_num _ _ sc); [exact S3|apply blank_digit, W4|];
      apply f_sp; [exact W4|apply (num_white _ _ _ S4)|]; apply (f_num _ _ rate); [exact S4|apply blank_digit, W5|];
      apply f_sp; [exact W5|apply (num_white _ _ _ S5)|]; apply (f_num _ _ f); [exact S5|apply blank_digit, W6|];
      apply f_sp; [exact W6|apply (num_white _ _ _ S6)|]; apply (f_last _ ff); assumption].
  assert (B4' := B4). cbn [In] in B4'. cbn [app]. rewrite PD. cbn [bind].
  rewrite (parse_uint_num 8 s1 h S1) by (change (2 ^ 8) with 256; lia). cbn [bind]. rewrite (parse_uint_num 8 s2 m S2) by (change (2 ^ 8) with 256; lia). cbn [bind].
  rewrite (parse_uint_num 8 s3 sc S3) by (change (2 ^ 8) with 256; lia). cbn [bind]. rewrite (parse_uint_num 8 s4 rate S4) by (change (2 ^ 8) with 256; lia). cbn [bind].
  rewrite (parse_uint_num 8 s5 f S5) by (change (2 ^ 8) with 256; lia). cbn [bind]. rewrite (parse_uint_num 8 s6 ff S6) by (change (2 ^ 8) with 256; lia). cbn [bind].
  do 2 pass. unfold make_smpte_offset. repeat match goal with |- (if ?c then _ else _) = _ => destruct c eqn:?; [reflexivity|] end.
  exfalso. apply NR. unfold offset_range. cbn [In]. lia.
Qed.

Lemma log2_ends : forall d, 0 <= d < 256 -> log2_loop 9 1 d 0 = Loop <-> 128 < d.
Proof.
  intros d D. pose proof (byte_sweep (fun b => match log2_loop 9 1 b 0 with Loop => 128 <? b | _ => b <=? 128 end) ltac:(vm_compute; reflexivity) d D) as E.
  cbv beta in E. destruct (log2_loop 9 1 d 0); (split; [intros X; try discriminate X; lia|intros L; try lia; reflexivity]).
Qed.

Lemma loop_sound : forall table s, unmarshal_text table s = Loop -> line_hangs s.
Proof.
  intros table s H. apply first_case_any in H as (i & t & f & N & C & H & E); [|discriminate]. pose proof (kind_from _ _ _ _ _ N C E) as K.
  apply (loop_case _ _ _ _ _ N) in H as [-> H]. split; [exact K|]. clear N C E K i f. unfold text_time_signature, re_time_signature in H. find_other H T.
  apply i_sp in T as (w & v & -> & W & T & _). apply i_num in T as (s1 & v1 & -> & T & _). apply i_word in T as (x1 & v2 & -> & X1 & T).
  apply i_lead in T as (c2 & s2 & v3 & -> & C2 & _ & T). apply i_word in T as (x2 & v4 & -> & X2 & T). apply i_ws in T as (w2 & v5 & -> & W2 & T).
  apply i_word in T as (x3 & v6 & -> & X3 & T). apply i_num in T as (s3 & v7 & -> & T & _). apply i_word in T as (x4 & v8 & -> & X4 & T).
  apply i_ws in T as (w3 & v9 & -> & W3 & T). apply i_lead in T as (c4 & s4 & v10 & -> & C4 & S4 & T). apply i_word in T as (x5 & r & -> & X5 & T). done_re T.
  apply spelled_one in X1; [|discriminate|discriminate|reflexivity]. apply spelled_one in X2; [|discriminate|discriminate|reflexivity].
  apply spelled_one in X3; [|discriminate|discriminate|reflexivity]. subst x1 x2 x3. unfold parse_delta in H.
  other_step H. other_step H. other_step H. other_step H. other_step H.
  apply uint32 in P as [P B]. apply uint8 in P0 as [P0 B0]. apply uint8 in P1 as [P1 B1]. apply uint8 in P2 as [P2 B2]. apply uint8 in P3 as [P3 B3].
  unfold make_time_signature in H. assert (L : log2_loop 9 1 a1 0 = Loop) by (destruct (log2_loop 9 1 a1 0); cbn [bind] in H; congruence).
  apply (log2_ends a1 B1) in L. destruct F as (pre & x & mid & z & _ & _ & _ & _ & _ & TK & FP).
  do 6 eexists. exists a0, a1, a2, a3. split; [apply first_taken; [exact (kind_in (TimeSignature 0 0 0 0))|split; eassumption]|]. split; [destruct P as (_ & _ & <-); lia|].
  split; [|lia]. exists w, s1, (c2 :: s2), w2, s3, x4, w3, (c4 :: s4), x5, r. split; [reflexivity|]. repeat (split; [assumption || (cbn [hd]; lia)|]). split; [|exact X5].
  cbn [tl]. apply Forall_forall. intros c I. rewrite forallb_forall in S4. specialize (S4 c I). lia.
Qed.

Lemma loop_complete : forall table s, line_hangs s -> unmarshal_text table s = Loop.
Proof.
  intros table s (K & pre & x & d & mid & y & tail & n & dd & t & q & FR & BD & (w & s1 & s2 & w2 & s3 & z & w3 & s4 & z2 & r & -> & W & S1 & S2 & H2 & W2 & S3 & Z & W3 & S4 & H4 & T4 & Z2) & B1 & B2 & B3 & B4).
  apply first_taken in FR as [T FE]; [|exact (kind_in (TimeSignature 0 0 0 0))].
  rewrite (dispatch table s (TimeSignature 0 0 0 0) 13 text_time_signature eq_refl K). unfold text_time_signature, re_time_signature.
  assert (PD : parse_delta d = Ok (digits_value d)).
  { destruct T as (_ & _ & DD & _). apply parse_uint_num; [split; [apply DD|split; [apply DD|reflexivity]]|exact BD]. }
  destruct s2 as [|c2 s2]; [cbn in H2; lia|]. destruct s4 as [|c4 s4]; [cbn in H4; lia|]. cbn [hd] in H2, H4.
  assert (D2 : Forall is_digit (c2 :: s2)) by apply S2. assert (D4 : Forall is_digit (c4 :: s4)) by apply S4.
  pose proof (Forall_inv D2) as I2. pose proof (Forall_inv_tail D2) as I2'. pose proof (Forall_inv D4) as I4. pose proof (Forall_inv_tail D4) as I4'. unfold is_digit in I2, I4.
  erewrite (first_found (str "TimeSignature") s pre x d mid y); [|exact (kind_in (TimeSignature 0 0 0 0))|exact T|exact FE|reflexivity|
      apply f_sp; [exact W|apply (num_white _ _ _ S1)|]; apply (f_num _ _ n); [exact S1|reflexivity|]; apply f_word; [apply spelled_refl|];
      apply m_lead; [lia|apply digits_are, I2'|reflexivity|]; apply f_word; [apply spelled_refl|]; apply (f_space _ _ _ t); [exact W2|exact S3|];
      apply (f_num _ _ t); [exact S3|word_start Z|]; apply f_word; [exact Z|]; apply f_ws; [exact W3|apply (num_white q (c4 :: s4) _ S4)|];
      apply m_lead; [lia| |word_start Z2|]; [|apply f_word; [exact Z2|reflexivity]]].
  - cbn [app]. rewrite PD. cbn [bind]. rewrite (parse_uint_num 8 s1 n S1 B1), (parse_uint_num 8 (c2 :: s2) dd S2) by (change (2 ^ 8) with 256; lia).
    cbn [bind]. rewrite (parse_uint_num 8 s3 t S3 B3), (parse_uint_num 8 (c4 :: s4) q S4 B4). cbn [bind]. unfold make_time_signature.
    rewrite (proj2 (log2_ends dd ltac:(lia)) ltac:(lia)). reflexivity.
  - cbn [tl] in T4. apply forallb_forall. intros ch I. rewrite Forall_forall in T4, I4'. specialize (T4 ch I). specialize (I4' ch I). unfold is_digit in I4'. lia.
Qed.

Theorem line_ends : forall table s, (forall e, unmarshal_text table s = Ok e <-> exactly table s e) /\ (unmarshal_text table s = Panic <-> line_crashes s) /\
  (unmarshal_text table s = Loop <-> line_hangs s) /\ unmarshal_text table s <> Eof.
Proof.
  intros table s. split; [intros e; split; [apply exact_sound|apply exact_complete]|]. split; [split; [apply panic_sound|apply panic_complete]|].
  split; [split; [apply loop_sound|apply loop_complete]|apply line_end].
Qed.
