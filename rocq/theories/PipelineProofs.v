(** * PipelineProofs: every schedule of the goroutines of the text assembler. *)
From Verif Require Import Base Strings Assemble Pipeline SpecAssemble AssembleProofs.

Lemma acc_measure : forall (S : Type) (step : S -> S -> Prop) (m : S -> nat),
  (forall a b, step a b -> (m b < m a)%nat) -> forall s, all_runs_end step s.
Proof.
  intros S step m D s. unfold all_runs_end. remember (m s) as n eqn:E. assert (L : (m s <= n)%nat) by lia. clear E.
  revert s L. induction n as [|n IH]; intros s L; constructor; intros t T; apply D in T; [lia|]. apply IH. lia.
Qed.

(** ** Scanner, chunker, reader *)

Definition rank (c : chunker) : nat :=
  match c with Seeking => 6 | Collecting _ => 5 | Sending _ _ => 6 | SendingLast _ => 4 | Closing => 3 | Finished => 2 end.

Definition pipeline_measure (p : pipeline) : nat :=
  (3 * length (p_lines p) + (if p_closed p then 0 else 1) + rank (p_chunker p) + (if p_returned p then 0 else 1))%nat.

Lemma pipeline_decreases : forall a b, pipeline_step a b -> (pipeline_measure b < pipeline_measure a)%nat.
Proof.
  intros a b H. unfold pipeline_measure. destruct H; cbn [p_lines p_closed p_chunker p_returned length rank]; try lia.
  - destruct c; try discriminate; injection H as <-; cbn [rank].
    + destruct (contains line (str "MThd")); cbn [rank]; lia.
    + destruct (has_tag line); cbn [rank]; lia.
  - destruct c as [|chunk| | | |]; try discriminate; [|destruct chunk]; injection H as <-; cbn [rank]; lia.
Qed.

(** What the chunker is still going to send. *)
Definition future (c : chunker) (lines : list bytes) : list (list bytes) :=
  match c with
  | Seeking => chunkify lines
  | Collecting chunk => collect chunk lines
  | Sending chunk line => chunk :: collect [line] lines
  | SendingLast chunk => [chunk]
  | _ => []
  end.

Definition pipeline_inv (lines0 : list bytes) (p : pipeline) : Prop :=
  p_list p ++ future (p_chunker p) (p_lines p) = chunkify lines0 /\
  (p_closed p = true -> p_lines p = []) /\
  (p_closed p = false -> match p_chunker p with Seeking | Sending _ _ => True | Collecting c => c <> [] | _ => False end) /\
  (p_returned p = true -> p_chunker p = Finished).

Lemma pipeline_inv_step : forall l0 a b, pipeline_inv l0 a -> pipeline_step a b -> pipeline_inv l0 b.
Proof.
  intros l0 a b (F & C & O & R) H.
  destruct H; cbn [p_lines p_closed p_chunker p_list p_returned] in *; (split; [|split; [|split]]); cbn [p_lines p_closed p_chunker p_list p_returned]; try discriminate; auto.
  - rewrite <- F. f_equal. destruct c; try discriminate; injection H as <-; cbn [future chunkify collect].
    + destruct (contains line (str "MThd")); reflexivity.
    + destruct (has_tag line); reflexivity.
  - intros _. destruct c; try discriminate; injection H as <-.
    + destruct (contains line (str "MThd")); [discriminate|exact I].
    + destruct (has_tag line); [exact I|]. destruct chunk; discriminate.
  - intro E. specialize (R E). subst c. discriminate.
  - rewrite <- F. f_equal. rewrite (C eq_refl). destruct c as [|chunk| | | |]; try discriminate; [|destruct chunk]; injection H as <-; reflexivity.
  - intro E. specialize (R E). subst c. discriminate.
  - rewrite <- F, <- app_assoc. reflexivity.
  - rewrite <- F, app_nil_r. reflexivity.
Qed.

Lemma pipeline_inv_steps : forall l0 a b, pipeline_inv l0 a -> steps pipeline_step a b -> pipeline_inv l0 b.
Proof. intros l0 a b I H. induction H; [exact I|]. apply IHsteps. eapply pipeline_inv_step; eauto. Qed.

Lemma pipeline_inv_start : forall l0, pipeline_inv l0 (pipeline_start l0).
Proof. intro l0. repeat split; cbn; auto; discriminate. Qed.

Lemma pipeline_progress : forall l0 p, pipeline_inv l0 p -> halted pipeline_step p -> p = Pipeline [] true Finished (chunkify l0) true.
Proof.
  intros l0 [ls cl c li ret] (F & C & O & R) H. cbn [p_lines p_closed p_chunker p_list p_returned] in *.
  destruct ret.
  - rewrite (R eq_refl) in *. destruct cl; [|destruct (O eq_refl)]. cbn in F. rewrite app_nil_r in F. rewrite (C eq_refl). congruence.
  - exfalso. destruct c as [|chunk|chunk line|chunk| |].
    + destruct cl; [eapply H, step_eof; reflexivity|]. destruct ls; [eapply H, step_close_lines|eapply H, step_line; reflexivity].
    + destruct cl; [destruct chunk; eapply H, step_eof; reflexivity|]. destruct ls; [eapply H, step_close_lines|eapply H, step_line; reflexivity].
    + eapply H, step_chunk.
    + eapply H, step_last_chunk.
    + eapply H, step_close_chunks.
    + eapply H, step_return.
Qed.

Lemma pipeline_all : forall lines, all_runs_end pipeline_step (pipeline_start lines) /\
  forall s, steps pipeline_step (pipeline_start lines) s -> halted pipeline_step s ->
    s = Pipeline [] true Finished (chunkify lines) true.
Proof.
  intro lines. split; [apply (acc_measure _ _ _ pipeline_decreases)|].
  intros s H K. eapply pipeline_progress; [|exact K]. eapply pipeline_inv_steps; [apply pipeline_inv_start|exact H].
Qed.

(** Whether a step is possible. *)
Lemma pipeline_halts_or : forall p, (exists q, pipeline_step p q) \/ halted pipeline_step p.
Proof.
  intros [ls cl c li ret].
  destruct c as [|chunk|chunk line|chunk| |].
  - left. destruct cl; [eexists; apply step_eof; reflexivity|]. destruct ls; [eexists; apply step_close_lines|eexists; apply step_line; reflexivity].
  - left. destruct cl; [destruct chunk; eexists; apply step_eof; reflexivity|]. destruct ls; [eexists; apply step_close_lines|eexists; apply step_line; reflexivity].
  - destruct ret; [|left; eexists; apply step_chunk]. destruct cl, ls; try (left; eexists; apply step_close_lines); right; intros s' K; inversion K; discriminate.
  - destruct ret; [|left; eexists; apply step_last_chunk]. destruct cl, ls; try (left; eexists; apply step_close_lines); right; intros s' K; inversion K; discriminate.
  - left. eexists. apply step_close_chunks.
  - destruct ret; [|left; eexists; apply step_return]. destruct cl, ls; try (left; eexists; apply step_close_lines); right; intros s' K; inversion K; discriminate.
Qed.

Lemma pipeline_reaches_end : forall lines, steps pipeline_step (pipeline_start lines) (Pipeline [] true Finished (chunkify lines) true).
Proof.
  intro lines.
  assert (G : forall p, exists q, steps pipeline_step p q /\ halted pipeline_step q).
  { intro p. pose proof (acc_measure _ _ _ pipeline_decreases p) as A. unfold all_runs_end in A.
    induction A as [p _ IH]. destruct (pipeline_halts_or p) as [[q Q]|N].
    - destruct (IH q Q) as (r & R1 & R2). exists r. split; [econstructor; eauto|exact R2].
    - exists p. split; [constructor|exact N]. }
  destruct (G (pipeline_start lines)) as (q & Q1 & Q2). pose proof (proj2 (pipeline_all lines) q Q1 Q2) as <-. exact Q1.
Qed.

(** ** parseMTrk *)

Definition feeder_measure (f : feeder) : nat :=
  (length (g_lines f) + (if g_closed f then 0 else 1) + (match g_returned f with None => 1 | _ => 0 end))%nat.

Lemma feeder_decreases : forall bad a b, feeder_step bad a b -> (feeder_measure b < feeder_measure a)%nat.
Proof. intros bad a b H. unfold feeder_measure. destruct H; cbn [g_lines g_closed g_returned length]; try destruct ret; lia. Qed.

(** No line so far made parseMTrk return an error. *)
Definition good (bad : list bytes -> bool) (got : list bytes) : Prop :=
  forall a l b, got = a ++ l :: b -> bad (a ++ [l]) = false.
(** The last line of [got] is the first one that did. *)
Definition first_bad (bad : list bytes -> bool) (got : list bytes) : Prop :=
  exists a l, got = a ++ [l] /\ bad got = true /\ good bad a.

Lemma good_nil : forall bad, good bad [].
Proof. intros bad a l b H. destruct a; discriminate. Qed.

Lemma good_snoc : forall bad got l, good bad got -> bad (got ++ [l]) = false -> good bad (got ++ [l]).
Proof.
  intros bad got l G B a x b E.
  destruct (exists_last (l := x :: b)) as (b' & y & E'); [discriminate|]. rewrite E' in E. rewrite app_assoc in E.
  apply app_inj_tail in E as [E ->]. destruct b' as [|z b'].
  - cbn in E'. injection E' as -> ->. rewrite app_nil_r in E. subst got. exact B.
  - cbn in E'. injection E' as <- ->. apply (G a x b'). exact E.
Qed.

Definition feeder_inv (bad : list bytes -> bool) (chunk : list bytes) (f : feeder) : Prop :=
  (g_closed f = true -> g_lines f = []) /\
  match g_returned f with
  | None => g_received f ++ g_lines f = chunk /\ g_token f = false /\ good bad (g_received f)
  | Some false => g_received f = chunk /\ g_lines f = [] /\ g_closed f = true /\ g_token f = true /\ good bad chunk
  | Some true => first_bad bad (g_received f) /\
      (if g_token f then g_received f ++ g_lines f = chunk else exists l, g_received f ++ l :: g_lines f = chunk)
  end.

Lemma feeder_inv_step : forall bad chunk a b, feeder_inv bad chunk a -> feeder_step bad a b -> feeder_inv bad chunk b.
Proof.
  intros bad chunk a b (C & R) H. destruct H; cbn [g_lines g_closed g_token g_received g_returned] in *;
    (split; cbn [g_lines g_closed g_token g_received g_returned]; [try discriminate; auto|]).
  - destruct R as (E & T & G). rewrite <- app_assoc. split; [exact E|]. split; [exact T|]. apply good_snoc; auto.
  - destruct R as (E & T & G). split; [exists got, line; auto|]. rewrite <- app_assoc. exact E.
  - destruct ret as [[]|].
    + destruct R as (F & E). split; [exact F|]. exists line. exact E.
    + destruct R as (_ & E & _). discriminate.
    + destruct R as (_ & T & _). discriminate.
  - destruct ret as [[]|]; auto. destruct R as (E & _ & K & _). discriminate.
  - destruct R as (E & T & G). rewrite (C eq_refl), app_nil_r in E. subst chunk. auto.
Qed.

Lemma feeder_inv_steps : forall bad chunk a b, feeder_inv bad chunk a -> steps (feeder_step bad) a b -> feeder_inv bad chunk b.
Proof. intros bad chunk a b I H. induction H; [exact I|]. apply IHsteps. eapply feeder_inv_step; eauto. Qed.

Lemma feeder_inv_start : forall bad chunk, feeder_inv bad chunk (feeder_start chunk).
Proof. intros. split; cbn; [discriminate|]. split; [reflexivity|]. split; [reflexivity|apply good_nil]. Qed.

Lemma feeder_halted : forall bad chunk s, steps (feeder_step bad) (feeder_start chunk) s -> halted (feeder_step bad) s ->
  (good bad chunk /\ s = Feeder [] true true chunk (Some false)) \/
  exists got rest, chunk = got ++ rest /\ first_bad bad got /\
    s = Feeder (tl rest) (length rest <=? 1)%nat (match rest with [] => true | _ => false end) got (Some true).
Proof.
  intros bad chunk s H K. pose proof (feeder_inv_steps bad chunk _ _ (feeder_inv_start bad chunk) H) as (C & R).
  destruct s as [ls cl t got ret]. cbn [g_lines g_closed g_token g_received g_returned] in *.
  destruct ret as [[]|].
  - right. destruct R as (F & E). destruct t.
    + destruct ls as [|l ls].
      * destruct cl; [|exfalso; eapply K, feed_close]. exists got, []. rewrite app_nil_r in *. repeat split; auto.
      * destruct cl; [discriminate (C eq_refl)|]. exfalso. eapply K, feed_skip.
    + destruct E as [l E]. exists got, (l :: ls). split; [auto|]. split; [exact F|]. cbn [tl length].
      destruct cl; [rewrite (C eq_refl); reflexivity|]. destruct ls as [|l' ls]; [exfalso; eapply K, feed_close|]. reflexivity.
  - left. destruct R as (E & -> & -> & -> & G). subst. auto.
  - exfalso. destruct R as (E & -> & G). destruct cl; [eapply K, feed_return|]. destruct ls as [|l ls]; [eapply K, feed_close|].
    destruct (bad (got ++ [l])) eqn:B; [eapply K, feed_bad_line, B|eapply K, feed_line, B].
Qed.

Lemma feeder_all : forall bad chunk, all_runs_end (feeder_step bad) (feeder_start chunk).
Proof. intros. apply (acc_measure _ _ _ (feeder_decreases bad)). Qed.

Lemma feed_run : forall bad got rest more, good bad got -> 
  steps (feeder_step bad) (Feeder (got ++ rest) false false more None) (Feeder rest false false (more ++ got) None) \/ exists a l b, got = a ++ l :: b /\ bad (more ++ a ++ [l]) = true.
Proof.
  intros bad got. induction got as [|l got IH] using rev_ind; intros rest more G.
  - left. rewrite app_nil_r. constructor.
  - destruct (IH (l :: rest) more) as [S|(a & x & b & E & B)].
    + intros a x b E. apply (G a x (b ++ [l])). subst. rewrite <- app_assoc. reflexivity.
    + destruct (bad (more ++ got ++ [l])) eqn:B; [right; exists got, l, []; auto|]. left. rewrite <- app_assoc. cbn [app].
      revert S. generalize (Feeder (got ++ l :: rest) false false more None). intros f S.
      assert (T : feeder_step bad (Feeder (l :: rest) false false (more ++ got) None) (Feeder rest false false ((more ++ got) ++ [l]) None)).
      { apply feed_line. rewrite <- app_assoc. exact B. }
      rewrite app_assoc. clear - S T. remember (Feeder (l :: rest) false false (more ++ got) None) as g. induction S; subst; [econstructor; [exact T|constructor]|].
      econstructor; [exact H|auto].
    + right. exists a, x, (b ++ [l]). subst. rewrite <- app_assoc. auto.
Qed.

(** Two more lines after the first bad one: the goroutine is left behind, blocked. *)
Lemma feeder_leaks : forall bad chunk got l1 l2 r, chunk = got ++ l1 :: l2 :: r -> first_bad bad got ->
  exists s, steps (feeder_step bad) (feeder_start chunk) s /\ halted (feeder_step bad) s /\ g_closed s = false /\ g_returned s = Some true.
Proof.
  intros bad chunk got l1 l2 r -> (a & l & -> & B & G).
  exists (Feeder (l2 :: r) false false (a ++ [l]) (Some true)). split; [|split; [|auto]].
  - destruct (feed_run bad a (l :: l1 :: l2 :: r) [] G) as [S|(a' & x & b & E & K)].
    + unfold feeder_start. rewrite <- app_assoc. cbn [app] in *. 
      assert (T : steps (feeder_step bad) (Feeder (l :: l1 :: l2 :: r) false false a None) (Feeder (l2 :: r) false false (a ++ [l]) (Some true))).
      { econstructor; [apply feed_bad_line; exact B|]. econstructor; [apply feed_skip|]. constructor. }
      revert S T. generalize (Feeder (l :: l1 :: l2 :: r) false false a None). intros f S T. induction S; [exact T|]. econstructor; eauto.
    + exfalso. cbn [app] in K. rewrite (G a' x b E) in K. discriminate.
  - intros s' K. inversion K.
Qed.

Lemma pipeline_delivers : forall lines, all_runs_end pipeline_step (pipeline_start lines) /\
  exists before cs, divides lines before cs /\ Forall (fun l => ~ header_line l) before /\
    match cs with [] => True | c :: _ => header_line (hd [] c) end /\
    (forall s, steps pipeline_step (pipeline_start lines) s -> halted pipeline_step s -> s = Pipeline [] true Finished cs true) /\
    steps pipeline_step (pipeline_start lines) (Pipeline [] true Finished cs true).
Proof.
  intro lines. destruct (pipeline_all lines) as [A B]. split; [exact A|].
  destruct (chunkify_spec lines) as (b & D & F & H). exists b, (chunkify lines). repeat split; try apply D; auto. apply pipeline_reaches_end.
Qed.

Lemma feeder_good : forall bad chunk s, good bad chunk -> steps (feeder_step bad) (feeder_start chunk) s -> halted (feeder_step bad) s ->
  s = Feeder [] true true chunk (Some false).
Proof.
  intros bad chunk s G H K. destruct (feeder_halted bad chunk s H K) as [[_ E]|(got & rest & -> & (a & l & -> & B & _) & _)]; [exact E|].
  exfalso. rewrite <- app_assoc in G. cbn in G. rewrite (G a l rest eq_refl) in B. discriminate.
Qed.

Lemma feeder_bad : forall bad got rest s, first_bad bad got -> steps (feeder_step bad) (feeder_start (got ++ rest)) s -> halted (feeder_step bad) s ->
  g_received s = got /\ g_returned s = Some true /\ (g_closed s = true <-> (length rest < 2)%nat).
Proof.
  intros bad got rest s (a & l & -> & B & G) H K.
  destruct (feeder_halted bad _ s H K) as [[G' E]|(got' & rest' & E & (a' & l' & -> & B' & G') & ->)].
  - exfalso. rewrite <- app_assoc in G'. cbn in G'. rewrite (G' a l rest eq_refl) in B. discriminate.
  - assert (D : a' = a /\ l' = l /\ rest' = rest).
    { rewrite <- !app_assoc in E. cbn [app] in E. clear - E B B' G G'. revert E.
      assert (Z : forall x y u v r r', good bad x -> bad (y ++ [v]) = true -> x ++ u :: r = y ++ v :: r' -> (length x <= length y)%nat).
      { intros x y u v r r' Gx By E. assert (D : (length x <= length y)%nat \/ (length y < length x)%nat) by lia. destruct D as [D|D]; [exact D|exfalso].
        assert (F : firstn (S (length y)) (x ++ u :: r) = y ++ [v]).
        { rewrite E. rewrite firstn_app. replace (S (length y) - length y)%nat with 1%nat by lia. rewrite firstn_all2 by lia. reflexivity. }
        rewrite firstn_app in F. replace (S (length y) - length x)%nat with 0%nat in F by lia. rewrite firstn_O, app_nil_r in F.
        rewrite (Gx y v (skipn (S (length y)) x)) in By; [discriminate|].
        rewrite <- (firstn_skipn (S (length y)) x) at 1. rewrite F, <- app_assoc. reflexivity. }
      intro E. assert (L : length a = length a').
      { apply Nat.le_antisymm; [exact (Z _ _ _ _ _ _ G B' E)|]. symmetry in E. exact (Z _ _ _ _ _ _ G' B E). }
      assert (F : firstn (length a) (a ++ l :: rest) = firstn (length a) (a' ++ l' :: rest')) by congruence.
      rewrite firstn_app_exact, L, firstn_app_exact in F. subst a'. apply app_inv_head in E. injection E as <- <-. auto. }
    destruct D as (-> & -> & ->). cbn [g_received g_returned g_closed]. repeat split; rewrite Nat.leb_le; lia.
Qed.

Lemma feeder_good_all : forall bad chunk s, good bad chunk -> steps (feeder_step bad) (feeder_start chunk) s -> halted (feeder_step bad) s ->
  g_received s = chunk /\ g_closed s = true /\ g_returned s = Some false.
Proof. intros bad chunk s G H K. rewrite (feeder_good bad chunk s G H K). auto. Qed.
