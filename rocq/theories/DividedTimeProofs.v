(** * Proofs for C127: times. *)
From Coq Require Import Permutation.
From Verif Require Import Base Strings Tables Event Track File Notes SpecNotes SpecSlower SpecDivided SpecDividedTime NotesTimeProofs TransposeProofs DividedProofs.

Definition timed_by (Q : Z -> Z -> Prop) (o : note_out) : Prop := Q (o_start_tick o) (o_start o) /\ Q (o_end_tick o) (o_end o).
Definition moment (Q : Z -> Z -> Prop) (e : nevent) : Prop := Q (ne_tick e) (ne_at e).
Definition held (Q : Z -> Z -> Prop) (p : pending) : Prop := Forall (fun x => moment Q (snd x) /\ exists ch n v, ne_body (snd x) = NoteOn ch n v) p.

Lemma finished_timed : forall Q env steps p e, moment Q p /\ (exists ch n v, ne_body p = NoteOn ch n v) -> moment Q e -> timed_by Q (finished env steps p e).
Proof. intros Q env steps p e [H (ch & n & v & K)] E. unfold finished. rewrite K. split; assumption. Qed.

Lemma held_find : forall Q k p x, held Q p -> find_key k p = Some x -> moment Q x /\ exists ch n v, ne_body x = NoteOn ch n v.
Proof. intros Q k p x H. induction H as [|[i y] p H F IH]; cbn [find_key]; intros E; [discriminate|]. destruct (key_eqb k i); [injection E as <-; exact H|exact (IH E)]. Qed.

Lemma held_filter : forall Q f p, held Q p -> held Q (filter f p).
Proof. intros Q f p H. apply Forall_forall. intros x I. apply filter_In in I. unfold held in H. rewrite Forall_forall in H. apply H, I. Qed.

Lemma finish_timed : forall Q env steps p k e, held Q p -> moment Q e -> Forall (timed_by Q) (fst (finish env steps p k e)) /\ held Q (snd (finish env steps p k e)).
Proof.
  intros Q env steps p k e H E. unfold finish. destruct (find_key k p) as [x|] eqn:F; cbn [fst snd]; [|split; [constructor|exact H]].
  split; [constructor; [|constructor]; apply finished_timed; [exact (held_find Q k p x H F)|exact E]|]. apply held_filter, H.
Qed.

Lemma finish_all_timed : forall Q env steps order p e, (forall l, Permutation l (order l)) -> held Q p -> moment Q e -> Forall (timed_by Q) (finish_all env steps order p e).
Proof.
  intros Q env steps order p e O H E. apply Forall_forall. intros o I. unfold finish_all in I. apply in_flat_map in I. destruct I as (c & _ & I). apply in_map_iff in I. destruct I as (x & <- & I).
  apply (Permutation_in _ (Permutation_sym (O _))) in I. apply in_map_iff in I. destruct I as (y & <- & I). apply filter_In in I. destruct I as [I _].
  unfold held in H. rewrite Forall_forall in H. apply finished_timed; [exact (H y I)|exact E].
Qed.

Lemma notes_timed : forall Q env steps order l, (forall l, Permutation l (order l)) -> Forall (moment Q) l -> forall p ns, held Q p -> note_list env steps order p l = Ok ns -> Forall (timed_by Q) ns.
Proof.
  intros Q env steps order l O F. induction F as [|e l E F IH]; intros p ns H D; cbn [note_list] in D; [apply Ok_inj in D; subst ns; constructor|].
  assert (REL : forall k ns, (let (out, p') := finish env steps p k e in do ns <- note_list env steps order p' l; Ok (out ++ ns)) = Ok ns -> Forall (timed_by Q) ns).
  { intros k ms M. destruct (finish_timed Q env steps p k e H E) as [A B]. destruct (finish env steps p k e) as [out p']. cbn [fst snd] in A, B.
    destruct (note_list env steps order p' l) as [ns'| | | |] eqn:G; try discriminate M. cbn [bind] in M. apply Ok_inj in M. subst ms. apply Forall_app. split; [exact A|]. eapply IH; eassumption. }
  destruct (ne_body e) eqn:K; try (eapply IH; eassumption); try (eapply REL; eassumption).
  - match type of D with context [0 <? ?w] => destruct (0 <? w); [|eapply REL; eassumption] end.
    match type of D with context [find_key ?k p] => destruct (find_key k p); [eapply IH; eassumption|] end.
    match type of D with context [?c <? 16] => destruct (c <? 16); [|discriminate D] end.
    eapply IH; [|exact D]. constructor; [|exact H]. cbn [snd]. split; [exact E|eauto].
  - destruct (note_list env steps order _ l) as [ns'| | | |] eqn:G; try discriminate D. cbn [bind] in D. apply Ok_inj in D. subst ns. apply Forall_app. split; [apply finish_all_timed; assumption|].
    eapply IH; [|exact G]. apply held_filter, H.
Qed.

(** Times as they should be, to half a millisecond and a nanosecond for each event *)
Definition nearly (tm : list (Z * Z)) (p n : Z) (tick at_ : Z) : Prop := Z.abs (at_ * p - ideal_time tm (Z.to_nat tick)) <= (500000 + n) * p.

Lemma track_timed : forall env steps order t0 t p ns, (forall l, Permutation l (order l)) -> 0 < p -> well_timed t0 (t_events t) -> track_notes env steps order (tempo_events t0) p t = Ok ns ->
  Forall (timed_by (nearly (tempo_list t0) p (zlen (t_events t)))) ns.
Proof.
  intros env steps order t0 t p ns O P (H1 & H2 & H3 & H4 & H5 & H6 & H7) D. unfold track_notes in D.
  destruct (build_track_events (t_events t) (tempo_events t0) p) as [l| | | |] eqn:B; try discriminate D. cbn [bind] in D.
  eapply notes_timed; [exact O| |constructor|exact D]. exact (note_times _ _ _ _ P H1 H2 H3 H4 H5 H6 H7 B).
Qed.

Lemma divided_length : forall chosen l l1 l2, divided chosen l l1 l2 -> zlen l1 <= zlen l /\ zlen l2 <= zlen l.
Proof. intros chosen l l1 l2 D. induction D; rewrite ?zlen_cons; lia. Qed.

Theorem divided_times : forall chosen env steps order order' t0 t t1 t2 p ns, 0 < p -> (forall l, Permutation l (order l)) -> (forall l, Permutation l (order' l)) ->
  divided chosen (t_events t) (t_events t1) (t_events t2) -> well_timed t0 (t_events t) -> well_timed t0 (t_events t1) -> well_timed t0 (t_events t2) ->
  track_notes env steps order (tempo_events t0) p t = Ok ns ->
  exists ns1 ns2, track_notes env steps order' (tempo_events t0) p t1 = Ok ns1 /\ track_notes env steps order' (tempo_events t0) p t2 = Ok ns2 /\
    matched (note_within (1000000 + 2 * zlen (t_events t))) ns (ns1 ++ ns2).
Proof.
  intros chosen env steps order order' t0 t t1 t2 p ns P O1 O2 D W W1 W2 H.
  assert (T : Forall (fun e => is_tempo (e_body e) = true) (tempo_events t0)) by (apply Forall_forall; intros e I; apply filter_In in I; tauto).
  destruct (track_divided chosen env steps order order' _ p t t1 t2 ns O1 O2 T D H) as (n1 & n2 & A & B & Q). exists n1, n2. split; [exact A|]. split; [exact B|].
  destruct (divided_length _ _ _ _ D) as [L1 L2].
  pose proof (track_timed env steps order t0 t p ns O1 P W H) as F. pose proof (track_timed env steps order' t0 t1 p n1 O2 P W1 A) as F1. pose proof (track_timed env steps order' t0 t2 p n2 O2 P W2 B) as F2.
  set (N := zlen (t_events t)) in *.
  assert (WEAK : forall n ms, n <= N -> Forall (timed_by (nearly (tempo_list t0) p n)) ms -> Forall (timed_by (nearly (tempo_list t0) p N)) ms).
  { intros n ms LN. apply Forall_impl. intros o [X Y]. unfold nearly in *. split; unfold nearly; (eapply Z.le_trans; [eassumption|]); nia. }
  assert (F' : Forall (timed_by (nearly (tempo_list t0) p N)) (n1 ++ n2)) by (apply Forall_app; split; eapply WEAK; [exact L1|exact F1|exact L2|exact F2]).
  apply Permutation_map_inv in Q. destruct Q as (m & E & Q). exists m. split; [apply Permutation_sym, Q|].
  assert (FM : Forall (timed_by (nearly (tempo_list t0) p N)) m) by (eapply Permutation_Forall; eassumption).
  clear - P E F FM. revert m E FM. induction F as [|o ns X F IH]; intros [|o' m] E FM; try discriminate E; constructor; inversion FM as [|? ? Y FM']; subst; cbn [map] in E; injection E as E0 E.
  - destruct X as [X1 X2], Y as [Y1 Y2]. unfold nearly in *. split; [symmetry; unfold untimed; congruence|].
    assert (T1 : o_start_tick o' = o_start_tick o) by congruence. assert (T2 : o_end_tick o' = o_end_tick o) by congruence. rewrite T1 in Y1. rewrite T2 in Y2.
    generalize dependent (ideal_time (tempo_list t0) (Z.to_nat (o_start_tick o))). generalize dependent (ideal_time (tempo_list t0) (Z.to_nat (o_end_tick o))). intros. split; apply Z.abs_le; split; nia.
  - apply IH; [congruence|assumption].
Qed.
