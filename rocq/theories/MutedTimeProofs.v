(** * Proofs for C131: times. *)
From Coq Require Import Permutation.
From Verif Require Import Base Strings Tables Event Track File Notes SpecNotes SpecSlower SpecDivided SpecDividedTime SpecMuted NotesTimeProofs DividedProofs DividedTimeProofs MutedProofs.

Lemma muted_length : forall chosen l l', muted chosen l l' -> zlen l' <= zlen l.
Proof. intros chosen l l' M. induction M; rewrite ?zlen_cons; lia. Qed.

Theorem muted_times : forall chosen env steps order order' t0 t t1 p ns, 0 < p -> (forall l, Permutation l (order l)) -> (forall l, Permutation l (order' l)) ->
  muted chosen (t_events t) (t_events t1) -> well_timed t0 (t_events t) -> well_timed t0 (t_events t1) -> track_notes env steps order (tempo_events t0) p t = Ok ns ->
  exists ns1, track_notes env steps order' (tempo_events t0) p t1 = Ok ns1 /\ matched (note_within (1000000 + 2 * zlen (t_events t))) (heard chosen ns) ns1.
Proof.
  intros chosen env steps order order' t0 t t1 p ns P O1 O2 M W W1 H.
  destruct (track_muted chosen env steps order order' _ p t t1 ns O1 O2 (tempo_only t0) M H) as (n1 & A & Q). exists n1. split; [exact A|].
  pose proof (muted_length _ _ _ M) as L.
  pose proof (filter_channel _ _ (fun o => chosen (o_ch o)) _ (track_timed env steps order t0 t p ns O1 P W H)) as F. pose proof (track_timed env steps order' t0 t1 p n1 O2 P W1 A) as F1.
  set (N := zlen (t_events t)) in *. fold (heard chosen ns) in F.
  assert (F' : Forall (timed_by (nearly (tempo_list t0) p N)) n1).
  { revert F1. apply Forall_impl. intros o [X Y]. unfold nearly in *. split; unfold nearly; (eapply Z.le_trans; [eassumption|]); nia. }
  apply Permutation_map_inv in Q. destruct Q as (m & E & Q). exists m. split; [apply Permutation_sym, Q|].
  assert (FM : Forall (timed_by (nearly (tempo_list t0) p N)) m) by (eapply Permutation_Forall; eassumption).
  clear - P E F FM. revert m E FM. induction F as [|o l X F IH]; intros [|o' m] E FM; try discriminate E; constructor; inversion FM as [|? ? Y FM']; subst; cbn [map] in E; injection E as E0 E.
  - destruct X as [X1 X2], Y as [Y1 Y2]. unfold nearly in *. split; [symmetry; unfold untimed; congruence|].
    assert (T1 : o_start_tick o' = o_start_tick o) by congruence. assert (T2 : o_end_tick o' = o_end_tick o) by congruence. rewrite T1 in Y1. rewrite T2 in Y2.
    generalize dependent (ideal_time (tempo_list t0) (Z.to_nat (o_start_tick o))). generalize dependent (ideal_time (tempo_list t0) (Z.to_nat (o_end_tick o))). intros. split; apply Z.abs_le; split; nia.
  - apply IH; [congruence|assumption].
Qed.
