(** * Channels taken out: C131.  Theorems only; proofs in MutedProofs.v. *)
From Coq Require Import Permutation.
From Verif Require Import Base Strings Tables Event Track File Notes SpecNotes SpecSlower SpecDivided SpecDividedTime SpecMuted MutedProofs MutedTimeProofs NotesTimeProofs Samples DividedSamples MutedSamples.

(** C131: if the notes of some channels are taken out of a file, exactly the notes on the other channels are left (channel, key, name, velocity and ticks).
    Full statement: at the same times too, to the millisecond, [matched same_note (heard chosen ns) ns']; missing: the times depend on the other events of the track if there are tempo changes, see C131_refuted. *)
Theorem C131_muted_partial : forall chosen env steps order order' s s' ns, muted_file chosen s s' -> (forall l, Permutation l (order l)) -> (forall l, Permutation l (order' l)) ->
  extract env steps order s = Ok ns -> exists ns', extract env steps order' s' = Ok ns' /\ Permutation (map untimed (heard chosen ns)) (map untimed ns').
Proof. exact muted_notes. Qed.
Print Assumptions C131_muted_partial.

Example C131_example : exists s s' ns ns', decode default_env duet = Ok s /\ decode default_env solo = Ok s' /\ muted_file channel1 s s' /\
  extract default_env 0 (fun l => l) s = Ok ns /\ extract default_env 0 (fun l => l) s' = Ok ns' /\
  map untimed ns = [(0, 61, str "D♭4", 100, 0, 480); (1, 63, str "E♭4", 90, 960, 1440)] /\ map untimed ns' = [(1, 63, str "E♭4", 90, 960, 1440)] /\
  map o_start ns = [0; 750000000] /\ map o_start ns' = [500000000].
Proof.
  do 4 eexists. split; [vm_compute; reflexivity|]. split; [vm_compute; reflexivity|].
  split.
  { split; [reflexivity|]. do 4 eexists. split; [reflexivity|]. split; [reflexivity|]. split; [reflexivity|]. constructor; [|constructor]. cbn [t_events].
    repeat first [apply mu_nil | apply mu_keep; [split; reflexivity|first [right; exact I|left; cbn [e_body partial_event]; reflexivity]|] | apply mu_drop; [cbn [e_body partial_event]; reflexivity|]]. }
  split; [vm_compute; reflexivity|]. split; [vm_compute; reflexivity|]. do 3 (split; [vm_compute; reflexivity|]). vm_compute; reflexivity.
Qed.

(** C131, times: where the times are right (C40: the tempo changes only where the track has an event), before and after, they are the same to a millisecond and two nanoseconds for each event.
    Full statement and what is missing: as above. *)
Theorem C131_times_partial : forall chosen env steps order order' t0 t t1 p ns, 0 < p -> (forall l, Permutation l (order l)) -> (forall l, Permutation l (order' l)) ->
  muted chosen (t_events t) (t_events t1) -> well_timed t0 (t_events t) -> well_timed t0 (t_events t1) -> track_notes env steps order (tempo_events t0) p t = Ok ns ->
  exists ns1, track_notes env steps order' (tempo_events t0) p t1 = Ok ns1 /\ matched (note_within (1000000 + 2 * zlen (t_events t))) (heard chosen ns) ns1.
Proof. exact muted_times. Qed.
Print Assumptions C131_times_partial.

Example C131_times_example : exists s s' t0 t t0' t1 t2 ns ns2, decode default_env even_duet = Ok s /\ decode default_env even_solos = Ok s' /\ f_tracks s = [t0; t] /\ f_tracks s' = [t0'; t1; t2] /\
  muted channel1 (t_events t) (t_events t2) /\ well_timed (t_events t0) (t_events t) /\ well_timed (t_events t0) (t_events t2) /\
  track_notes default_env 0 (fun l => l) (tempo_events (t_events t0)) 480 t = Ok ns /\ track_notes default_env 0 (fun l => l) (tempo_events (t_events t0)) 480 t2 = Ok ns2 /\
  map o_start ns = [0; 750000000] /\ map o_start ns2 = [750000000] /\ map o_end ns2 = [1000000000].
Proof.
  do 9 eexists. split; [vm_compute; reflexivity|]. split; [vm_compute; reflexivity|]. split; [reflexivity|]. split; [reflexivity|].
  split.
  { cbn [t_events]. repeat first [apply mu_nil | apply mu_keep; [split; reflexivity|first [right; exact I|left; cbn [e_body partial_event]; reflexivity]|] | apply mu_drop; [cbn [e_body partial_event]; reflexivity|]]. }
  assert (B : forall t, (forall e, In e t -> 0 <= e_tick e <= 1440) -> forall e, In e t -> ideal_time [(0, 500000); (480, 250000)] (Z.to_nat (e_tick e)) < 9000000000000000000).
  { intros t F e I. apply F in I. eapply Z.le_lt_trans; [apply (ideal_mono [(0, 500000); (480, 250000)] ltac:(constructor; [cbn; lia|constructor; [cbn; lia|constructor]]) _ (Z.to_nat 1440)); lia|vm_compute; reflexivity]. }
  assert (K : forall (l : list event), Forall (fun e => 0 <= e_tick e <= 1440) l -> forall e, In e l -> 0 <= e_tick e <= 1440) by (intros l; apply Forall_forall).
  do 2 (split; [split; [cbn; lia|split; [repeat constructor|split; [cbn; lia|split; [repeat (constructor; [cbn; lia|]); constructor|split; [exists 500000; left; reflexivity|split;
    [constructor; [left; reflexivity|constructor; [right; cbn; tauto|constructor]]|apply B, K; repeat (constructor; [cbn; lia|]); constructor]]]]]]|]).
  do 2 (split; [vm_compute; reflexivity|]). do 2 (split; [vm_compute; reflexivity|]). vm_compute; reflexivity.
Qed.

(** C131 refuted: without the first note the second one starts after 0.5 s instead of 0.75 s, though it is at the same tick with the same tempi. *)
Theorem C131_refuted : exists r r' s s' ns ns', is_bytes r /\ is_bytes r' /\ decode default_env r = Ok s /\ decode default_env r' = Ok s' /\ muted_file channel1 s s' /\
  extract default_env 0 (fun l => l) s = Ok ns /\ extract default_env 0 (fun l => l) s' = Ok ns' /\ ~ matched same_note (heard channel1 ns) ns'.
Proof. exact muted_times_differ. Qed.
Print Assumptions C131_refuted.
