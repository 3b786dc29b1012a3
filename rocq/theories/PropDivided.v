(** * A track divided in two: C127.  Theorems only; proofs in DividedProofs.v. *)
From Coq Require Import Permutation.
From Verif Require Import Base Tables Event Track File Notes SpecNotes SpecSlower SpecDivided SpecDividedTime DividedProofs DividedTimeProofs NotesTimeProofs Samples DividedSamples.

(** C127: if the channels of a track are divided between two tracks, the same notes are found (channel, key, name, velocity and ticks).
    Full statement: at the same times too, to the millisecond, [matched same_note ns ns']; missing: the times depend on the other channels' events of the track if there are tempo changes, see C127_refuted. *)
Theorem C127_divided_partial : forall chosen env steps order order' s s' ns, divided_file chosen s s' -> (forall l, Permutation l (order l)) -> (forall l, Permutation l (order' l)) ->
  extract env steps order s = Ok ns -> exists ns', extract env steps order' s' = Ok ns' /\ Permutation (map untimed ns) (map untimed ns').
Proof. exact divided_notes. Qed.
Print Assumptions C127_divided_partial.

(** The notes on both channels; the second one is ended by the end of the track. *)
Example C127_example : exists s s' ns ns', decode default_env duet = Ok s /\ decode default_env solos = Ok s' /\ divided_file channel0 s s' /\
  extract default_env 0 (fun l => l) s = Ok ns /\ extract default_env 0 (@rev nevent) s' = Ok ns' /\
  map untimed ns = [(0, 61, str "D♭4", 100, 0, 480); (1, 63, str "E♭4", 90, 960, 1440)] /\ map untimed ns' = map untimed ns /\
  map o_start ns = [0; 750000000] /\ map o_start ns' = [0; 500000000].
Proof.
  do 4 eexists. split; [vm_compute; reflexivity|]. split; [vm_compute; reflexivity|].
  split.
  { split; [reflexivity|]. do 9 eexists. split; [apply (f_equal (cons _) (eq_refl ([] ++ _ :: [])))|]. split; [apply (f_equal (cons _) (eq_refl ([] ++ _ :: _ :: [])))|].
    split; [reflexivity|]. split; [reflexivity|]. split; [reflexivity|]. cbn [t_events].
    repeat first [apply dv_nil | apply dv_both; [split; reflexivity|split; reflexivity|exact I|] | apply dv_first; [split; reflexivity|cbn [e_body partial_event]; reflexivity|]
      | apply dv_second; [split; reflexivity|cbn [e_body partial_event]; first [exact I|reflexivity]|]]. }
  split; [vm_compute; reflexivity|]. split; [vm_compute; reflexivity|]. repeat split; vm_compute; reflexivity.
Qed.

(** C127, times: where the times are right (C40: the tempo changes only where the track has an event), before and after, they are the same to a millisecond and two nanoseconds for each event.
    Full statement and what is missing: as above. *)
Theorem C127_times_partial : forall chosen env steps order order' t0 t t1 t2 p ns, 0 < p -> (forall l, Permutation l (order l)) -> (forall l, Permutation l (order' l)) ->
  divided chosen (t_events t) (t_events t1) (t_events t2) -> well_timed t0 (t_events t) -> well_timed t0 (t_events t1) -> well_timed t0 (t_events t2) ->
  track_notes env steps order (tempo_events t0) p t = Ok ns ->
  exists ns1 ns2, track_notes env steps order' (tempo_events t0) p t1 = Ok ns1 /\ track_notes env steps order' (tempo_events t0) p t2 = Ok ns2 /\
    matched (note_within (1000000 + 2 * zlen (t_events t))) ns (ns1 ++ ns2).
Proof. exact divided_times. Qed.
Print Assumptions C127_times_partial.

Example C127_times_example : exists s s' t0 t t0' t1 t2 ns ns1 ns2, decode default_env even_duet = Ok s /\ decode default_env even_solos = Ok s' /\ f_tracks s = [t0; t] /\ f_tracks s' = [t0'; t1; t2] /\
  divided channel0 (t_events t) (t_events t1) (t_events t2) /\ well_timed (t_events t0) (t_events t) /\ well_timed (t_events t0) (t_events t1) /\ well_timed (t_events t0) (t_events t2) /\
  track_notes default_env 0 (fun l => l) (tempo_events (t_events t0)) 480 t = Ok ns /\ track_notes default_env 0 (fun l => l) (tempo_events (t_events t0)) 480 t1 = Ok ns1 /\
  track_notes default_env 0 (fun l => l) (tempo_events (t_events t0)) 480 t2 = Ok ns2 /\
  map o_start ns = [0; 750000000] /\ map o_start (ns1 ++ ns2) = [0; 750000000] /\ map o_end (ns1 ++ ns2) = [500000000; 1000000000].
Proof.
  do 10 eexists. split; [vm_compute; reflexivity|]. split; [vm_compute; reflexivity|]. split; [reflexivity|]. split; [reflexivity|].
  split.
  { cbn [t_events]. repeat first [apply dv_nil | apply dv_both; [split; reflexivity|split; reflexivity|exact I|] | apply dv_first; [split; reflexivity|cbn [e_body partial_event]; reflexivity|]
      | apply dv_second; [split; reflexivity|cbn [e_body partial_event]; first [exact I|reflexivity]|]]. }
  assert (B : forall t, (forall e, In e t -> 0 <= e_tick e <= 1440) -> forall e, In e t -> ideal_time [(0, 500000); (480, 250000)] (Z.to_nat (e_tick e)) < 9000000000000000000).
  { intros t F e I. apply F in I. eapply Z.le_lt_trans; [apply (ideal_mono [(0, 500000); (480, 250000)] ltac:(constructor; [cbn; lia|constructor; [cbn; lia|constructor]]) _ (Z.to_nat 1440)); lia|vm_compute; reflexivity]. }
  assert (K : forall (l : list event), Forall (fun e => 0 <= e_tick e <= 1440) l -> forall e, In e l -> 0 <= e_tick e <= 1440) by (intros l; apply Forall_forall).
  do 3 (split; [split; [cbn; lia|split; [repeat constructor|split; [cbn; lia|split; [repeat (constructor; [cbn; lia|]); constructor|split; [exists 500000; left; reflexivity|split;
    [constructor; [left; reflexivity|constructor; [right; cbn; tauto|constructor]]|apply B, K; repeat (constructor; [cbn; lia|]); constructor]]]]]]|]).
  do 3 (split; [vm_compute; reflexivity|]). repeat split; vm_compute; reflexivity.
Qed.

(** C127 refuted: the second note of the example starts after 0.75 s or after 0.5 s, though it is at the same tick with the same tempi. *)
Theorem C127_refuted : exists r r' s s' ns ns', is_bytes r /\ is_bytes r' /\ decode default_env r = Ok s /\ decode default_env r' = Ok s' /\ divided_file channel0 s s' /\
  extract default_env 0 (fun l => l) s = Ok ns /\ extract default_env 0 (fun l => l) s' = Ok ns' /\ ~ matched same_note ns ns'.
Proof. exact times_differ. Qed.
Print Assumptions C127_refuted.
