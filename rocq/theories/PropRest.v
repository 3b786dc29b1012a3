(** * A rest at the beginning: C126.  Theorems only; proofs in RestProofs.v. *)
From Coq Require Import Permutation.
From Verif Require Import Base Tables Event Track File Notes SpecNames SpecSlower SpecRest RestProofs Samples RestSamples.

(** C126: with a rest of [k] ticks before every track the same notes are found, each [k] ticks later, none of them earlier, as long as before (to the millisecond).
    Full statement: there is one time [d] by which all of them are later, [exists d, alike (matched (delayed_note k d)) (extract env steps order s) (extract env steps order' s')];
    missing: the notes of different tracks can be delayed by different times, see C126_refuted. *)
Theorem C126_rest_partial : forall env r k s s' steps order order', is_bytes r -> decode env r = Ok s -> 0 <= k -> rested_file k s s' -> short_tracks s' ->
  (forall l, Permutation l (order l)) -> (forall l, Permutation l (order' l)) ->
  alike (matched (rested_note k)) (extract env steps order s) (extract env steps order' s').
Proof. exact rest_delays. Qed.
Print Assumptions C126_rest_partial.

Example C126_example : exists s s' ns ns', is_bytes early /\ decode default_env early = Ok s /\ decode default_env late = Ok s' /\ rested_file 480 s s' /\ short_tracks s' /\
  extract default_env 0 (fun l => l) s = Ok ns /\ extract default_env 0 (fun l => l) s' = Ok ns' /\
  map (fun o => (o_note o, o_start_tick o, o_end_tick o, o_start o, o_duration o)) ns = [(60, 0, 480, 0, 500000000); (62, 480, 960, 500000000, 500000000)] /\
  map (fun o => (o_note o, o_start_tick o, o_end_tick o, o_start o, o_duration o)) ns' = [(60, 480, 960, 50000000, 500000000); (62, 960, 1440, 1000000000, 500000000)].
Proof.
  do 4 eexists. split; [repeat constructor; lia|]. split; [vm_compute; reflexivity|]. split; [vm_compute; reflexivity|].
  split; [split; [reflexivity|]; vm_compute; repeat match goal with |- Forall2 _ _ _ => constructor | |- _ /\ _ => split | _ => reflexivity end|].
  split; [repeat constructor|]. split; [vm_compute; reflexivity|]. split; [vm_compute; reflexivity|]. split; reflexivity.
Qed.

(** C126 refuted: the first note is later by 50 ms, the second one by 500 ms (the rest of a track that begins together with the tempo is timed with the default tempo, that of the other one with the tempo). *)
Theorem C126_refuted : exists r r' k s s' ns ns', is_bytes r /\ is_bytes r' /\ decode default_env r = Ok s /\ decode default_env r' = Ok s' /\ 0 <= k /\ rested_file k s s' /\ short_tracks s' /\
  extract default_env 0 (fun l => l) s = Ok ns /\ extract default_env 0 (fun l => l) s' = Ok ns' /\ ~ exists d, matched (delayed_note k d) ns ns'.
Proof. exact rest_uneven. Qed.
Print Assumptions C126_refuted.
