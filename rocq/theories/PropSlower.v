(** * Slower tempi: C122.  Theorems only; proofs in SlowerProofs.v. *)
From Coq Require Import Permutation.
From Verif Require Import Base Tables Event Track File Notes SpecNames SpecSlower SlowerProofs Samples.

(** C122: with slower tempi the same notes are found, none earlier, none shorter by more than the millisecond times are rounded to. *)
Theorem C122_slower : forall env r r' s s' steps order order', is_bytes r -> is_bytes r' -> decode env r = Ok s -> decode env r' = Ok s' -> slower_file s s' -> short_tracks s ->
  (forall l, Permutation l (order l)) -> (forall l, Permutation l (order' l)) ->
  alike (matched later_note) (extract env steps order s) (extract env steps order' s').
Proof. exact slower_later. Qed.
Print Assumptions C122_slower.

(** Two notes, at tempi of [t] and then [u] microseconds (highest bytes) *)
Definition paced_song (t u : Z) : bytes := sample_header ++ sample_track [0; 255; 81; 3; t; 161; 32; 131; 96; 255; 81; 3; u; 66; 64; 0; 255; 47; 0] ++
  sample_track [0; 144; 60; 100; 131; 96; 128; 60; 0; 131; 96; 144; 62; 90; 131; 96; 128; 62; 0; 0; 255; 47; 0].

Example C122_example : exists s s' ns ns', is_bytes (paced_song 7 15) /\ is_bytes (paced_song 15 30) /\ decode default_env (paced_song 7 15) = Ok s /\ decode default_env (paced_song 15 30) = Ok s' /\
  slower_file s s' /\ short_tracks s /\ extract default_env 0 (fun l => l) s = Ok ns /\ extract default_env 0 (fun l => l) s' = Ok ns' /\
  map (fun o => (o_note o, o_start o, o_end o)) ns = [(60, 0, 500000000); (62, 1500000000, 2500000000)] /\
  map (fun o => (o_note o, o_start o, o_end o)) ns' = [(60, 0, 1024000000); (62, 3007000000, 4990000000)].
Proof.
  do 4 eexists. split; [repeat constructor; lia|]. split; [repeat constructor; lia|]. split; [vm_compute; reflexivity|]. split; [vm_compute; reflexivity|].
  split; [split; [reflexivity|]; vm_compute; repeat match goal with |- Forall2 _ _ _ => constructor | |- _ /\ _ => split | _ => first [reflexivity|discriminate] end|].
  split; [repeat constructor|]. split; [vm_compute; reflexivity|]. split; [vm_compute; reflexivity|]. split; reflexivity.
Qed.

(** The millisecond is needed: a note can get shorter by rounding. *)
Definition short_song (t : Z) : bytes := sample_header ++ sample_track [0; 255; 81; 3; 0; t; 0; 0; 255; 47; 0] ++ sample_track [10; 144; 60; 100; 30; 128; 60; 0; 0; 255; 47; 0].

Example C122_rounded_example : exists s s' ns ns', decode default_env (short_song 75) = Ok s /\ decode default_env (short_song 98) = Ok s' /\ slower_file s s' /\
  extract default_env 0 (fun l => l) s = Ok ns /\ extract default_env 0 (fun l => l) s' = Ok ns' /\ map o_duration ns = [2000000] /\ map o_duration ns' = [1000000].
Proof.
  do 4 eexists. split; [vm_compute; reflexivity|]. split; [vm_compute; reflexivity|].
  split; [split; [reflexivity|]; vm_compute; repeat match goal with |- Forall2 _ _ _ => constructor | |- _ /\ _ => split | _ => first [reflexivity|discriminate] end|].
  split; [vm_compute; reflexivity|]. split; [vm_compute; reflexivity|]. split; reflexivity.
Qed.

(** Beyond the limit on the length of tracks the times wrap around: three deltas of 268435455 ticks at the slowest tempo and resolution 1. *)
Definition long_song (t : Z) : bytes := [77; 84; 104; 100; 0; 0; 0; 6; 0; 1; 0; 2; 0; 1] ++ sample_track [0; 255; 81; 3; t; 255; 255; 0; 255; 47; 0] ++
  sample_track [0; 144; 60; 100; 255; 255; 255; 127; 255; 1; 0; 255; 255; 255; 127; 255; 1; 0; 255; 255; 255; 127; 128; 60; 0; 0; 255; 47; 0].

Example C122_long_example : exists s s' ns ns', decode default_env (long_song 127) = Ok s /\ decode default_env (long_song 255) = Ok s' /\ slower_file s s' /\ ~ short_tracks s /\
  extract default_env 0 (fun l => l) s = Ok ns /\ extract default_env 0 (fun l => l) s' = Ok ns' /\ map (fun o => 0 <? o_end o) ns = [true] /\ map (fun o => o_end o <? 0) ns' = [true].
Proof.
  do 4 eexists. split; [vm_compute; reflexivity|]. split; [vm_compute; reflexivity|].
  split; [split; [reflexivity|]; vm_compute; repeat match goal with |- Forall2 _ _ _ => constructor | |- _ /\ _ => split | _ => first [reflexivity|discriminate] end|].
  split; [intros K; inversion K as [|? ? _ K1]; inversion K1 as [|? ? K2 _]; vm_compute in K2; discriminate K2|].
  split; [vm_compute; reflexivity|]. split; [vm_compute; reflexivity|]. split; reflexivity.
Qed.
