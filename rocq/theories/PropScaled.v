(** * The same piece several times as slow: C129.  Theorems only; proofs in ScaledProofs.v. *)
From Coq Require Import Permutation.
From Verif Require Import Base Tables Event Track File Notes SpecNames SpecSlower SpecDivided SpecScaled ScaledProofs Samples.

(** C129: with all tempi [k] times as long the same notes are found at [k] times the times, but for the rounding of both. *)
Theorem C129_times : forall env r r' k n s s' steps order order', is_bytes r -> is_bytes r' -> decode env r = Ok s -> decode env r' = Ok s' -> 0 < k -> times_file k s s' ->
  tempo_given s -> no_longer_than n s -> short_tracks s -> (forall l, Permutation l (order l)) -> (forall l, Permutation l (order' l)) ->
  alike (matched (times_note k n)) (extract env steps order s) (extract env steps order' s').
Proof. exact times_notes. Qed.
Print Assumptions C129_times.

(** Two notes, the tempo set to [t] microseconds after [d] ticks and to [u] microseconds 480 ticks later (three bytes each) *)
Definition twice_song (d : Z) (t u : bytes) : bytes := sample_header ++ sample_track ([d; 255; 81; 3] ++ t ++ [131; 96; 255; 81; 3] ++ u ++ [0; 255; 47; 0]) ++
  sample_track [0; 144; 60; 100; 131; 97; 128; 60; 0; 131; 96; 144; 62; 90; 131; 96; 128; 62; 0; 0; 255; 47; 0].

(** 500000 and 1000001 microseconds, and twice as long *)
Example C129_example : exists s s' ns ns', let r := twice_song 0 [7; 161; 32] [15; 66; 65] in let r' := twice_song 0 [15; 66; 64] [30; 132; 130] in
  is_bytes r /\ is_bytes r' /\ decode default_env r = Ok s /\ decode default_env r' = Ok s' /\ times_file 2 s s' /\ tempo_given s /\ no_longer_than 5 s /\ short_tracks s /\
  extract default_env 0 (fun l => l) s = Ok ns /\ extract default_env 0 (fun l => l) s' = Ok ns' /\
  map (fun o => (o_note o, o_start o, o_end o)) ns = [(60, 0, 1002000000); (62, 2002000000, 3002000000)] /\
  map (fun o => (o_note o, o_start o, o_end o)) ns' = [(60, 0, 2004000000); (62, 4004000000, 6004000000)].
Proof.
  do 4 eexists. cbv zeta. split; [repeat constructor; lia|]. split; [repeat constructor; lia|]. split; [vm_compute; reflexivity|]. split; [vm_compute; reflexivity|].
  split; [split; [reflexivity|]; vm_compute; repeat match goal with |- Forall2 _ _ _ => constructor | |- _ /\ _ => split | _ => reflexivity end|].
  split; [do 4 eexists; split; [reflexivity|]; split; [left; reflexivity|]; split; reflexivity|].
  split; [repeat constructor; vm_compute; discriminate|]. split; [repeat constructor|].
  split; [vm_compute; reflexivity|]. split; [vm_compute; reflexivity|]. split; vm_compute; reflexivity.
Qed.

(** A tempo at the beginning is needed: here it is first set after 100 ticks, and what comes before it is timed with the default in both pieces. *)
Definition early_song (t : bytes) : bytes := sample_header ++ sample_track ([100; 255; 81; 3] ++ t ++ [0; 255; 47; 0]) ++ sample_track [0; 144; 60; 100; 96; 128; 60; 0; 0; 255; 47; 0].

Example C129_default_example : exists s s' ns ns', decode default_env (early_song [7; 161; 32]) = Ok s /\ decode default_env (early_song [15; 66; 64]) = Ok s' /\ times_file 2 s s' /\ ~ tempo_given s /\
  no_longer_than 3 s /\ short_tracks s /\ extract default_env 0 (fun l => l) s = Ok ns /\ extract default_env 0 (fun l => l) s' = Ok ns' /\
  map (fun o => (o_start o, o_end o)) ns = [(0, 10000000)] /\ map (fun o => (o_start o, o_end o)) ns' = [(0, 10000000)].
Proof.
  do 4 eexists. split; [vm_compute; reflexivity|]. split; [vm_compute; reflexivity|].
  split; [split; [reflexivity|]; vm_compute; repeat match goal with |- Forall2 _ _ _ => constructor | |- _ /\ _ => split | _ => reflexivity end|].
  split. { intros (t & ts & e & u & H & I & T & B). injection H as <- <-. vm_compute in I. destruct I as [<-|[<-|[]]]; [discriminate T|discriminate B]. }
  split; [repeat constructor; vm_compute; discriminate|]. split; [repeat constructor|].
  split; [vm_compute; reflexivity|]. split; [vm_compute; reflexivity|]. split; vm_compute; reflexivity.
Qed.
