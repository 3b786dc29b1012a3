(** * When and what are independent: C118.  Theorems only; proofs in PaceProofs.v, PaceUseProofs.v and PaceSamples.v. *)
From Coq Require Import Permutation.
From Verif Require Import Base Strings Tables Event Track File ValidateText Transpose Notes Samples SpecNames SpecPacket SpecSameSong SpecPace PaceProofs PaceUseProofs SameSongSamples PaceSamples.

(** C118: the delta times decide only when things happen.  Files with the same messages at any other times are read or fail alike, and the same is read but for ticks and delta times ... *)
Theorem C118_read : forall env r r', song_retimed r r' -> alike file_but_times (decode env r) (decode env r').
Proof. exact song_read_retimed. Qed.
Print Assumptions C118_read.

Example C118_example : song_retimed coarse slow_song /\ exists s s', decode default_env coarse = Ok s /\ decode default_env slow_song = Ok s' /\
  map (fun t => map e_tick (t_events t)) (f_tracks s) = [[0; 60; 60]; [0; 48; 72; 120; 120]] /\ map (fun t => map e_tick (t_events t)) (f_tracks s') = [[0; 300; 300]; [0; 240; 360; 600; 600]].
Proof. exact slow_example. Qed.

(** ... they have the same warnings and are transposed alike. *)
Theorem C118_valid : forall s s', file_but_times s s' -> validation_warning s' = validation_warning s.
Proof. exact retimed_valid. Qed.
Print Assumptions C118_valid.

Theorem C118_transposed : forall env n s s', file_but_times s s' -> alike file_but_times (transpose_smf env n s) (transpose_smf env n s').
Proof. exact retimed_transposed. Qed.
Print Assumptions C118_transposed.

(** Only the ratio of delta times and resolution counts: with the ticks per quarter note and all delta times multiplied by the same number (and tracks of less than 2^30 ticks), ticks are multiplied, ... *)
Theorem C118_scaled : forall env k r r', 0 < k -> song_scaled k r r' -> alike (file_finer k) (decode env r) (decode env r').
Proof. exact song_read_scaled. Qed.
Print Assumptions C118_scaled.

Theorem C118_scaled_valid : forall k s s', file_finer k s s' -> validation_warning s' = validation_warning s.
Proof. exact finer_valid. Qed.
Print Assumptions C118_scaled_valid.

Theorem C118_scaled_transposed : forall k env n s s', file_finer k s s' -> alike (file_finer k) (transpose_smf env n s) (transpose_smf env n s').
Proof. exact finer_transposed. Qed.
Print Assumptions C118_scaled_transposed.

(** ... and the notes are listed at the same times to the nanosecond, in whatever orders Go visits its maps. *)
Theorem C118_scaled_notes : forall k env r r' n order order', 0 < k -> is_bytes r -> song_scaled k r r' -> (forall l, Permutation l (order l)) -> (forall l, Permutation l (order' l)) ->
  alike (fun ns ns' => Permutation (map (note_finer k) ns) ns') (do s <- decode env r; extract env n order s) (do s' <- decode env r'; extract env n order' s').
Proof. exact finer_notes. Qed.
Print Assumptions C118_scaled_notes.

Example C118_scaled_example : is_bytes coarse /\ song_scaled 5 coarse finer_song /\
  exists ns ns', (do s <- decode default_env coarse; extract default_env 0 (fun l => l) s) = Ok ns /\ (do s <- decode default_env finer_song; extract default_env 0 (fun l => l) s) = Ok ns' /\
    map when ns = [[60; 0; 48; 0; 250000000]; [62; 72; 120; 313000000; 438000000]] /\
    map when ns' = [[60; 0; 240; 0; 250000000]; [62; 360; 600; 313000000; 438000000]].
Proof. exact pace_example. Qed.
