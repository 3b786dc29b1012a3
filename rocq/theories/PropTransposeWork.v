(** * Work of transposing: C99.  Theorems only; proofs in TransposeWorkProofs.v. *)
From Verif Require Import Base Strings Tables Event Track File Transpose TransposeWork SpecTransposeWork TransposeWorkProofs TransposeFileProofs Samples.

(** C99.  [pitch_passes] (TransposeWork.v) counts the passes of the loop of midi/lib/scales.go:122-124: with so many the
    loop ends and with fewer it does not. *)
Theorem C99_count : forall p steps ix fuel, scale_index SCALE 0 (p_ord p) = Some ix ->
  (up_loop fuel (wrap64 (ix + steps)) = Loop <-> Z.of_nat fuel < pitch_passes steps p).
Proof. exact pitch_runs. Qed.
Print Assumptions C99_count.

(** C99.  The full statement would be that the work of transposing is bounded by the file whatever the number of semitones:
      exists b, forall env r s steps, is_bytes r -> decode env r = Ok s -> -2^63 <= steps < 2^63 -> smf_passes steps s <= b * key_count s
    with a [b] that a computer gets through.  That is false (below).  Proved: the loop runs about seven times for every key
    signature and every octave down, and never on the way up or for files without key signatures. *)
Theorem C99_work_partial : forall env r s steps, is_bytes r -> decode env r = Ok s ->
  -9223372036854775808 <= steps < 9223372036854775808 - 255 ->
  7 * key_count s * (Z.max 0 (- steps) / 12) <= smf_passes steps s <= 7 * key_count s * ((Z.max 0 (- steps) + 11) / 12).
Proof. exact work_of_file. Qed.
Print Assumptions C99_work_partial.

(** A file with two key signatures, thirteen semitones down: between 14 and 28 passes, in fact 16. *)
Definition two_keys : bytes := single_header ++ sample_track [0; 255; 89; 2; 0; 0; 0; 255; 89; 2; 253; 1; 0; 144; 60; 100; 0; 255; 47; 0].
Example C99_example : exists s, decode default_env two_keys = Ok s /\ key_count s = 2 /\ smf_passes (-13) s = 16 /\ smf_passes 13 s = 0.
Proof.
  let x := eval vm_compute in (decode default_env two_keys) in match x with Ok ?s => exists s end.
  split; [vm_compute; reflexivity|]. split; [vm_compute; reflexivity|]. split; vm_compute; reflexivity.
Qed.

(** C99, finding: with the least and with the greatest number of semitones that the option accepts, a file of 36 bytes keeps the
    loop busy for more than 10^18 passes. *)
Theorem C99_endless_refuted : exists r s, zlen r = 36 /\ decode default_env r = Ok s /\
  5000000000000000000 < smf_passes (-9223372036854775808) s /\ 4000000000000000000 < smf_passes 9223372036854775807 s.
Proof. exact endless. Qed.
Print Assumptions C99_endless_refuted.
