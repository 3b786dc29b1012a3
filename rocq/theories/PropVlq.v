(** * Variable length quantities: C01 - C04.  Theorems only; proofs in VlqProofs.v. *)
From Verif Require Import Base Vlq SpecVlq VlqProofs.

(** C01. Every delta time of the standard survives writing and reading, in both readers, whatever
    follows; what is written is a VLQ of minimal length. *)
Theorem C01_delta_roundtrip : forall v rest, 0 <= v <= 268435455 ->
  stream_vlq (vlq_encode v ++ rest) = Ok (v, rest) /\
  slice_vlq (vlq_encode v ++ rest) = Ok (v, rest) /\
  (1 <= length (vlq_encode v) <= 4)%nat /\
  vlq_string (vlq_encode v) /\
  forall bs, vlq_string bs -> vlq_denotes bs = v -> (length (vlq_encode v) <= length bs)%nat.
Proof. exact delta_roundtrip. Qed.
Print Assumptions C01_delta_roundtrip.

Example C01_example : 0 <= 1000000 <= 268435455 /\ vlq_encode 1000000 = [189; 132; 64]
  /\ vlq_string [189; 132; 64] /\ vlq_denotes [189; 132; 64] = 1000000.
Proof.
  repeat split; try reflexivity; try discriminate.
  apply vs_more; [lia|]. apply vs_more; [lia|]. apply vs_last. lia.
Qed.

(** C02, full statement: for every uint32 [v] the value comes back unchanged (nothing is rejected:
    the encoder is total).
      forall v rest, 0 <= v < 4294967296 -> stream_vlq (vlq_encode v ++ rest) = Ok (v, rest)
    This is false.  Proved: it holds up to 2^28-1 (what is missing is the rest of the range, where
    it fails for every single value, see below). *)
Theorem C02_every_delta_partial : forall v rest, 0 <= v < 268435456 ->
  stream_vlq (vlq_encode v ++ rest) = Ok (v, rest).
Proof. exact (fun v rest H => proj1 (delta_roundtrip v rest ltac:(lia))). Qed.
Print Assumptions C02_every_delta_partial.

(** C02, finding: every delta time above 2^28-1 is written as five bytes the first of which already
    ends the quantity; the reader returns v / 2^28 (at most 15) and takes the other four bytes for
    the event. *)
Theorem C02_large_deltas_corrupted : forall v rest, 268435455 < v < 4294967296 ->
  exists r, vlq_encode v = v / 268435456 :: r /\ length r = 4%nat /\
    stream_vlq (vlq_encode v ++ rest) = Ok (v / 268435456, r ++ rest).
Proof. exact big_delta_corrupted. Qed.
Print Assumptions C02_large_deltas_corrupted.

Theorem C02_every_delta_refuted : exists v v' r, 0 <= v < 4294967296 /\
  stream_vlq (vlq_encode v) = Ok (v', r) /\ v' <> v /\ r <> [].
Proof. exists 268435456, 1, [128; 128; 128; 0]. vm_compute. repeat split; discriminate. Qed.
Print Assumptions C02_every_delta_refuted.

Example C02_example : stream_vlq (vlq_encode 268435455 ++ [0]) = Ok (268435455, [0])
  /\ stream_vlq (vlq_encode 4294967295 ++ [0]) = Ok (15, [255; 255; 255; 127; 0]).
Proof. split; reflexivity. Qed.

(** C03. The readers: value, extent, failure.  The last clause says that the index-based copies
    agree with the common definition. *)
Theorem C03_vlq_reader : forall r, is_bytes r ->
  (forall bs rest, r = bs ++ rest -> vlq_string bs ->
     stream_vlq r = Ok (vlq_denotes bs mod 4294967296, rest) /\
     slice_vlq r = Ok (vlq_denotes bs mod 4294967296, rest)) /\
  (stream_vlq r = Eof <-> Forall (fun b => 128 <= b) r) /\
  (slice_vlq r = Err <-> Forall (fun b => 128 <= b) r) /\
  (Forall (fun b => 128 <= b) r \/ exists bs rest, r = bs ++ rest /\ vlq_string bs) /\
  range_vlq r 0 0 r = slice_vlq r.
Proof. exact vlq_reader. Qed.
Print Assumptions C03_vlq_reader.

Example C03_example : is_bytes [129; 128; 0; 5] /\ stream_vlq [129; 128; 0; 5] = Ok (16384, [5])
  /\ stream_vlq [129; 255] = Eof /\ slice_vlq [129; 255] = Err
  /\ stream_vlq [144; 128; 128; 128; 127; 1] = Ok (127, [1]).
Proof. repeat split; repeat constructor; unfold is_byte; lia. Qed.

(** C04. Length-prefixed data. *)
Theorem C04_vlf_roundtrip : forall data rest, zlen data <= 268435455 ->
  stream_vlf (vlf_encode data ++ rest) = Ok (data, rest) /\
  slice_vlf (vlf_encode data ++ rest) = Ok data /\
  exists l, vlf_encode data = l ++ data /\ vlq_string l /\ vlq_denotes l = zlen data.
Proof. exact vlf_roundtrip. Qed.
Print Assumptions C04_vlf_roundtrip.

Example C04_example : zlen (repeat 7 200) <= 268435455 /\
  vlf_encode (repeat 7 200) = [129; 72] ++ repeat 7 200 /\
  stream_vlf (vlf_encode (repeat 7 200) ++ [1; 2]) = Ok (repeat 7 200, [1; 2]).
Proof. repeat split; try reflexivity. discriminate. Qed.
