(** * SpecFile: the container format of a Standard MIDI File, independently of the code. *)
From Verif Require Import Base.

(** A chunk on the wire: four tag bytes, a big-endian 32-bit length, and that many bytes. *)
Inductive chunk_bytes : bytes -> bytes -> bytes -> Prop :=
| chunk_intro : forall a b c d l0 l1 l2 l3 payload,
    0 <= l0 < 256 -> 0 <= l1 < 256 -> 0 <= l2 < 256 -> 0 <= l3 < 256 ->
    l0 * 16777216 + l1 * 65536 + l2 * 256 + l3 = zlen payload ->
    chunk_bytes [a; b; c; d] payload ([a; b; c; d; l0; l1; l2; l3] ++ payload).

(** A file is a sequence of chunks. *)
Inductive file_bytes : list (bytes * bytes) -> bytes -> Prop :=
| file_nil : file_bytes [] []
| file_cons : forall tag payload w items r, chunk_bytes tag payload w -> file_bytes items r ->
    file_bytes ((tag, payload) :: items) (w ++ r).

(** SMPTE frame rates allowed in the upper division byte (two's complement -24, -25, -29, -30):
    byte, frames per second, drop frame. *)
Definition smpte_division (hi fps : Z) (drop : bool) : Prop :=
  hi = 232 /\ fps = 24 /\ drop = false \/ hi = 231 /\ fps = 25 /\ drop = false
  \/ hi = 227 /\ fps = 29 /\ drop = true \/ hi = 226 /\ fps = 30 /\ drop = false.

(** What the 14 bytes of a header chunk say. *)
Record header_fields := HF {
  hf_format : Z; hf_tracks : Z; hf_division : Z;
  hf_ppqn : Z;                      (* 0 with SMPTE timing *)
  hf_smpte : option (Z * bool * Z)  (* frames per second, drop frame, subframes *)
}.

Inductive header_bytes : bytes -> header_fields -> Prop :=
| hb_metrical : forall f t0 t1 d0 d1, f = 0 \/ f = 1 \/ f = 2 -> 0 <= d0 < 128 ->
    header_bytes ([77; 84; 104; 100; 0; 0; 0; 6; 0; f; t0; t1; d0; d1])
      (HF f (t0 * 256 + t1) (d0 * 256 + d1) (d0 * 256 + d1) None)
| hb_smpte : forall f t0 t1 d0 d1 fps drop, f = 0 \/ f = 1 \/ f = 2 -> smpte_division d0 fps drop ->
    header_bytes ([77; 84; 104; 100; 0; 0; 0; 6; 0; f; t0; t1; d0; d1])
      (HF f (t0 * 256 + t1) (d0 * 256 + d1) 0 (Some (fps, drop, d1))).

(** "MTrk" *)
Definition tag_mtrk : bytes := [77; 84; 114; 107].

(** Is the item an MTrk chunk? *)
Definition is_mtrk (item : bytes * bytes) : bool := bytes_eqb (fst item) tag_mtrk.

(** A chunk header at the very end of the input that announces a payload of which nothing is there. *)
Definition dangling (tail : bytes) : Prop :=
  exists a b c d l0 l1 l2 l3, tail = [a; b; c; d; l0; l1; l2; l3] /\
    0 < l0 * 16777216 + l1 * 65536 + l2 * 256 + l3.

(** The chunks the program sees: a dangling chunk header is ignored. *)
Definition readable (items : list (bytes * bytes)) (r : bytes) : Prop :=
  exists r0 tail, r = r0 ++ tail /\ file_bytes items r0 /\ (tail = [] \/ dangling tail).
