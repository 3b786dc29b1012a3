(** * SpecVlq: what a variable length quantity is, independently of the code.

    From the Standard MIDI File specification: a number is represented 7 bits per byte,
    most significant group first; all bytes except the last have bit 7 set, the last byte
    has bit 7 clear. *)
From Verif Require Import Base.

(** [vlq_string bs]: [bs] is a complete VLQ: continuation bytes (128..255) followed by one
    final byte (0..127). *)
Inductive vlq_string : bytes -> Prop :=
| vs_last : forall b, 0 <= b < 128 -> vlq_string [b]
| vs_more : forall b bs, 128 <= b < 256 -> vlq_string bs -> vlq_string (b :: bs).

(** The number a VLQ denotes: base-128 positional value of the low 7 bits. *)
Fixpoint vlq_denotes (bs : bytes) : Z :=
  match bs with
  | [] => 0
  | b :: r => (b mod 128) * 128 ^ (Z.of_nat (length r)) + vlq_denotes r
  end.

(** Largest value the standard allows: 0x0FFFFFFF (four bytes). *)
Definition vlq_max : Z := 268435455.
