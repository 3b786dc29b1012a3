(** * SpecText: characters, hexadecimal text. *)
From Verif Require Import Base.

(** [utf8 cp s]: [s] is the UTF-8 encoding of the code point [cp] (surrogates have none). *)
Inductive utf8 : Z -> bytes -> Prop :=
| utf8_1 : forall cp, 0 <= cp < 128 -> utf8 cp [cp]
| utf8_2 : forall cp, 128 <= cp < 2048 -> utf8 cp [192 + cp / 64; 128 + cp mod 64]
| utf8_3 : forall cp, 2048 <= cp < 65536 -> ~ (55296 <= cp < 57344) ->
    utf8 cp [224 + cp / 4096; 128 + cp / 64 mod 64; 128 + cp mod 64]
| utf8_4 : forall cp, 65536 <= cp < 1114112 ->
    utf8 cp [240 + cp / 262144; 128 + cp / 4096 mod 64; 128 + cp / 64 mod 64; 128 + cp mod 64].

(** [chars s n]: [s] has [n] characters; a byte that does not start a well-formed character counts as one. *)
Inductive chars : bytes -> nat -> Prop :=
| chars_nil : chars [] 0
| chars_cons : forall cp c r n, utf8 cp c -> chars r n -> chars (c ++ r) (S n)
| chars_bad : forall b r n, (forall cp c r', utf8 cp c -> b :: r <> c ++ r') -> chars r n -> chars (b :: r) (S n).

(** Well-formed text. *)
Inductive well_formed : bytes -> Prop :=
| wf_nil : well_formed []
| wf_cons : forall cp c r, utf8 cp c -> well_formed r -> well_formed (c ++ r).

(** Value of an upper-case hexadecimal digit. *)
Inductive digit16 : Z -> Z -> Prop :=
| digit16_num : forall v, 0 <= v <= 9 -> digit16 (48 + v) v
| digit16_let : forall v, 10 <= v <= 15 -> digit16 (65 + (v - 10)) v.

(** The text form of bytes: two digits each, separated by single spaces. *)
Inductive hex_form : bytes -> bytes -> Prop :=
| hf_nil : hex_form [] []
| hf_one : forall c d a b, digit16 c a -> digit16 d b -> hex_form [16 * a + b] [c; d]
| hf_cons : forall c d a b x xs s, digit16 c a -> digit16 d b -> hex_form (x :: xs) s ->
    hex_form (16 * a + b :: x :: xs) (c :: d :: 32 :: s).

Definition spaces (n : nat) : bytes := repeat 32 n.
