(** * SpecDecimal: decimal numerals. *)
From Verif Require Import Base.

Definition is_digit (c : Z) : Prop := 48 <= c <= 57.
(** The number a digit string stands for. *)
Definition digits_value (s : bytes) : Z := fold_left (fun v c => v * 10 + (c - 48)) s 0.

(** [decimal n s]: [s] is the decimal numeral of [n], without leading zeros or plus sign. *)
Inductive decimal : Z -> bytes -> Prop :=
| decimal_zero : decimal 0 [48]
| decimal_pos : forall s, Forall is_digit s -> 49 <= hd 0 s -> decimal (digits_value s) s
| decimal_neg : forall s, Forall is_digit s -> 49 <= hd 0 s -> decimal (- digits_value s) (45 :: s).
