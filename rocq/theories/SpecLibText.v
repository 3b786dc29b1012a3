(** * SpecLibText: what the texts of package lib say. *)
From Verif Require Import Base Strings SpecTable SpecDecimal SpecLine.

(** [first_channel text s]: [s] are the digits behind the first "channel:" that has digits. *)
Definition first_channel (text s : bytes) : Prop :=
  exists pre post, text = pre ++ str "channel:" ++ s ++ post /\ s <> [] /\ Forall is_digit s /\ no_digit post /\
    forall pre' c rest, text = pre' ++ str "channel:" ++ c :: rest -> is_digit c -> (length pre <= length pre')%nat.

(** [n] is the whole number nearest to a/b, the larger one of two. *)
Definition rounded (a b n : Z) : Prop := (2 * n - 1) * b <= 2 * a < (2 * n + 1) * b.
