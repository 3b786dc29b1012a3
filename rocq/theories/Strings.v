(** * Strings: the pieces of fmt and strings the model needs, over byte lists. *)
From Verif Require Import Base.

(** Decimal digits of a non-negative number: Go's [%d]/[%v] for unsigned integers
    (fmt, Go standard library).  [fuel] bounds the number of digits. *)
Fixpoint digits (fuel : nat) (n : Z) : bytes :=
  match fuel with
  | O => []
  | S f => if n <? 10 then [48 + n] else digits f (n / 10) ++ [48 + n mod 10]
  end.

(** [fmt.Sprintf("%d", n)] *)
Definition dec (n : Z) : bytes :=
  if n <? 0 then 45 :: digits (S (Z.to_nat (Z.log2 (- n)))) (- n)
  else digits (S (Z.to_nat (Z.log2 n))) n.

(** One upper-case hexadecimal digit. *)
Definition hexdigit (n : Z) : Z := if n <? 10 then 48 + n else 55 + n.

(** [fmt.Sprintf("%02X", b)] for a byte. *)
Definition hex2 (b : Z) : bytes := [hexdigit (b / 16); hexdigit (b mod 16)].

(** Lookup in an association list: a Go map read; the first entry for the key is the current one. *)
Fixpoint assoc {A} (k : Z) (l : list (Z * A)) : option A :=
  match l with
  | [] => None
  | (k', v) :: r => if k =? k' then Some v else assoc k r
  end.

(** The same for string keys. *)
Fixpoint assocb {A} (k : bytes) (l : list (bytes * A)) : option A :=
  match l with
  | [] => None
  | (k', v) :: r => if bytes_eqb k k' then Some v else assocb k r
  end.

(** [strings.HasPrefix] *)
Fixpoint has_prefix (p s : bytes) : bool :=
  match p, s with
  | [], _ => true
  | x :: p', y :: s' => (x =? y) && has_prefix p' s'
  | _, _ => false
  end.

(** [strings.Contains] *)
Fixpoint contains (s sub : bytes) : bool :=
  has_prefix sub s || match s with [] => false | _ :: s' => contains s' sub end.
