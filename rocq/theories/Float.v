(** * Float: float64 (IEEE 754 binary64) as far as ops/notes/notes.go:294-332 uses it: time.Duration.Seconds and what encoding/json writes
    for its results.  Numbers are fractions; no infinities, no subnormal numbers (the results are 0 or between 0.001 and 10^10). *)
From Verif Require Import Base Strings.

(** The integer nearest to a/b, the even one of two *)
Definition nearest (a b : Z) : Z :=
  let q := a / b in let r := a mod b in
  if 2 * r <? b then q else if b <? 2 * r then q + 1 else if Z.even q then q else q + 1.

(** 2^e <= a/b *)
Definition reaches (e a b : Z) : bool := if 0 <=? e then b * 2 ^ e <=? a else b <=? a * 2 ^ (- e).

(** The float64 m * 2^e nearest to a/b, ties to even; m has 53 bits, and 0 is 0 * 2^0. *)
Definition round64 (a b : Z) : Z * Z :=
  if a =? 0 then (0, 0)
  else
    let e0 := Z.log2 a - Z.log2 b in
    let e := if reaches e0 a b then e0 else e0 - 1 in
    let k := 52 - e in
    let m := if 0 <=? k then nearest (a * 2 ^ k) b else nearest a (b * 2 ^ (- k)) in
    if m =? 9007199254740992 then (4503599627370496, 1 - k) else (m, - k).

(** m * 2^e as a fraction *)
Definition numer (v : Z * Z) : Z := if 0 <=? snd v then fst v * 2 ^ snd v else fst v.
Definition denom (v : Z * Z) : Z := if 0 <=? snd v then 1 else 2 ^ (- snd v).

(** time.Duration.Seconds of the Go library, for t >= 0: float64(t/1e9) + float64(t%1e9)/1e9.  The conversions are exact, both numbers are
    below 2^53. *)
Definition seconds (t : Z) : Z * Z :=
  let q := round64 (t mod 1000000000) 1000000000 in
  round64 (t / 1000000000 * denom q + numer q) (denom q).

(** strconv.AppendFloat with format 'f', precision -1: the decimal fraction n/10^p with the fewest digits that is read as [v], the nearer one of
    two.  From [p] digits behind the point on; 25 are more than enough. *)
Fixpoint shortest (fuel : nat) (p : Z) (v : Z * Z) : Z * Z :=
  let x := numer v * 10 ^ p in let y := denom v in
  let lo := x / y in
  let ok n := (fst (round64 n (10 ^ p)) =? fst v) && (snd (round64 n (10 ^ p)) =? snd v) in
  match fuel with
  | O => (lo, p)
  | S f =>
      if ok lo then (if ok (lo + 1) && (y <? 2 * (x mod y)) then (lo + 1, p) else (lo, p))
      else if ok (lo + 1) then (lo + 1, p)
      else shortest f (p + 1) v
  end.

(** n/10^p in digits *)
Fixpoint places (p : nat) (n : Z) (after : bytes) : bytes := match p with O => after | S q => places q (n / 10) (48 + n mod 10 :: after) end.
Definition fixed (n p : Z) : bytes := dec (n / 10 ^ p) ++ (if p =? 0 then [] else 46 :: places (Z.to_nat p) (n mod 10 ^ p) []).

(** encoding/json, encode.go [floatEncoder]: format 'f' between 1e-6 and 1e21; negative durations have negative quotients and remainders. *)
Definition seconds_text (t : Z) : bytes :=
  let (n, p) := shortest (Z.to_nat 25) 0 (seconds (Z.abs t)) in (if t <? 0 then [45] else []) ++ fixed n p.
