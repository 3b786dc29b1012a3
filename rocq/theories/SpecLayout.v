(** * SpecLayout: how indented JSON text is laid out. *)
From Verif Require Import Base.

(** Inside a string or not, and how many brackets are open *)
Inductive mode := Outside | Inside | Escape.
Definition opening (c : Z) : bool := (c =? 123) || (c =? 91).
Definition closing (c : Z) : bool := (c =? 125) || (c =? 93).
Fixpoint scan (m : mode) (d : Z) (s : bytes) : mode * Z :=
  match s with
  | [] => (m, d)
  | c :: r =>
      match m with
      | Outside => scan (if c =? 34 then Inside else Outside) (if opening c then d + 1 else if closing c then d - 1 else d) r
      | Inside => scan (if c =? 34 then Outside else if c =? 92 then Escape else Inside) d r
      | Escape => scan Inside d r
      end
  end.
Definition outside (a : bytes) (d : Z) : Prop := scan Outside 0 a = (Outside, d).

Definition spaces (w : bytes) : Prop := Forall (fun c => c = 32) w.
(** [a] ends with the start of a line: a line feed and spaces. *)
Definition indented (a : bytes) : Prop := exists b w, a = b ++ 10 :: w /\ spaces w.

Record laid_out (t : bytes) : Prop := {
  (** Every line starts with two spaces for each bracket open before it, a closing bracket with two less; no line is empty. *)
  lo_indent : forall a w c r, t = a ++ 10 :: w ++ c :: r -> spaces w -> c <> 32 -> exists d, outside a d /\ c <> 10 /\ zlen w = 2 * (if closing c then d - 1 else d);
  (** Commas end lines. *)
  lo_comma : forall a r d, t = a ++ 44 :: r -> outside a d -> exists q, r = 10 :: q;
  (** So do opening brackets, unless nothing is between the brackets. *)
  lo_open : forall a c r d, t = a ++ c :: r -> outside a d -> opening c = true -> (exists q, r = 10 :: q) \/ exists q, r = c + 2 :: q;
  (** A closing bracket starts a line or follows the opening bracket. *)
  lo_close : forall a c r d, t = a ++ c :: r -> outside a d -> closing c = true -> indented a \/ exists b, a = b ++ [c - 2];
  (** Lines end nowhere else. *)
  lo_break : forall a r d, t = a ++ 10 :: r -> outside a d -> (exists b c, a = b ++ [c] /\ (c = 44 \/ opening c = true)) \/ exists w c q, r = w ++ c :: q /\ spaces w /\ closing c = true;
  (** One space after a colon, none elsewhere but at the start of a line, and no other white space *)
  lo_colon : forall a r d, t = a ++ 58 :: r -> outside a d -> exists c q, r = 32 :: c :: q /\ c <> 32 /\ c <> 10;
  lo_space : forall a c r d, t = a ++ c :: r -> outside a d -> c = 32 -> indented a \/ exists b, a = b ++ [58];
  lo_white : forall a c r d, t = a ++ c :: r -> outside a d -> c <> 9 /\ c <> 13;
  (** The brackets match at the end. *)
  lo_end : outside t 0 }.
