(** * SpecPiped: pipelines of templates. *)
From Verif Require Import Base Strings Template.

(** A pipeline has a command, commands are not empty, all but the first one call a function, and the pipelines in parentheses inside them are of the same kind. *)
Inductive piped : pipeline -> Prop :=
| piped_intro : forall first others, first <> [] -> Forall (fun c => exists f args, c = EFunction f :: args) others ->
    (forall c q, In c (first :: others) -> In (EPipe q) c -> piped q) -> piped (first :: others).
