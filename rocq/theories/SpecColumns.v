(** * SpecColumns: labels one below the other. *)
From Verif Require Import Base Strings SpecText.

(** The label stands behind [n] characters of the line. *)
Definition stands_at (label : bytes) (n : nat) (line : bytes) : Prop := exists a b, line = a ++ label ++ b /\ chars a n.

(** In all lines, each label stands in the same place. *)
Definition in_columns (labels lines : list bytes) : Prop := Forall (fun l => exists n, Forall (stands_at l n) lines) labels.

(** The labels of the listing of the notes. *)
Definition note_labels : list bytes := [str " channel:"; str "  note:"; str "  velocity:"; str "  start:"; str "  end:"; str "  duration:"].
