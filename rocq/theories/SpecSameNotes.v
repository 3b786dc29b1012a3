(** * SpecSameNotes: notes without their names. *)
From Coq Require Import Permutation.
From Verif Require Import Base Notes.

(** A listed note without its name: channel, pitch, velocity, ticks and times. *)
Definition unnamed (o : note_out) : Z * Z * Z * (Z * Z) * (Z * Z * Z) :=
  (o_ch o, o_note o, o_vel o, (o_start_tick o, o_end_tick o), (o_start o, o_end o, o_duration o)).

(** The same notes track by track, in any order within a track (notes that are ended by the end of the track are listed in the order of a map). *)
Definition same_notes (a b : list note_out) : Prop :=
  exists A B, a = concat A /\ b = concat B /\ Forall2 (fun x y => Permutation (map unnamed x) (map unnamed y)) A B.
