(** * SpecKeyed: the same piece with other key signatures. *)
From Verif Require Import Base Tables Event Track File Notes SpecNames.

(** The same message but for the names of notes and manufacturers ([bare], SpecNames.v), or two key signatures.
    (The names of the notes of a file depend on the key.) *)
Definition keyed_body (b b' : body) : Prop := match b, b' with KeySignature _ _ _, KeySignature _ _ _ => True | _, _ => bare b' = bare b end.

(** The same message with the same names, or two key signatures which both have flats if one has *)
Definition same_sign (b b' : body) : Prop := match b, b' with KeySignature a _ _, KeySignature a' _ _ => (a < 0 <-> a' < 0) | _, _ => b' = b end.

Definition keyed_event (R : body -> body -> Prop) (e e' : event) : Prop := e_tick e' = e_tick e /\ e_delta e' = e_delta e /\ R (e_body e) (e_body e').

(** The same resolution and the same tracks but for the key signatures *)
Definition keyed_file (R : body -> body -> Prop) (s s' : smf) : Prop :=
  option_map h_ppqn (f_mthd s) = option_map h_ppqn (f_mthd s') /\ Forall2 (fun t t' => Forall2 (keyed_event R) (t_events t) (t_events t')) (f_tracks s) (f_tracks s').

(** The same note but for its name *)
Definition keyed_note (o o' : note_out) : Prop :=
  (o_ch o', o_note o', o_vel o', o_start_tick o', o_end_tick o', o_start o', o_end o', o_duration o') = (o_ch o, o_note o, o_vel o, o_start_tick o, o_end_tick o, o_start o, o_end o, o_duration o).
