(** * SpecSlower: the same piece at slower tempi. *)
From Coq Require Import Permutation.
From Verif Require Import Base Tables Event Track File Notes.

(** The same content, or a tempo change to a longer (or the same) duration of the quarter note *)
Definition slower_body (b b' : body) : Prop := match b, b' with Tempo t, Tempo t' => t <= t' | _, _ => b = b' end.

Definition slower_event (e e' : event) : Prop := e_tick e = e_tick e' /\ e_delta e = e_delta e' /\ slower_body (e_body e) (e_body e').

(** The same resolution and the same tracks but for slower tempi *)
Definition slower_file (s s' : smf) : Prop :=
  option_map h_ppqn (f_mthd s) = option_map h_ppqn (f_mthd s') /\ Forall2 (fun t t' => Forall2 slower_event (t_events t) (t_events t')) (f_tracks s) (f_tracks s').

(** Tracks whose ticks last less than 285 years at the slowest tempo and the coarsest resolution *)
Definition short_tracks (s : smf) : Prop := Forall (fun t => fold_right Z.add 0 (map e_delta (t_events t)) < 536000000) (f_tracks s).

(** The same note at the same ticks; it starts no earlier, ends no earlier and is shorter by a millisecond at most (times are rounded to milliseconds). *)
Definition later_note (o o' : note_out) : Prop :=
  (o_ch o, o_note o, o_name o, o_vel o, o_start_tick o, o_end_tick o) = (o_ch o', o_note o', o_name o', o_vel o', o_start_tick o', o_end_tick o') /\
  o_start o <= o_start o' /\ o_end o <= o_end o' /\ o_duration o - 1000000 <= o_duration o'.

(** One to one, in any order *)
Definition matched {A} (R : A -> A -> Prop) (l l' : list A) : Prop := exists m, Permutation m l' /\ Forall2 R l m.
