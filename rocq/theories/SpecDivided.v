(** * SpecDivided: a track divided in two by channels. *)
From Verif Require Import Base Tables Event Track File Notes.

(** The same content at the same tick; the delta time depends on the event before. *)
Definition same_moment (e e' : event) : Prop := e_tick e' = e_tick e /\ e_body e' = e_body e.

(** May a message be in the one part only? Notes if their channel is chosen, not what the notes of all channels depend on. *)
Definition partial_event (chosen : Z -> bool) (b : body) : Prop :=
  match b with
  | NoteOn ch _ _ | NoteOff ch _ _ => chosen ch = true
  | Tempo _ | KeySignature _ _ _ | EndOfTrack => False
  | _ => True
  end.

(** May a message be in both? *)
Definition common_event (b : body) : Prop := match b with NoteOn _ _ _ | NoteOff _ _ _ => False | _ => True end.

(** The notes of the chosen channels in the first part, those of the others in the second one *)
Inductive divided (chosen : Z -> bool) : list event -> list event -> list event -> Prop :=
| dv_nil : divided chosen [] [] []
| dv_first : forall e e' l l1 l2, same_moment e e' -> partial_event chosen (e_body e) -> divided chosen l l1 l2 -> divided chosen (e :: l) (e' :: l1) l2
| dv_second : forall e e' l l1 l2, same_moment e e' -> partial_event (fun c => negb (chosen c)) (e_body e) -> divided chosen l l1 l2 -> divided chosen (e :: l) l1 (e' :: l2)
| dv_both : forall e e1 e2 l l1 l2, same_moment e e1 -> same_moment e e2 -> common_event (e_body e) -> divided chosen l l1 l2 -> divided chosen (e :: l) (e1 :: l1) (e2 :: l2).

(** A track that is not the first one divided in two, the others as they were *)
Definition divided_file (chosen : Z -> bool) (s s' : smf) : Prop :=
  option_map h_ppqn (f_mthd s) = option_map h_ppqn (f_mthd s') /\
  exists t0 a t b t0' a' t1 t2 b', f_tracks s = t0 :: a ++ t :: b /\ f_tracks s' = t0' :: a' ++ t1 :: t2 :: b' /\
    t_events t0' = t_events t0 /\ map t_events a' = map t_events a /\ map t_events b' = map t_events b /\ divided chosen (t_events t) (t_events t1) (t_events t2).

(** All of a note but its times *)
Definition untimed (o : note_out) : Z * Z * bytes * Z * Z * Z := (o_ch o, o_note o, o_name o, o_vel o, o_start_tick o, o_end_tick o).

(** The same note at the same time, to the millisecond *)
Definition same_note (o o' : note_out) : Prop := untimed o' = untimed o /\ Z.abs (o_start o' - o_start o) <= 1000000 /\ Z.abs (o_end o' - o_end o) <= 1000000.
