(** * SpecDynamics: the same piece played with other velocities. *)
From Verif Require Import Base Tables Event Track File Notes.

(** The key an event releases: by a note off, or by a note on with velocity 0, which means the same to MIDI *)
Definition releases (b : body) : option (Z * Z) :=
  match b with
  | NoteOff ch n _ => Some (ch, n_value n)
  | NoteOn ch n v => if v =? 0 then Some (ch, n_value n) else None
  | _ => None
  end.

(** The key an event strikes and how hard *)
Definition strikes (b : body) : option (Z * Z * Z) :=
  match b with NoteOn ch n v => if v =? 0 then None else Some (ch, n_value n, v) | _ => None end.

(** The same key released in either way, or the same key struck with velocities in relation [R], or the same content *)
Inductive replayed_body (R : Z -> Z -> Prop) : body -> body -> Prop :=
| rp_same : forall b, strikes b = None -> replayed_body R b b
| rp_release : forall b b' k, releases b = Some k -> releases b' = Some k -> replayed_body R b b'
| rp_strike : forall b b' ch n v v', strikes b = Some (ch, n, v) -> strikes b' = Some (ch, n, v') -> R v v' -> replayed_body R b b'.

Definition replayed_event (R : Z -> Z -> Prop) (e e' : event) : Prop := e_tick e = e_tick e' /\ e_delta e = e_delta e' /\ replayed_body R (e_body e) (e_body e').

(** The same resolution and the same tracks but for velocities and the way keys are released *)
Definition replayed_file (R : Z -> Z -> Prop) (s s' : smf) : Prop :=
  option_map h_ppqn (f_mthd s) = option_map h_ppqn (f_mthd s') /\ Forall2 (fun t t' => Forall2 (replayed_event R) (t_events t) (t_events t')) (f_tracks s) (f_tracks s').

(** The same note with velocities in relation [R] *)
Definition replayed_note (R : Z -> Z -> Prop) (o o' : note_out) : Prop :=
  (o_ch o, o_note o, o_name o, o_start_tick o, o_end_tick o) = (o_ch o', o_note o', o_name o', o_start_tick o', o_end_tick o') /\
  (o_start o, o_end o, o_duration o) = (o_start o', o_end o', o_duration o') /\ R (o_vel o) (o_vel o').
