(** * SpecRest: the same piece after a rest. *)
From Verif Require Import Base Tables Event Track File Notes SpecSlower.

(** The same content, [k] ticks later *)
Definition later_event (k : Z) (e e' : event) : Prop := e_tick e' = e_tick e + k /\ e_delta e' = e_delta e /\ e_body e' = e_body e.

(** A rest of [k] ticks before the first event *)
Definition rested_events (k : Z) (es es' : list event) : Prop :=
  match es, es' with
  | e :: r, e' :: r' => e_tick e' = e_tick e + k /\ e_delta e' = e_delta e + k /\ e_body e' = e_body e /\ Forall2 (later_event k) r r'
  | [], [] => True
  | _, _ => False
  end.

(** The same resolution, and the rest in every track *)
Definition rested_file (k : Z) (s s' : smf) : Prop :=
  option_map h_ppqn (f_mthd s) = option_map h_ppqn (f_mthd s') /\ Forall2 (fun t t' => rested_events k (t_events t) (t_events t')) (f_tracks s) (f_tracks s').

(** The same note [k] ticks later, as long as before but for the millisecond times are rounded to *)
Definition rested_note (k : Z) (o o' : note_out) : Prop :=
  (o_ch o', o_note o', o_name o', o_vel o') = (o_ch o, o_note o, o_name o, o_vel o) /\ o_start_tick o' = o_start_tick o + k /\ o_end_tick o' = o_end_tick o + k /\
  o_start o <= o_start o' /\ Z.abs (o_duration o' - o_duration o) <= 1000000.

(** All of it later by one and the same time, to the millisecond *)
Definition delayed_note (k d : Z) (o o' : note_out) : Prop := rested_note k o o' /\ Z.abs (o_start o' - o_start o - d) <= 1000000.
