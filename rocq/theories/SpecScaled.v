(** * SpecScaled: the same piece several times as slow. *)
From Verif Require Import Base Tables Event Track File Notes SpecDivided.

(** The same content, or a tempo change to [k] times the duration of the quarter note *)
Definition times_body (k : Z) (b : body) : body := match b with Tempo t => Tempo (k * t) | _ => b end.

Definition times_event (k : Z) (e e' : event) : Prop := e_tick e' = e_tick e /\ e_delta e' = e_delta e /\ e_body e' = times_body k (e_body e).

(** The same resolution and the same tracks but for the tempi *)
Definition times_file (k : Z) (s s' : smf) : Prop :=
  option_map h_ppqn (f_mthd s) = option_map h_ppqn (f_mthd s') /\ Forall2 (fun t t' => Forall2 (times_event k) (t_events t) (t_events t')) (f_tracks s) (f_tracks s').

(** The first track sets a tempo at its beginning, so that the default does not count. *)
Definition tempo_given (s : smf) : Prop := exists t ts e u, f_tracks s = t :: ts /\ In e (t_events t) /\ e_tick e = 0 /\ e_body e = Tempo u.

(** No track has more than [n] events. *)
Definition no_longer_than (n : Z) (s : smf) : Prop := Forall (fun t => zlen (t_events t) <= n) (f_tracks s).

(** The same note, at [k] times the time but for half a millisecond of rounding in both pieces and a nanosecond for every event *)
Definition times_note (k n : Z) (o o' : note_out) : Prop :=
  untimed o' = untimed o /\ Z.abs (o_start o' - k * o_start o) <= 500000 * (k + 1) + 2 * k * n /\ Z.abs (o_end o' - k * o_end o) <= 500000 * (k + 1) + 2 * k * n.
