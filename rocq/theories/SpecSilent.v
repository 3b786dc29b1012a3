(** * SpecSilent: events that have nothing to do with notes. *)
From Verif Require Import Base Tables Event Track File SpecNotes.

(** Everything but notes, tempo changes, key signatures (they decide between sharps and flats) and the end of a track *)
Definition silent (b : body) : bool :=
  match b with NoteOn _ _ _ | NoteOff _ _ _ | Tempo _ | KeySignature _ _ _ | EndOfTrack => false | _ => true end.

(** What a track has besides silent events: ticks and contents *)
Definition voiced (es : list event) : list (Z * body) := map (fun e => (e_tick e, e_body e)) (filter (fun e => negb (silent (e_body e))) es).

(** ... and besides silent events at the tick of the event before: ticks, delta times and contents *)
Definition paced (es : list event) : list (Z * Z * body) :=
  map (fun e => (e_tick e, e_delta e, e_body e)) (filter (fun e => negb (silent (e_body e) && (e_delta e =? 0))) es).

(** The same tempo changes in the first tracks, and the same by [what] in the others *)
Definition same_voices {A} (what : list event -> A) (s s' : smf) : Prop :=
  option_map h_ppqn (f_mthd s) = option_map h_ppqn (f_mthd s') /\
  match f_tracks s, f_tracks s' with
  | t0 :: ts, t0' :: ts' => tempo_list (t_events t0) = tempo_list (t_events t0') /\ map (fun t => what (t_events t)) ts = map (fun t => what (t_events t)) ts'
  | [], [] => True
  | _, _ => False
  end.
