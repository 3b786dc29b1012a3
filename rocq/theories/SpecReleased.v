(** * SpecReleased: the two ways to end a note. *)
From Verif Require Import Base Tables Event Track File Notes.

(** A message that ends a note: NoteOff with any velocity, NoteOn with velocity 0 *)
Definition releases (ch k : Z) (b : body) : Prop :=
  match b with NoteOff c n _ => c = ch /\ n_value n = k | NoteOn c n v => c = ch /\ n_value n = k /\ v = 0 | _ => False end.

(** The same message, or two that end the same note *)
Definition same_release (b b' : body) : Prop := b' = b \/ exists ch k, releases ch k b /\ releases ch k b'.

Definition released_event (e e' : event) : Prop := e_tick e' = e_tick e /\ e_delta e' = e_delta e /\ same_release (e_body e) (e_body e').

(** The same resolution and the same tracks but for how notes are ended *)
Definition released_file (s s' : smf) : Prop :=
  option_map h_ppqn (f_mthd s) = option_map h_ppqn (f_mthd s') /\ Forall2 (fun t t' => Forall2 released_event (t_events t) (t_events t')) (f_tracks s) (f_tracks s').
