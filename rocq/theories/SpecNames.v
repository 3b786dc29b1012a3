(** * SpecNames: files without the names of notes and manufacturers. *)
From Verif Require Import Base Tables Event SpecEvent Track File Validate Notes.

(** The content of an event without the names of a note and the region and name of a manufacturer. *)
Definition bare (b : body) : body :=
  match b with
  | NoteOff c n v => NoteOff c (Note (n_value n) [] []) v
  | NoteOn c n v => NoteOn c (Note (n_value n) [] []) v
  | SequencerSpecific m d => SequencerSpecific (Manufacturer (m_id m) [] []) d
  | SysExMessage m d s => SysExMessage (Manufacturer (m_id m) [] []) d s
  | _ => b
  end.
Definition bare_event (e : event) : event := Event (e_tick e) (e_delta e) (e_bytes e) (e_status e) (e_type e) (bare (e_body e)).
(** What the reader remembers, without the names of the notes that sound *)
Definition bare_ctx (c : ctx) : ctx := Ctx (c_flats c) (c_running c) (c_casio c) (c_bank c) (map (fun x => (fst x, [])) (c_notes c)).
Definition bare_track (t : mtrk) : mtrk := MTrk (t_tag t) (t_number t) (t_length t) (t_bytes t) (map bare_event (t_events t)) (option_map bare_ctx (t_ctx t)).
Definition bare_file (s : smf) : smf := SMF (f_mthd s) (map bare_track (f_tracks s)).

(** The same but for those names *)
Definition same_but_names (s s' : smf) : Prop := bare_file s = bare_file s'.

(** A report of the validation without the names in the event it quotes *)
Definition bare_report (v : verror) : verror :=
  match v with
  | VTrack0Unexpected e => VTrack0Unexpected (bare_event e)
  | VTrackUnexpected t e => VTrackUnexpected t (bare_event e)
  | VEotNotLast t i e => VEotNotLast t i (bare_event e)
  | _ => v
  end.

(** Outcomes that are the same, up to a relation between the values *)
Definition alike {A B} (R : A -> B -> Prop) (x : outcome A) (y : outcome B) : Prop :=
  match x, y with
  | Ok a, Ok b => R a b
  | Err, Err | Eof, Eof | Panic, Panic | Loop, Loop => True
  | _, _ => False
  end.

(** Settings under which every manufacturer ID that a file can have stands for a manufacturer with the same ID.  (00 alone is an ID for the decoder of SysEx messages.) *)
Definition same_wire_ids (a b : env) : Prop := forall id, wire_id id \/ id = [0] -> m_id (lookup_manufacturer a id) = m_id (lookup_manufacturer b id).
(** The same for everything that a JSON document can give as an ID *)
Definition same_ids (a b : env) : Prop := forall id, m_id (lookup_manufacturer a id) = m_id (lookup_manufacturer b id).
