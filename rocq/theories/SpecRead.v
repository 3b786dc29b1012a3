(** * SpecRead: which printed events can be read again. *)
From Verif Require Import Base Tables Event Track SpecEvent SpecTable SpecAssemble SpecNote SpecSurvive.

(** The names of the kinds of events in the order in which the assembler looks for them. *)
Definition tag_order : list bytes :=
  [str "SequenceNumber"; str "Text"; str "Copyright"; str "TrackName"; str "InstrumentName"; str "Lyric"; str "Marker"; str "CuePoint";
   str "ProgramName"; str "DeviceName"; str "MIDIChannelPrefix"; str "MIDIPort"; str "Tempo"; str "TimeSignature"; str "KeySignature";
   str "SMPTEOffset"; str "EndOfTrack"; str "SequencerSpecificEvent"; str "NoteOff"; str "NoteOn"; str "PolyphonicPressure"; str "Controller";
   str "ProgramChange"; str "ChannelPressure"; str "PitchBend"; str "SysExMessage"; str "SysExContinuation"; str "SysExEscape"].

(** [t] is looked for before [u]. *)
Definition precedes (t u : bytes) : Prop := exists i j, (i < j)%nat /\ nth_error tag_order i = Some t /\ nth_error tag_order j = Some u.

(** The part of a printed event that may be any text. *)
Definition free_text (b : body) : bytes :=
  match b with
  | TextEvent _ s => s
  | SequencerSpecific m _ | SysExMessage m _ _ => m_name m
  | _ => []
  end.

(** The text contains the name of a kind that is looked for earlier. *)
Definition misleading (b : body) : Prop := exists t, precedes t (kind_name b) /\ occurs t (free_text b).

Definition white_space (c : Z) : Prop := c = 9 \/ c = 10 \/ c = 12 \/ c = 13 \/ c = 32.
(** One line, not starting with white space. *)
Definition plain_text (s : bytes) : Prop := ~ In 10 s /\ forall c r, s = c :: r -> ~ white_space c.

(** The manufacturer is known by a name that no other has; the name has no comma. *)
Definition well_named (table : list (bytes * manufacturer)) (m : manufacturer) : Prop :=
  (exists k, In (k, m) table) /\ distinct_names table /\ plain_text (m_name m) /\ ~ In 44 (m_name m).

(** No digit 9 except perhaps as first digit, for numbers below 1000. *)
Definition nine_free (n : Z) : Prop := n < 10 \/ (n mod 10 <> 9 /\ (n < 100 \/ n / 10 mod 10 <> 9)).

(** What the assembler requires, beyond what the decoder guarantees; with the middle C named C4 (SpecNote.v), notes of octaves 0 to 9. *)
Definition readable (table : list (bytes * manufacturer)) (b : body) : Prop :=
  match b with
  | NoteOff _ n _ | NoteOn _ n _ => 12 <= n_value n < 132
  | TextEvent _ s => plain_text s
  | TimeSignature _ d _ q => d <> 0 /\ q <> 0 /\ nine_free q
  | SequencerSpecific m _ | SysExMessage m _ _ => well_named table m
  | _ => True
  end.

(** Contents without the marks at the end of system exclusive messages. *)
Definition unmark (c : content) : content :=
  match c with
  | CSysEx p _ => CSysEx p false
  | CSysExCont p _ => CSysExCont p false
  | c => c
  end.

(** An event body as it is read: the alias of a note is its name, system exclusive messages are not marked as complete. *)
Definition as_read (b : body) : body :=
  match b with
  | NoteOff c n v => NoteOff c (Note (n_value n) (n_name n) (n_name n)) v
  | NoteOn c n v => NoteOn c (Note (n_value n) (n_name n) (n_name n)) v
  | SysExMessage m d _ => SysExMessage m d false
  | SysExContinuation d _ => SysExContinuation d false
  | b => b
  end.

(** ** Files *)

(** The line of the event is one line of the text that does not look like the start of a chunk. *)
Definition line_safe (b : body) : Prop :=
  ~ occurs (str "MThd") (free_text b) /\ ~ occurs (str "MTrk") (free_text b) /\
  match b with TextEvent _ s => forall l, s <> l ++ [13] | _ => True end.

(** The events of a track can be read; [tables j i]: manufacturers in the order in which a search on line [i] of chunk [j] meets them. *)
Definition track_readable (tables : nat -> nat -> list (bytes * manufacturer)) (t : mtrk) : Prop :=
  t_events t <> [] /\ Forall (fun e => ~ misleading (e_body e) /\ line_safe (e_body e) /\ forall j i, readable (tables j i) (e_body e)) (t_events t).

(** As [as_read], with the mark at the end of a system exclusive message. *)
Definition read_marked (fin : bool) (b : body) : body :=
  match b with
  | SysExMessage m d _ => SysExMessage m d fin
  | SysExContinuation d _ => SysExContinuation d fin
  | b => as_read b
  end.

(** The events come back: same number, same delta times, same values; a message is complete if there is a next event that does not continue it. *)
Definition events_back (es es' : list event) : Prop :=
  length es' = length es /\
  forall i e e', nth_error es i = Some e -> nth_error es' i = Some e' ->
    e_delta e' = e_delta e /\
    exists fin, e_body e' = read_marked fin (e_body e) /\ (fin = true <-> exists n, nth_error es (S i) = Some n /\ ~ continues n).

(** The packets of a system exclusive message follow each other directly; [op]: the event before must be continued.  An event follows the last packet. *)
Fixpoint chained (op : bool) (es : list event) : Prop :=
  match es with
  | [] => op = false
  | e :: r =>
      match e_body e with
      | SysExMessage _ _ single => op = false /\ r <> [] /\ chained (negb single) r
      | SysExContinuation _ _ => op = true /\ r <> [] /\ (chained true r \/ chained false r)
      | _ => op = false /\ chained false r
      end
  end.

(** ** Crashes *)

Definition comment (l : bytes) : Prop := exists r, l = str "%%" ++ r.
(** A comment or a line without a visible ASCII character. *)
Definition void_line (l : bytes) : Prop := comment l \/ forall x, In x l -> ~ 33 <= x < 128.

(** A track without events: no other lines between its tag line and the next tag line or the end. *)
Definition empty_track (lines : list bytes) : Prop :=
  exists before l void after, lines = before ++ l :: void ++ after /\ track_line l /\ Forall void_line void /\
    (after = [] \/ exists t r, after = t :: r /\ tag_line t).

(** The first line with the tag of the header is a comment. *)
Definition comment_header (lines : list bytes) : Prop :=
  exists before l after, lines = before ++ l :: after /\ Forall (fun l => ~ header_line l) before /\ header_line l /\ comment l.
