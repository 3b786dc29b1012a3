(** * SpecJson: what should survive the way through JSON.  Uses only the model's data types. *)
From Verif Require Import Base Tables Event SpecText SpecEvent SpecAssemble Json.

(** The same kind of event with the same values.  Names are not values: those of notes are made from the values, and controllers and manufacturers
    are known by their ID. *)
Definition same_values (b b' : body) : Prop :=
  match b with
  | NoteOff c n v => exists n', b' = NoteOff c n' v /\ n_value n' = n_value n
  | NoteOn c n v => exists n', b' = NoteOn c n' v /\ n_value n' = n_value n
  | Controller c k v => exists k', b' = Controller c k' v /\ c_id k' = c_id k
  | SequencerSpecific m d => exists m', b' = SequencerSpecific m' d /\ m_id m' = m_id m
  | SysExMessage m d s => exists m', b' = SysExMessage m' d s /\ m_id m' = m_id m
  | b => b' = b
  end.

(** Text is valid UTF-8. *)
Definition valid_text (b : body) : Prop := match b with TextEvent _ s => well_formed s | _ => True end.

(** The events come back: same number, same delta times, same values; a message is complete if it was or if there is a next event that does
    not continue it, a continuation is the last one if there is a next event that is no continuation. *)
Definition back_with (closed : Prop) (b b' : body) : Prop :=
  match b with
  | SysExMessage m d s => exists fin, same_values (SysExMessage m d fin) b' /\ (fin = true <-> s = true \/ closed)
  | SysExContinuation d _ => exists fin, b' = SysExContinuation d fin /\ (fin = true <-> closed)
  | b => same_values b b'
  end.
Definition events_from_json (es es' : list event) : Prop :=
  length es' = length es /\
  forall i e e', nth_error es i = Some e -> nth_error es' i = Some e' ->
    e_delta e' = e_delta e /\ back_with (exists n, nth_error es (S i) = Some n /\ ~ continues n) (e_body e) (e_body e').

(** ** Crashes *)

(** The object has the value under the name, without regard to case. *)
Definition has (o : list (bytes * json)) (name : bytes) (v : json) : Prop := exists key, In (key, v) o /\ names name key = true.
Definition has_number (o : list (bytes * json)) (name : bytes) (p : Z -> Prop) : Prop := exists n, has o name (JNum n) /\ p n.

(** Events that crash the assembler: values that the program does not check before it makes the event. *)
Definition bad_offset (o : list (bytes * json)) : Prop :=
  has_number o (str "hour") (fun h => 24 < h) \/ has_number o (str "minute") (fun m => 59 < m) \/ has_number o (str "second") (fun s => 59 < s) \/
  (forall r, ~ has o (str "frame-rate") (JNum r)) \/ has_number o (str "frame-rate") (fun r => r <> 24 /\ r <> 25 /\ r <> 29 /\ r <> 30) \/
  has_number o (str "frames") (fun f => has_number o (str "frame-rate") (fun r => r <= f)) \/ has_number o (str "fractional-frames") (fun ff => 100 < ff).

Definition crash_event (o : list (bytes * json)) : Prop :=
  exists tag, has o (str "tag") (JStr tag) /\
    ((tag = str "NoteOn" /\ has_number o (str "velocity") (fun v => 127 < v)) \/
     ((tag = str "PolyphonicPressure" \/ tag = str "ChannelPressure") /\ has_number o (str "pressure") (fun p => 127 < p)) \/
     (tag = str "KeySignature" /\ (has_number o (str "accidentals") (fun a => ~ -7 <= a <= 7) \/ has_number o (str "key-type") (fun k => k <> 0 /\ k <> 1))) \/
     (tag = str "SMPTEOffset" /\ bad_offset o)).

(** Events that make it hang. *)
Definition hang_event (o : list (bytes * json)) : Prop :=
  has o (str "tag") (JStr (str "TimeSignature")) /\ has_number o (str "denominator") (fun d => 128 < d).

(** The tracks of a document, and their events. *)
Definition track_of (v : json) (t : list (bytes * json)) : Prop := exists o ts, v = JObj o /\ has o (str "tracks") (JArr ts) /\ In (JObj t) ts.
Definition event_of (v : json) (e : list (bytes * json)) : Prop :=
  exists t es w, track_of v t /\ has t (str "events") (JArr es) /\ In (JObj w) es /\ has w (str "event") (JObj e).

(** A track without events: no list, null or an empty list. *)
Definition without_events (t : list (bytes * json)) : Prop :=
  (forall l, ~ has t (str "events") l) \/ has t (str "events") JNull \/ has t (str "events") (JArr []).
