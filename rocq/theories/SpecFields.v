(** * SpecFields: the members of an exported document. *)
From Verif Require Import Base Strings Tables Event SpecEvent SpecFile SpecTable SpecExport Json.

(** Text as JSON can hold it *)
Definition shows (s : bytes) (v : json) : Prop := exists s', v = JStr s' /\ repaired s s'.
Definition number_list (l : list Z) : json := JArr (map JNum l).

(** The status byte of an event, and for meta events the type byte (SMF standard) *)
Definition status_byte (b : body) : Z :=
  match b with
  | NoteOff c _ _ => 128 + c | NoteOn c _ _ => 144 + c | PolyphonicPressure c _ => 160 + c | Controller c _ _ => 176 + c
  | ProgramChange c _ _ => 192 + c | ChannelPressure c _ => 208 + c | PitchBend c _ => 224 + c
  | SysExMessage _ _ _ => 240 | SysExContinuation _ _ | SysExEscape _ => 247
  | _ => 255
  end.
Definition type_byte (b : body) : option Z :=
  match b with
  | SequenceNumber _ => Some 0 | TextEvent k _ => Some (smf_text_type k) | MIDIChannelPrefix _ => Some 32 | MIDIPort _ => Some 33
  | EndOfTrack => Some 47 | Tempo _ => Some 81 | SMPTEOffset _ _ _ _ _ _ => Some 84 | TimeSignature _ _ _ _ => Some 88
  | KeySignature _ _ _ => Some 89 | SequencerSpecific _ _ => Some 127
  | _ => None
  end.

Inductive shows_note : note -> json -> Prop :=
| sn : forall n name alias, shows (n_name n) name -> shows (n_alias n) alias ->
    shows_note n (JObj [(str "value", JNum (n_value n)); (str "name", name); (str "alias", alias)]).
Inductive shows_maker : manufacturer -> json -> Prop :=
| sm : forall m region name, shows (m_region m) region -> shows (m_name m) name ->
    shows_maker m (JObj [(str "id", number_list (m_id m)); (str "region", region); (str "name", name)]).

(** The members with the values of an event *)
Inductive values : body -> list (bytes * json) -> Prop :=
| v_off : forall c n v x, shows_note n x -> values (NoteOff c n v) [(str "channel", JNum c); (str "note", x); (str "velocity", JNum v)]
| v_on : forall c n v x, shows_note n x -> values (NoteOn c n v) [(str "channel", JNum c); (str "note", x); (str "velocity", JNum v)]
| v_poly : forall c p, values (PolyphonicPressure c p) [(str "channel", JNum c); (str "pressure", JNum p)]
| v_control : forall c k v x, shows (c_name k) x -> values (Controller c k v)
    [(str "channel", JNum c); (str "controller", JObj [(str "id", JNum (c_id k)); (str "name", x)]); (str "value", JNum v)]
| v_program : forall c b p, values (ProgramChange c b p) [(str "channel", JNum c); (str "bank", JNum b); (str "program", JNum p)]
| v_pressure : forall c p, values (ChannelPressure c p) [(str "channel", JNum c); (str "pressure", JNum p)]
| v_bend : forall c b, values (PitchBend c b) [(str "channel", JNum c); (str "bend", JNum b)]
| v_number : forall n, values (SequenceNumber n) [(str "sequence-number", JNum n)]
| v_text : forall s x, shows s x -> values (TextEvent KText s) [(str "text", x)]
| v_copyright : forall s x, shows s x -> values (TextEvent KCopyright s) [(str "copyright", x)]
| v_lyric : forall s x, shows s x -> values (TextEvent KLyric s) [(str "lyric", x)]
| v_marker : forall s x, shows s x -> values (TextEvent KMarker s) [(str "marker", x)]
| v_cue : forall s x, shows s x -> values (TextEvent KCuePoint s) [(str "cuepoint", x)]
| v_name : forall k s x, In k [KTrackName; KInstrumentName; KProgramName; KDeviceName] -> shows s x -> values (TextEvent k s) [(str "name", x)]
| v_prefix : forall c, values (MIDIChannelPrefix c) [(str "channel", JNum c)]
| v_port : forall p, values (MIDIPort p) [(str "port", JNum p)]
| v_end : values EndOfTrack []
| v_tempo : forall t, values (Tempo t) [(str "tempo", JNum t)]
| v_smpte : forall h m s r f ff, values (SMPTEOffset h m s r f ff)
    [(str "hour", JNum h); (str "minute", JNum m); (str "second", JNum s); (str "frame-rate", JNum r); (str "frames", JNum f); (str "fractional-frames", JNum ff)]
| v_time : forall n d t q, values (TimeSignature n d t q)
    [(str "numerator", JNum n); (str "denominator", JNum d); (str "ticks-per-click", JNum t); (str "thirty-seconds-per-quarter", JNum q)]
| v_key : forall a k key x, shows key x -> values (KeySignature a k key) [(str "accidentals", JNum a); (str "key-type", JNum k); (str "key", x)]
| v_specific : forall m d x, shows_maker m x -> values (SequencerSpecific m d) [(str "manufacturer", x); (str "data", number_list d)]
| v_sysex : forall m d s x, shows_maker m x -> values (SysExMessage m d s) [(str "manufacturer", x); (str "data", number_list d); (str "single", JBool s)]
| v_more : forall d f, values (SysExContinuation d f) [(str "data", number_list d); (str "end", JBool f)]
| v_escape : forall d, values (SysExEscape d) [(str "data", number_list d)].

Definition event_shown (e : event) (v : json) : Prop :=
  exists l, values (e_body e) l /\
    v = JObj [(str "event", JObj ([(str "tag", JStr (kind_name (e_body e))); (str "delta", JNum (e_delta e)); (str "status", JNum (status_byte (e_body e)))] ++
                                  match type_byte (e_body e) with Some t => [(str "type", JNum t)] | None => [] end ++ l))].

(** The members of the header: an SMPTE time code or pulses per quarter note *)
Definition header_shown (hf : header_fields) : json :=
  let '(smpte, fps, drop, sub) := match hf_smpte hf with Some (fps, drop, sub) => (true, fps, drop, sub) | None => (false, 0, false, 0) end in
  JObj [(str "Tag", JStr (str "MThd")); (str "Length", JNum 6); (str "Format", JNum (hf_format hf)); (str "Tracks", JNum (hf_tracks hf));
        (str "Division", JNum (hf_division hf)); (str "PPQN", JNum (hf_ppqn hf)); (str "SMPTETimeCode", JBool smpte); (str "SubFrames", JNum sub);
        (str "FPS", JNum fps); (str "DropFrame", JBool drop)].

Definition document_shown (hf : header_fields) (ess : list (list event)) (v : json) : Prop :=
  exists ts, v = JObj [(str "header", header_shown hf); (str "tracks", JArr ts)] /\ length ts = length ess /\
    forall i es, nth_error ess i = Some es -> exists vs, Forall2 event_shown es vs /\
      nth_error ts i = Some (JObj [(str "tag", JStr (str "MTrk")); (str "track-number", JNum (Z.of_nat i)); (str "events", JArr vs)]).
