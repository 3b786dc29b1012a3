(** * Json: export of files to JSON and assembly from JSON (MarshalJSON and UnmarshalJSON of the events, ops/export, ops/assemble/json.go).

    JSON documents are trees here; JsonText.v turns trees into text and text into trees.  Of encoding/json (Go standard library)
    this file models what it does with Go values: text that is not valid UTF-8 is replaced when it is written, keys are
    matched without regard to case, values of the wrong type or out of range are errors, null and missing keys leave zero
    values.  Strings of a tree are valid UTF-8 in Go; here they may be any bytes.
    Simplification: a second array under the same key (say, two "tracks") replaces the first; Go's decoder writes the second over the
    elements of the first, which keep their values where those of the second have null or no value. *)
From Verif Require Import Base Strings Tables Event Track File Utf8 Hex Regex Assemble TextAssemble.

Inductive json :=
| JNull
| JBool (b : bool)
| JNum (n : Z)                         (* an integer literal *)
| JReal                                (* any other number *)
| JStr (s : bytes)
| JArr (l : list json)
| JObj (fields : list (bytes * json)).

(** ** Writing *)

(** What encoding/json writes is made in two steps: the tree of the Go values ([q] makes the strings), and its text (JsonText.v).  The tree with
    [JStr] for [q] has the strings as they are in memory; that with [jstring] is the one that the text stands for. *)

(** encoding/json: string encoder, invalid UTF-8 becomes U+FFFD. *)
Definition jstring (s : bytes) : json := JStr (concat (runes s)).

(** midi/lib/hex.go:35-42 [Hex.MarshalJSON] *)
Definition jhex (bs : bytes) : json := JArr (map JNum (hex_to_json bs)).

(** midi/lib/manufacturer.go:17-34 [Manufacturer.MarshalJSON] *)
Definition jmanufacturer_with (q : bytes -> json) (m : manufacturer) : json :=
  JObj [(str "id", JArr (map JNum (m_id m))); (str "region", q (m_region m)); (str "name", q (m_name m))].

(** midi/events/midi/midievent.go:28-32 [Note], midi/lib/controller.go:3-6 [Controller] *)
Definition jnote_with (q : bytes -> json) (n : note) : json := JObj [(str "value", JNum (n_value n)); (str "name", q (n_name n)); (str "alias", q (n_alias n))].
Definition jcontroller_with (q : bytes -> json) (c : controller) : json := JObj [(str "id", JNum (c_id c)); (str "name", q (c_name c))].

(** midi/events/meta/{text,copyright,track_name,instrument_name,lyric,marker,cue_point,program_name,device_name}.go: the key of the text *)
Definition text_key (k : textkind) : bytes :=
  match k with
  | KText => str "text" | KCopyright => str "copyright" | KTrackName => str "name" | KInstrumentName => str "name" | KLyric => str "lyric"
  | KMarker => str "marker" | KCuePoint => str "cuepoint" | KProgramName => str "name" | KDeviceName => str "name"
  end.

(** MarshalJSON of the events: midi/events/meta/sequence_number.go:90-106, text.go:81-97 (and the other textual events),
    midi_channel_prefix.go:98-114, midi_port.go:101-117, end_of_track.go:72-86, tempo.go:109-125, smpte_offset.go:238-264,
    time_signature.go:140-162, key_signature.go:181-201, sequencer_specific.go:126-144, midi/events/midi/note_off.go:190-208,
    note_on.go:130-148, polyphonic_pressure.go:105-121, controller.go:109-127, program_change.go:104-122,
    channel_pressure.go:113-129, pitch_bend.go:109-125, midi/events/sysex/message.go:145-163, continuation_message.go:125-141,
    escape_message.go:88-102: the fields after the status *)
Definition body_fields_with (q : bytes -> json) (e : event) : list (bytes * json) :=
  let type := (str "type", JNum (e_type e)) in
  let channel c := (str "channel", JNum c) in
  match e_body e with
  | NoteOff c n v | NoteOn c n v => [channel c; (str "note", jnote_with q n); (str "velocity", JNum v)]
  | PolyphonicPressure c p | ChannelPressure c p => [channel c; (str "pressure", JNum p)]
  | Controller c k v => [channel c; (str "controller", jcontroller_with q k); (str "value", JNum v)]
  | ProgramChange c b p => [channel c; (str "bank", JNum b); (str "program", JNum p)]
  | PitchBend c b => [channel c; (str "bend", JNum b)]
  | SequenceNumber n => [type; (str "sequence-number", JNum n)]
  | TextEvent k s => [type; (text_key k, q s)]
  | MIDIChannelPrefix c => [type; channel c]
  | MIDIPort p => [type; (str "port", JNum p)]
  | EndOfTrack => [type]
  | Tempo t => [type; (str "tempo", JNum t)]
  | SMPTEOffset h m s r f ff =>
      [type; (str "hour", JNum h); (str "minute", JNum m); (str "second", JNum s); (str "frame-rate", JNum r); (str "frames", JNum f);
       (str "fractional-frames", JNum ff)]
  | TimeSignature n d t q =>
      [type; (str "numerator", JNum n); (str "denominator", JNum d); (str "ticks-per-click", JNum t); (str "thirty-seconds-per-quarter", JNum q)]
  | KeySignature a k key => [type; (str "accidentals", JNum a); (str "key-type", JNum k); (str "key", q key)]
  | SequencerSpecific m d => [type; (str "manufacturer", jmanufacturer_with q m); (str "data", jhex d)]
  | SysExMessage m d s => [(str "manufacturer", jmanufacturer_with q m); (str "data", jhex d); (str "single", JBool s)]
  | SysExContinuation d f => [(str "data", jhex d); (str "end", JBool f)]
  | SysExEscape d => [(str "data", jhex d)]
  end.

(** The fields that all events have, and midi/events/event.go:33-35 [Event] *)
Definition event_fields_with (q : bytes -> json) (e : event) : list (bytes * json) :=
  (str "tag", JStr (body_tag (e_body e))) :: (str "delta", JNum (e_delta e)) :: (str "status", JNum (e_status e)) :: body_fields_with q e.
Definition marshal_json_with (q : bytes -> json) (e : event) : json := JObj [(str "event", JObj (event_fields_with q e))].

(** midi/MThd.go:12-24 [MThd]: keys are the names of the fields. *)
Definition jmthd_with (q : bytes -> json) (h : mthd) : json :=
  JObj [(str "Tag", q (h_tag h)); (str "Length", JNum (h_length h)); (str "Format", JNum (h_format h)); (str "Tracks", JNum (h_tracks h));
        (str "Division", JNum (h_division h)); (str "PPQN", JNum (h_ppqn h)); (str "SMPTETimeCode", JBool (h_smpte h)); (str "SubFrames", JNum (h_subframes h));
        (str "FPS", JNum (h_fps h)); (str "DropFrame", JBool (h_drop h))].

(** midi/MTrk.go:18-25 [MTrk] *)
Definition jmtrk_with (q : bytes -> json) (t : mtrk) : json :=
  JObj [(str "tag", q (t_tag t)); (str "track-number", JNum (t_number t)); (str "events", JArr (map (marshal_json_with q) (t_events t)))].

(** midi/smf.go:11-14 and ops/export/export.go:17-25 [Export.Export]; the slice of tracks is never nil after decoding. *)
Definition export_json_with (q : bytes -> json) (s : smf) : json :=
  JObj [(str "header", match f_mthd s with Some h => jmthd_with q h | None => JNull end); (str "tracks", JArr (map (jmtrk_with q) (f_tracks s)))].

(** The trees that the texts stand for *)
Definition jmanufacturer := jmanufacturer_with jstring.
Definition jnote := jnote_with jstring.
Definition jcontroller := jcontroller_with jstring.
Definition body_fields := body_fields_with jstring.
Definition event_fields := event_fields_with jstring.
Definition marshal_json := marshal_json_with jstring.
Definition jmthd := jmthd_with jstring.
Definition jmtrk := jmtrk_with jstring.
Definition export_json := export_json_with jstring.

(** ** Reading (encoding/json) *)

(** A key names a field of a struct, without regard to case. *)
Definition names (name key : bytes) : bool := match strip_fold name key with Some [] => true | _ => false end.

(** One field of a struct: all values under its name, in order; [f] reads a value over what the field holds. *)
Fixpoint field {A} (name : bytes) (f : A -> json -> outcome A) (a : A) (o : list (bytes * json)) : outcome A :=
  match o with
  | [] => Ok a
  | (k, v) :: r => if names name k then do a' <- f a v; field name f a' r else field name f a r
  end.

(** Reading a value into an integer with the given range, a string, a bool: null leaves what is there. *)
Definition read_int (lo hi : Z) (a : Z) (v : json) : outcome Z :=
  match v with
  | JNull => Ok a
  | JNum n => if (lo <=? n) && (n <=? hi) then Ok n else Err
  | _ => Err
  end.
Definition read_string (a : bytes) (v : json) : outcome bytes := match v with JNull => Ok a | JStr s => Ok s | _ => Err end.
Definition read_bool (a : bool) (v : json) : outcome bool := match v with JNull => Ok a | JBool b => Ok b | _ => Err end.

(** Reading into a pointer: null makes it nil. *)
Definition read_pointer {A} (f : json -> outcome A) (a : option A) (v : json) : outcome (option A) :=
  match v with JNull => Ok None | _ => do x <- f v; Ok (Some x) end.

(** A struct: an object, or null, which leaves it as it is. *)
Definition object (v : json) : outcome (list (bytes * json)) := match v with JObj o => Ok o | JNull => Ok [] | _ => Err end.

(** The elements of an array; null is the empty array. *)
Definition elements (v : json) : outcome (list json) := match v with JArr l => Ok l | JNull => Ok [] | _ => Err end.

Fixpoint each {A} (f : json -> outcome A) (l : list json) : outcome (list A) :=
  match l with
  | [] => Ok []
  | v :: r => do x <- f v; do xs <- each f r; Ok (x :: xs)
  end.

Definition max_uint : Z := 18446744073709551615.

(** midi/lib/hex.go:44-59 [Hex.UnmarshalJSON] *)
Definition read_hex (a : bytes) (v : json) : outcome bytes :=
  do l <- elements v; do ns <- each (read_int 0 max_uint 0) l; hex_of_json ns.

(** midi/lib/channel.go:48-60 [Channel.UnmarshalJSON]: called for null too. *)
Definition read_channel (a : Z) (v : json) : outcome Z := do c <- read_int 0 max_uint 0 v; if 15 <? c then Err else Ok c.

(** midi/lib/manufacturer.go:36-53 [Manufacturer.UnmarshalJSON]: called for null too. *)
Definition read_manufacturer (env : env) (a : manufacturer) (v : json) : outcome manufacturer :=
  do o <- object v;
  do id <- field (str "id") (fun a v => do l <- elements v; each (read_int 0 max_uint 0) l) [] o;
  Ok (lookup_manufacturer env (map (fun n => n mod 256) id)).

(** midi/events/midi/midievent.go:28-32 [Note], midi/lib/controller.go:3-6 [Controller] *)
Definition read_note (a : note) (v : json) : outcome note :=
  do o <- object v;
  do value <- field (str "value") (read_int 0 255) (n_value a) o;
  do name <- field (str "name") read_string (n_name a) o;
  do alias <- field (str "alias") read_string (n_alias a) o;
  Ok (Note value name alias).
Definition read_controller (a : controller) (v : json) : outcome controller :=
  do o <- object v;
  do id <- field (str "id") (read_int 0 255) (c_id a) o;
  do name <- field (str "name") read_string (c_name a) o;
  Ok (MkController id name).

(** Fields by type *)
Definition uint8 (name : bytes) := field name (read_int 0 255) 0.
Definition uint16 (name : bytes) := field name (read_int 0 65535) 0.
Definition uint32 (name : bytes) := field name (read_int 0 4294967295) 0.
Definition text_of (name : bytes) := field name read_string [].
Definition channel_of := field (str "channel") read_channel 0.
Definition data_of := field (str "data") read_hex [].
Definition manufacturer_of (env : env) := field (str "manufacturer") (read_manufacturer env) (Manufacturer [] [] []).

(** ** UnmarshalJSON of the events.  [o]: the fields of the object. *)

(** The start of each function: the delta time, after [rest] has read the other fields the tag is compared. *)
Definition tagged {A} (tag : bytes) (o : list (bytes * json)) (rest : Z -> outcome A) (make : A -> outcome event) : outcome event :=
  do t <- text_of (str "tag") o;
  do d <- uint32 (str "delta") o;
  do x <- rest d;
  if bytes_eqb t tag then make x else Err.

(** midi/events/meta/sequence_number.go:108-124 *)
Definition json_sequence_number (o : list (bytes * json)) : outcome event :=
  tagged (str "SequenceNumber") o (fun d => do n <- uint16 (str "sequence-number") o; Ok (d, n)) (fun '(d, n) => Ok (make_sequence_number 0 d n [])).

(** midi/events/meta/text.go:99-115, copyright.go:97-113, track_name.go:114-130, instrument_name.go:98-114, lyric.go:104-126,
    marker.go:98-114, cue_point.go:98-114, program_name.go:98-114, device_name.go:97-113 *)
Definition json_text (k : textkind) (o : list (bytes * json)) : outcome event :=
  tagged (text_tag k) o (fun d => do s <- text_of (text_key k) o; Ok (d, s)) (fun '(d, s) => Ok (make_text k 0 d s [])).

(** midi/events/meta/midi_channel_prefix.go:116-134 *)
Definition json_channel_prefix (o : list (bytes * json)) : outcome event :=
  tagged (str "MIDIChannelPrefix") o (fun d => do c <- uint8 (str "channel") o; Ok (d, c))
    (fun '(d, c) => if 15 <? c then Err else make_channel_prefix 0 d c []).

(** midi/events/meta/midi_port.go:119-137 *)
Definition json_port (o : list (bytes * json)) : outcome event :=
  tagged (str "MIDIPort") o (fun d => do p <- uint8 (str "port") o; Ok (d, p)) (fun '(d, p) => if 127 <? p then Err else make_port 0 d p []).

(** midi/events/meta/tempo.go:127-143 *)
Definition json_tempo (o : list (bytes * json)) : outcome event :=
  tagged (str "Tempo") o (fun d => do t <- uint32 (str "tempo") o; Ok (d, t)) (fun '(d, t) => Ok (make_tempo 0 d t [])).

(** midi/events/meta/time_signature.go:164-190 *)
Definition json_time_signature (o : list (bytes * json)) : outcome event :=
  tagged (str "TimeSignature") o
    (fun d => do n <- uint8 (str "numerator") o; do dd <- uint8 (str "denominator") o; do t <- uint8 (str "ticks-per-click") o;
              do q <- uint8 (str "thirty-seconds-per-quarter") o; Ok (d, n, dd, t, q))
    (fun '(d, n, dd, t, q) => make_time_signature 0 d n dd t q []).

(** midi/events/meta/key_signature.go:203-220 *)
Definition json_key_signature (o : list (bytes * json)) : outcome event :=
  tagged (str "KeySignature") o
    (fun d => do a <- field (str "accidentals") (read_int (-128) 127) 0 o; do k <- uint8 (str "key-type") o; Ok (d, a, k))
    (fun '(d, a, k) => make_key_signature 0 d a k []).

(** midi/events/meta/smpte_offset.go:266-287 *)
Definition json_smpte_offset (o : list (bytes * json)) : outcome event :=
  tagged (str "SMPTEOffset") o
    (fun d => do h <- uint8 (str "hour") o; do m <- uint8 (str "minute") o; do s <- uint8 (str "second") o; do r <- uint8 (str "frame-rate") o;
              do f <- uint8 (str "frames") o; do ff <- uint8 (str "fractional-frames") o; Ok (d, h, m, s, r, f, ff))
    (fun '(d, h, m, s, r, f, ff) => make_smpte_offset 0 d h m s r f ff []).

(** midi/events/meta/end_of_track.go:88-103 *)
Definition json_end_of_track (o : list (bytes * json)) : outcome event :=
  tagged (str "EndOfTrack") o (fun d => Ok d) (fun d => Ok (make_end_of_track 0 d [])).

(** midi/events/meta/sequencer_specific.go:146-170 *)
Definition json_sequencer_specific (env : env) (o : list (bytes * json)) : outcome event :=
  tagged (str "SequencerSpecificEvent") o (fun d => do m <- manufacturer_of env o; do x <- data_of o; Ok (d, m, x))
    (fun '(d, m, x) => Ok (make_sequencer_specific 0 d m x [])).

(** midi/events/midi/note_off.go:210-239 *)
Definition json_note_off (env : env) (o : list (bytes * json)) : outcome event :=
  tagged (str "NoteOff") o
    (fun d => do c <- channel_of o; do n <- field (str "note") read_note (Note 0 [] []) o; do v <- uint8 (str "velocity") o; Ok (d, c, n, v))
    (fun '(d, c, n, v) =>
       let name := format_note env false (n_value n) in
       Ok (Event 0 d [] (or_status 128 c) 0 (NoteOff c (Note (n_value n) name name) v))).

(** midi/events/midi/note_on.go:150-174 *)
Definition json_note_on (env : env) (o : list (bytes * json)) : outcome event :=
  tagged (str "NoteOn") o
    (fun d => do c <- channel_of o; do n <- field (str "note") read_note (Note 0 [] []) o; do v <- uint8 (str "velocity") o; Ok (d, c, n, v))
    (fun '(d, c, n, v) => let name := format_note env false (n_value n) in make_note_on 0 d c (Note (n_value n) name name) v []).

(** midi/events/midi/polyphonic_pressure.go:123-140 *)
Definition json_polyphonic_pressure (o : list (bytes * json)) : outcome event :=
  tagged (str "PolyphonicPressure") o (fun d => do c <- channel_of o; do p <- uint8 (str "pressure") o; Ok (d, c, p))
    (fun '(d, c, p) => make_polyphonic_pressure 0 d c p []).

(** midi/events/midi/controller.go:129-147 *)
Definition json_controller (o : list (bytes * json)) : outcome event :=
  tagged (str "Controller") o
    (fun d => do c <- channel_of o; do k <- field (str "controller") read_controller (MkController 0 []) o; do v <- uint8 (str "value") o; Ok (d, c, k, v))
    (fun '(d, c, k, v) => make_controller 0 d c k v []).

(** midi/events/midi/program_change.go:124-142 *)
Definition json_program_change (o : list (bytes * json)) : outcome event :=
  tagged (str "ProgramChange") o (fun d => do c <- channel_of o; do b <- uint16 (str "bank") o; do p <- uint8 (str "program") o; Ok (d, c, b, p))
    (fun '(d, c, b, p) => make_program_change 0 d c b p []).

(** midi/events/midi/channel_pressure.go:131-148 *)
Definition json_channel_pressure (o : list (bytes * json)) : outcome event :=
  tagged (str "ChannelPressure") o (fun d => do c <- channel_of o; do p <- uint8 (str "pressure") o; Ok (d, c, p))
    (fun '(d, c, p) => make_channel_pressure 0 d c p []).

(** midi/events/midi/pitch_bend.go:127-144 *)
Definition json_pitch_bend (o : list (bytes * json)) : outcome event :=
  tagged (str "PitchBend") o (fun d => do c <- channel_of o; do b <- uint16 (str "bend") o; Ok (d, c, b)) (fun '(d, c, b) => make_pitch_bend 0 d c b []).

(** midi/events/sysex/message.go:165-190 *)
Definition json_sysex (env : env) (o : list (bytes * json)) : outcome event :=
  tagged (str "SysExMessage") o (fun d => do m <- manufacturer_of env o; do x <- data_of o; do s <- field (str "single") read_bool false o; Ok (d, m, x, s))
    (fun '(d, m, x, s) => Ok (make_sysex 0 d m x s [])).

(** midi/events/sysex/continuation_message.go:143-160: the field End is read and dropped. *)
Definition json_continuation (o : list (bytes * json)) : outcome event :=
  tagged (str "SysExContinuation") o (fun d => do x <- data_of o; do _ <- field (str "end") read_bool false o; Ok (d, x))
    (fun '(d, x) => Ok (make_continuation 0 d x false [])).

(** midi/events/sysex/escape_message.go:104-120 *)
Definition json_escape (o : list (bytes * json)) : outcome event :=
  tagged (str "SysExEscape") o (fun d => do x <- data_of o; Ok (d, x)) (fun '(d, x) => Ok (make_escape 0 d x [])).

(** midi/events/json.go:27-116: the cases of the switch *)
Definition json_cases (env : env) : list (bytes * (list (bytes * json) -> outcome event)) :=
  [(str "SequenceNumber", json_sequence_number);
   (str "Text", json_text KText); (str "Copyright", json_text KCopyright); (str "TrackName", json_text KTrackName);
   (str "InstrumentName", json_text KInstrumentName); (str "Lyric", json_text KLyric); (str "Marker", json_text KMarker);
   (str "CuePoint", json_text KCuePoint); (str "ProgramName", json_text KProgramName); (str "DeviceName", json_text KDeviceName);
   (str "MIDIChannelPrefix", json_channel_prefix); (str "MIDIPort", json_port); (str "Tempo", json_tempo);
   (str "TimeSignature", json_time_signature); (str "KeySignature", json_key_signature); (str "SMPTEOffset", json_smpte_offset);
   (str "EndOfTrack", json_end_of_track); (str "SequencerSpecificEvent", json_sequencer_specific env);
   (str "NoteOff", json_note_off env); (str "NoteOn", json_note_on env); (str "PolyphonicPressure", json_polyphonic_pressure);
   (str "Controller", json_controller); (str "ProgramChange", json_program_change); (str "ChannelPressure", json_channel_pressure);
   (str "PitchBend", json_pitch_bend); (str "SysExMessage", json_sysex env); (str "SysExContinuation", json_continuation);
   (str "SysExEscape", json_escape)].

(** midi/events/json.go:12-117 [Event.UnmarshalJSON].  Without a value under "event" the second Unmarshal fails on no input; null
    there gives the empty tag. *)
Definition unmarshal_json (env : env) (v : json) : outcome event :=
  do o <- object v;
  do raw <- field (str "event") (fun _ v => Ok (Some v)) None o;
  match raw with
  | None => Err
  | Some v =>
      do fields <- object v;
      do tag <- text_of (str "tag") fields;
      match find (fun c => bytes_eqb tag (fst c)) (json_cases env) with
      | Some (_, f) => f fields
      | None => Err
      end
  end.

(** ** Assembly *)

(** ops/assemble/json.go:18-22 [mthd], 24-28 [mtrk] *)
Record jheader := JHeader { jh_tag : option bytes; jh_format : option Z; jh_ppqn : option Z }.
Record jtrack := JTrack { jt_tag : option bytes; jt_number : option Z; jt_events : list json }.

Definition read_header (a : jheader) (v : json) : outcome jheader :=
  do o <- object v;
  do tag <- field (str "tag") (read_pointer (read_string [])) (jh_tag a) o;
  do format <- field (str "format") (read_pointer (read_int 0 65535 0)) (jh_format a) o;
  do ppqn <- field (str "PPQN") (read_pointer (read_int 0 65535 0)) (jh_ppqn a) o;
  Ok (JHeader tag format ppqn).

Definition read_track (v : json) : outcome jtrack :=
  do o <- object v;
  do tag <- field (str "tag") (read_pointer (read_string [])) None o;
  do number <- field (str "tracknumber") (read_pointer (read_int 0 65535 0)) None o;
  do events <- field (str "events") (fun _ v => elements v) [] o;
  Ok (JTrack tag number events).

(** ops/assemble/json.go:77-111 [parseMThd] *)
Definition json_mthd (h : jheader) : outcome mthd :=
  match jh_tag h with
  | Some t =>
      if negb (bytes_eqb t (str "MThd")) then Err else
      match jh_format h with
      | Some f =>
          if negb ((f =? 0) || (f =? 1) || (f =? 2)) then Err else
          match jh_ppqn h with
          | Some d =>
              let fps := Z.shiftr (Z.land d 65280) 8 in
              if (Z.land d 32768 =? 32768) && negb ((fps =? 232) || (fps =? 231) || (fps =? 227) || (fps =? 226)) then Err
              else make_mthd f 0 d []
          | None => Err
          end
      | None => Err
      end
  | None => Err
  end.

(** ops/assemble/json.go:109-134 [parseMTrk] *)
Definition json_mtrk (env : env) (t : jtrack) : outcome (list event) :=
  match jt_tag t with
  | Some tag => if negb (bytes_eqb tag (str "MTrk")) then Err else do es <- each (unmarshal_json env) (jt_events t); fixups es
  | None => Err
  end.

(** ops/assemble/json.go:52-62: the loop over the tracks; [n] tracks so far *)
Fixpoint json_tracks (env : env) (n : Z) (ts : list jtrack) : outcome (list mtrk) :=
  match ts with
  | [] => Ok []
  | t :: r => do es <- json_mtrk env t; do ts' <- json_tracks env (n + 1) r; Ok (assembled_mtrk n es :: ts')
  end.

(** ops/assemble/json.go:34-75 [JSONAssembler.Assemble]; the number of tracks is a uint16. *)
Definition assemble_json (env : env) (v : json) : outcome bytes :=
  do o <- object v;
  do h <- field (str "header") read_header (JHeader None None None) o;
  do ts <- field (str "tracks") (fun _ v => do l <- elements v; each read_track l) [] o;
  do h <- json_mthd h;
  do ts <- json_tracks env 0 ts;
  encode (SMF (Some (MThd (h_tag h) (h_length h) (h_format h) (zlen ts mod 65536) (h_division h) (h_ppqn h) (h_smpte h) (h_subframes h) (h_fps h) (h_drop h) (h_bytes h))) ts).
