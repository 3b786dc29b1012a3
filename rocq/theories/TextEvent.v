(** * TextEvent: events from lines of text (midi/events/text.go and the UnmarshalText methods). *)
From Verif Require Import Base Strings Tables Event Hex Manufacturer Regex.

(** strconv.ParseUint(s, 10, bits) (Go standard library) *)
Definition decimal_value (s : bytes) : Z := fold_left (fun n c => n * 10 + (c - 48)) s 0.
Definition parse_uint (bits : Z) (s : bytes) : outcome Z :=
  match s with
  | [] => Err
  | _ => if forallb digit s then
           if decimal_value s <? 2 ^ bits then Ok (decimal_value s) else Err
         else Err
  end.

(** midi/lib/delta.go:15-21 [ParseDelta] *)
Definition parse_delta (s : bytes) : outcome Z := parse_uint 32 s.

(** midi/lib/channel.go:12-20 [ParseChannel] *)
Definition parse_channel (s : bytes) : outcome Z :=
  do c <- parse_uint 8 s; if 15 <? c then Err else Ok c.

(** midi/lib/note.go:16-24 [LookupNote] *)
Definition lookup_note (s : bytes) : outcome pitch :=
  match find (fun p => bytes_eqb (p_name p) s) lib_notes with Some p => Ok p | None => Err end.

(** [♯♭] *)
Definition accidental (s : bytes) : option bytes :=
  match strip (str "♯") s with Some r => Some r | None => strip (str "♭") s end.

(** [A-G] and (?i)[A-G] *)
Definition note_letter (c : Z) : bool := (65 <=? c) && (c <=? 71).
Definition note_letter_i (c : Z) : bool := note_letter (c) || ((97 <=? c) && (c <=? 103)).

(** midi/events/midi/note_on.go:228 *)
Definition note_re : re :=
  cat [Group (cat [cls note_letter; opt (One accidental)]); Group (cat [opt (cls (Z.eqb 45)); cls digit])].

(** strconv.ParseInt(s, 10, 8) of an optional minus sign and a digit *)
Definition parse_octave (s : bytes) : outcome Z :=
  match s with
  | 45 :: d => do n <- parse_uint 7 d; Ok (- n)
  | d => parse_uint 7 d
  end.

(** midi/events/midi/note_on.go:227-243 [ParseNote].  The octave is in -9..9, so [12*int8(octave+1)] does not overflow;
    the sum may, which [uint8] undoes: the value modulo 256. *)
Definition parse_note (s : bytes) : outcome note :=
  match rfind note_re s with
  | Some [name; octave] =>
      do p <- lookup_note name;
      do o <- parse_octave octave;
      let shown := p_name p ++ dec o in
      Ok (Note ((12 * (o + 1) + p_ord p) mod 256) shown shown)
  | _ => Err
  end.

(** (?i)delta:([0-9]+)(?:.*?)TAG followed by [rest] *)
Definition event_re (tag : bytes) (rest : list re) : re :=
  cat ([ilit (str "delta:"); Group (plus digit); Star false dot; ilit tag] ++ rest).

Definition number : re := Group (plus digit).                                   (* ([0-9]+) *)
Definition spaces_re : re := plus white.                                        (* \s+ *)
Definition channel_re : list re := [spaces_re; ilit (str "channel:"); number; spaces_re].   (* \s+channel:([0-9]+)\s+ *)
Definition note_field : re := Group (cat [cls note_letter_i; opt (One accidental); cls digit]).  (* ([A-G][♯♭]?[0-9]) *)
Definition rest_re : re := Group (star_of dot).                                 (* a group of any characters, greedy *)
Definition comma_re : list re := [Group (Star false dot); ilit (str ","); rest_re].         (* a group of any characters, lazy; a comma; the rest *)

(** Tag and what follows it: midi/events/meta/*.go, midi/events/midi/*.go, midi/events/sysex/*.go, UnmarshalText.
    The lines are those of the pattern. *)
Definition re_sequence_number := event_re (str "SequenceNumber") [spaces_re; number].          (* sequence_number.go:74 *)
Definition re_text (k : textkind) := event_re (text_tag k) [spaces_re; rest_re].               (* text.go:67, copyright.go:65, … *)
Definition re_channel_prefix := event_re (str "MIDIChannelPrefix") [spaces_re; number].        (* midi_channel_prefix.go:81 *)
Definition re_port := event_re (str "MIDIPort") [spaces_re; number].                           (* midi_port.go:83 *)
Definition re_tempo := event_re (str "Tempo") [spaces_re; ilit (str "tempo:"); number].        (* tempo.go:94 *)
Definition re_time_signature := event_re (str "TimeSignature")                                  (* time_signature.go:118 *)
  [spaces_re; number; ilit (str "/"); Group (cat [cls (fun c => (49 <=? c) && (c <=? 57)); star_of digit]); ilit (str ","); star_of white;
   ilit (str " "); number; ilit (str " ticks per click,"); star_of white;
   Group (cat [cls (fun c => (49 <=? c) && (c <=? 57)); star_of (fun c => (48 <=? c) && (c <=? 56))]); ilit (str "/32 per quarter")].
Definition re_key_signature := event_re (str "KeySignature")                                    (* key_signature.go:148 *)
  [spaces_re; Group (cat [cls note_letter_i; opt (One accidental)]); spaces_re; Group (Alt (ilit (str "major")) (ilit (str "minor")))].
Definition re_smpte_offset := event_re (str "SMPTEOffset")                                      (* smpte_offset.go:209 *)
  [spaces_re; number; spaces_re; number; spaces_re; number; spaces_re; number; spaces_re; number; spaces_re; number].
Definition re_end_of_track := event_re (str "EndOfTrack") [].                                   (* end_of_track.go:59 *)
Definition re_sequencer_specific := event_re (str "SequencerSpecificEvent") (spaces_re :: comma_re).  (* sequencer_specific.go:98 *)
Definition re_note (tag : bytes) := event_re tag                                                (* note_off.go:164, note_on.go:108 *)
  (channel_re ++ [ilit (str "note:"); note_field; ilit (str ","); star_of white; ilit (str "velocity:"); number]).
Definition re_pressure (tag : bytes) := event_re tag                                            (* polyphonic_pressure.go:86, channel_pressure.go:94 *)
  (channel_re ++ [ilit (str "pressure:"); number]).
Definition re_controller := event_re (str "Controller")                                         (* controller.go:90 *)
  (star_of dot :: channel_re ++ [number; opt (star_of dot); ilit (str "value:"); number]).
Definition re_program_change := event_re (str "ProgramChange")                                  (* program_change.go:85 *)
  (channel_re ++ [ilit (str "bank:"); number; ilit (str ","); star_of white; ilit (str "program:"); number]).
Definition re_pitch_bend := event_re (str "PitchBend") (channel_re ++ [ilit (str "bend:"); number]).  (* pitch_bend.go:93 *)
Definition re_sysex := event_re (str "SysExMessage") (spaces_re :: comma_re).                   (* message.go:125 *)
Definition re_continuation := event_re (str "SysExContinuation") [spaces_re; rest_re].          (* continuation_message.go:110 *)
Definition re_escape := event_re (str "SysExEscape") [spaces_re; rest_re].                      (* escape_message.go:73 *)

(** midi/events/meta/sequence_number.go:73-88 *)
Definition text_sequence_number (s : bytes) : outcome event :=
  match rfind re_sequence_number s with
  | Some [d; n] => do delta <- parse_delta d; do n <- parse_uint 16 n; Ok (make_sequence_number 0 delta n [])
  | _ => Err
  end.

(** midi/events/meta/text.go:66-79, copyright.go:64-77, cue_point.go:65-78, device_name.go:65-77, instrument_name.go:65-78,
    lyric.go:65-78, marker.go:65-78, program_name.go:65-77, track_name.go:82-94 *)
Definition text_text (k : textkind) (s : bytes) : outcome event :=
  match rfind (re_text k) s with
  | Some [d; t] => do delta <- parse_delta d; Ok (make_text k 0 delta t [])
  | _ => Err
  end.

(** midi/events/meta/midi_channel_prefix.go:80-96 *)
Definition text_channel_prefix (s : bytes) : outcome event :=
  match rfind re_channel_prefix s with
  | Some [d; c] => do delta <- parse_delta d; do c <- parse_uint 8 c; if 15 <? c then Err else make_channel_prefix 0 delta c []
  | _ => Err
  end.

(** midi/events/meta/midi_port.go:82-99 *)
Definition text_port (s : bytes) : outcome event :=
  match rfind re_port s with
  | Some [d; p] => do delta <- parse_delta d; do p <- parse_uint 8 p; if 127 <? p then Err else make_port 0 delta p []
  | _ => Err
  end.

(** midi/events/meta/tempo.go:93-107 *)
Definition text_tempo (s : bytes) : outcome event :=
  match rfind re_tempo s with
  | Some [d; t] => do delta <- parse_delta d; do t <- parse_uint 32 t; Ok (make_tempo 0 delta t [])
  | _ => Err
  end.

(** midi/events/meta/time_signature.go:117-138 *)
Definition text_time_signature (s : bytes) : outcome event :=
  match rfind re_time_signature s with
  | Some [d; n; m; t; b] =>
      do delta <- parse_delta d; do n <- parse_uint 8 n; do m <- parse_uint 8 m; do t <- parse_uint 8 t; do b <- parse_uint 8 b;
      make_time_signature 0 delta n m t b []
  | _ => Err
  end.

(** strings.ToLower (Go standard library) of a key name: only the ASCII letters change. *)
Definition to_lower (s : bytes) : bytes := map lower s.

(** midi/events/meta/key_signature.go:155-173: major scales, then minor scales; no scale of that name is C major. *)
Definition key_by_name (key : bytes) : Z * Z :=
  let major := match find (fun s => bytes_eqb (to_lower (s_name s)) key) MAJOR_SCALES with Some s => (s_acc s, s_type s) | None => (0, 0) end in
  match find (fun s => bytes_eqb (to_lower (s_name s)) key) MINOR_SCALES with Some s => (s_acc s, s_type s) | None => major end.

(** midi/events/meta/key_signature.go:147-179 *)
Definition text_key_signature (s : bytes) : outcome event :=
  match rfind re_key_signature s with
  | Some [d; n; m] =>
      do delta <- parse_delta d;
      let '(acc, kt) := key_by_name (to_lower (n ++ [32] ++ m)) in
      make_key_signature 0 delta acc kt []
  | _ => Err
  end.

(** midi/events/meta/smpte_offset.go:208-236 *)
Definition text_smpte_offset (s : bytes) : outcome event :=
  match rfind re_smpte_offset s with
  | Some [d; h; m; sec; rate; f; ff] =>
      do delta <- parse_delta d; do h <- parse_uint 8 h; do m <- parse_uint 8 m; do sec <- parse_uint 8 sec; do rate <- parse_uint 8 rate;
      do f <- parse_uint 8 f; do ff <- parse_uint 8 ff;
      if negb ((rate =? 24) || (rate =? 25) || (rate =? 29) || (rate =? 30)) then Err
      else if 100 <? ff then Err
      else make_smpte_offset 0 delta h m sec rate f ff []
  | _ => Err
  end.

(** midi/events/meta/end_of_track.go:58-70 *)
Definition text_end_of_track (s : bytes) : outcome event :=
  match rfind re_end_of_track s with
  | Some [d] => do delta <- parse_delta d; Ok (make_end_of_track 0 delta [])
  | _ => Err
  end.

(** midi/events/meta/sequencer_specific.go:90-124; [table]: the manufacturers in the order of the map iteration of FindManufacturer. *)
Definition text_sequencer_specific (table : list (bytes * manufacturer)) (s : bytes) : outcome event :=
  match rfind re_sequencer_specific s with
  | Some [d; m; data] =>
      do delta <- parse_delta d; do m <- find_manufacturer table m; do data <- parse_hex data; Ok (make_sequencer_specific 0 delta m data [])
  | _ => Err
  end.

(** midi/events/midi/note_off.go:157-188 *)
Definition text_note_off (s : bytes) : outcome event :=
  match rfind (re_note (str "NoteOff")) s with
  | Some [d; c; n; v] =>
      do delta <- parse_delta d; do c <- parse_channel c; do n <- parse_note n; do v <- parse_uint 8 v;
      if 127 <? v then Err else Ok (Event 0 delta [] (or_status 128 c) 0 (NoteOff c n v))
  | _ => Err
  end.

(** midi/events/midi/note_on.go:107-128 *)
Definition text_note_on (s : bytes) : outcome event :=
  match rfind (re_note (str "NoteOn")) s with
  | Some [d; c; n; v] =>
      do delta <- parse_delta d; do c <- parse_channel c; do n <- parse_note n; do v <- parse_uint 8 v;
      if 127 <? v then Err else make_note_on 0 delta c n v []
  | _ => Err
  end.

(** midi/events/midi/polyphonic_pressure.go:85-103 *)
Definition text_polyphonic_pressure (s : bytes) : outcome event :=
  match rfind (re_pressure (str "PolyphonicPressure")) s with
  | Some [d; c; p] =>
      do delta <- parse_delta d; do c <- parse_channel c; do p <- parse_uint 8 p;
      if 127 <? p then Err else make_polyphonic_pressure 0 delta c p []
  | _ => Err
  end.

(** midi/events/midi/controller.go:89-107 *)
Definition text_controller (s : bytes) : outcome event :=
  match rfind re_controller s with
  | Some [d; c; n; v] =>
      do delta <- parse_delta d; do c <- parse_channel c; do n <- parse_uint 8 n; do v <- parse_uint 8 v;
      make_controller 0 delta c (lookup_controller n) v []
  | _ => Err
  end.

(** midi/events/midi/program_change.go:84-102 *)
Definition text_program_change (s : bytes) : outcome event :=
  match rfind re_program_change s with
  | Some [d; c; b; p] =>
      do delta <- parse_delta d; do c <- parse_channel c; do b <- parse_uint 16 b; do p <- parse_uint 8 p;
      make_program_change 0 delta c b p []
  | _ => Err
  end.

(** midi/events/midi/channel_pressure.go:93-111 *)
Definition text_channel_pressure (s : bytes) : outcome event :=
  match rfind (re_pressure (str "ChannelPressure")) s with
  | Some [d; c; p] =>
      do delta <- parse_delta d; do c <- parse_channel c; do p <- parse_uint 8 p;
      if 127 <? p then Err else make_channel_pressure 0 delta c p []
  | _ => Err
  end.

(** midi/events/midi/pitch_bend.go:92-108 *)
Definition text_pitch_bend (s : bytes) : outcome event :=
  match rfind re_pitch_bend s with
  | Some [d; c; b] =>
      do delta <- parse_delta d; do c <- parse_channel c; do b <- parse_uint 16 b; make_pitch_bend 0 delta c b []
  | _ => Err
  end.

(** midi/events/sysex/message.go:118-143; Single stays false. *)
Definition text_sysex (table : list (bytes * manufacturer)) (s : bytes) : outcome event :=
  match rfind re_sysex s with
  | Some [d; m; data] =>
      do delta <- parse_delta d; do m <- find_manufacturer table m; do data <- parse_hex data; Ok (make_sysex 0 delta m data false [])
  | _ => Err
  end.

(** midi/events/sysex/continuation_message.go:109-123 *)
Definition text_continuation (s : bytes) : outcome event :=
  match rfind re_continuation s with
  | Some [d; data] => do delta <- parse_delta d; do data <- parse_hex data; Ok (make_continuation 0 delta data false [])
  | _ => Err
  end.

(** midi/events/sysex/escape_message.go:72-86 *)
Definition text_escape (s : bytes) : outcome event :=
  match rfind re_escape s with
  | Some [d; data] => do delta <- parse_delta d; do data <- parse_hex data; Ok (make_escape 0 delta data [])
  | _ => Err
  end.

(** midi/events/text.go:15-103: the cases of the switch in order: a tag that the line contains and the method then called *)
Definition text_cases (table : list (bytes * manufacturer)) : list (bytes * (bytes -> outcome event)) :=
  [(str "SequenceNumber", text_sequence_number);
   (str "Text", text_text KText); (str "Copyright", text_text KCopyright); (str "TrackName", text_text KTrackName);
   (str "InstrumentName", text_text KInstrumentName); (str "Lyric", text_text KLyric); (str "Marker", text_text KMarker);
   (str "CuePoint", text_text KCuePoint); (str "ProgramName", text_text KProgramName); (str "DeviceName", text_text KDeviceName);
   (str "MIDIChannelPrefix", text_channel_prefix); (str "MIDIPort", text_port); (str "Tempo", text_tempo);
   (str "TimeSignature", text_time_signature); (str "KeySignature", text_key_signature); (str "SMPTEOffset", text_smpte_offset);
   (str "EndOfTrack", text_end_of_track); (str "SequencerSpecificEvent", text_sequencer_specific table);
   (str "NoteOff", text_note_off); (str "NoteOn", text_note_on); (str "PolyphonicPressure", text_polyphonic_pressure);
   (str "Controller", text_controller); (str "ProgramChange", text_program_change); (str "ChannelPressure", text_channel_pressure);
   (str "PitchBend", text_pitch_bend); (str "SysExMessage", text_sysex table); (str "SysExContinuation", text_continuation);
   (str "SysExEscape", text_escape)].

(** midi/events/text.go:13-104 [Event.UnmarshalText] *)
Fixpoint first_case (cases : list (bytes * (bytes -> outcome event))) (s : bytes) : outcome event :=
  match cases with
  | [] => Err
  | (tag, f) :: r => if contains s tag then f s else first_case r s
  end.
Definition unmarshal_text (table : list (bytes * manufacturer)) (s : bytes) : outcome event := first_case (text_cases table) s.
