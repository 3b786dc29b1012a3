(** * LibText: texts of package lib and of two events that no command uses. *)
From Verif Require Import Base Strings Regex TextEvent Float.

(** midi/lib/tag.go:8-41: the tags as numbers, with the names of midi/lib/tag.go:43-74 [tags].  A map has no order. *)
Definition tag_names : list (Z * bytes) :=
  [(1, str "SequenceNumber"); (2, str "Text"); (3, str "Copyright"); (4, str "TrackName"); (5, str "InstrumentName"); (6, str "Lyric"); (7, str "Marker"); (8, str "CuePoint");
   (9, str "ProgramName"); (10, str "DeviceName"); (11, str "MIDIChannelPrefix"); (12, str "MIDIPort"); (13, str "Tempo"); (14, str "SMPTEOffset"); (15, str "TimeSignature");
   (16, str "KeySignature"); (17, str "EndOfTrack"); (18, str "SequencerSpecificEvent"); (19, str "ChannelPressure"); (20, str "Controller"); (21, str "NoteOff"); (22, str "NoteOn");
   (23, str "PitchBend"); (24, str "PolyphonicPressure"); (25, str "ProgramChange"); (28, str "SysExMessage"); (26, str "SysExContinuation"); (27, str "SysExEscape")].

(** midi/lib/tag.go:76-108 [Tag.String]: an element of a slice *)
Definition tag_strings : list bytes :=
  map str [""; "SequenceNumber"; "Text"; "Copyright"; "TrackName"; "InstrumentName"; "Lyric"; "Marker"; "CuePoint"; "ProgramName"; "DeviceName"; "MIDIChannelPrefix"; "MIDIPort"; "Tempo";
    "SMPTEOffset"; "TimeSignature"; "KeySignature"; "EndOfTrack"; "SequencerSpecificEvent"; "ChannelPressure"; "Controller"; "NoteOff"; "NoteOn"; "PitchBend"; "PolyphonicPressure";
    "ProgramChange"; "SysExContinuation"; "SysExEscape"; "SysExMessage"]%string.
Definition tag_string (t : Z) : outcome bytes :=
  if t <? 0 then Panic else match nth_error tag_strings (Z.to_nat t) with Some s => Ok s | None => Panic end.

(** midi/lib/tag.go:110-122 [Tag.UnmarshalText]; [order] is the order in which the map is iterated. *)
Definition tag_unmarshal (order : list (Z * bytes)) (text : bytes) : outcome Z :=
  match find (fun x => contains text (snd x)) order with Some x => Ok (fst x) | None => Err end.

(** midi/lib/channel.go:26-40 [Channel.UnmarshalText] *)
Definition channel_unmarshal (text : bytes) : outcome Z :=
  match rfind (cat [lit (str "channel:"); Group (plus digit)]) text with
  | Some [m] => do c <- parse_uint 8 m; if 15 <? c then Err else Ok c
  | _ => Err
  end.

(** midi/lib/middlec.go:15-17 [MiddleC.String], C3 and C4 as 0 and 1 (10-13) *)
Definition middle_c_string (c : Z) : outcome bytes := if c =? 0 then Ok (str "C3") else if c =? 1 then Ok (str "C4") else Panic.

(** midi/lib/middlec.go:19-32 [MiddleC.Set] *)
Definition middle_c_set (s : bytes) : outcome Z :=
  if bytes_eqb s (str "C3") || bytes_eqb s (str "c3") then Ok 0 else if bytes_eqb s (str "C4") || bytes_eqb s (str "c4") then Ok 1 else Err.

(** math.Round for v >= 0: the nearest integer, halves up *)
Definition round_up (v : Z * Z) : Z := (2 * numer v + denom v) / (2 * denom v).

(** midi/events/meta/tempo.go:48-52 [Tempo.String].  The tempo is a uint32; 0 is not modelled, Go does not say what the conversion of +Inf to uint gives. *)
Definition tempo_string (tempo : Z) : bytes := dec (round_up (round64 60000000 tempo)).

(** midi/events/meta/time_signature.go:63-65 [TimeSignature.String] *)
Definition time_signature_string (numerator denominator : Z) : bytes := dec numerator ++ str "/" ++ dec denominator.
