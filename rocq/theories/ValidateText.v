(** * ValidateText: the validation errors as text (midi/smf.go) and the warning of the commands *)
From Verif Require Import Base Strings Tables Vlq Event Parse Track File Validate.

(** midi/events/event.go:108-123 [Clean]: the Go type of the event without pointer and package; the types are declared in
    midi/events/meta, midi/events/midi and midi/events/sysex (one file each, [type … struct] at lines 11-13). *)
Definition clean (b : body) : bytes :=
  match b with
  | NoteOff _ _ _ => str "NoteOff" | NoteOn _ _ _ => str "NoteOn"
  | PolyphonicPressure _ _ => str "PolyphonicPressure" | Controller _ _ _ => str "Controller"
  | ProgramChange _ _ _ => str "ProgramChange" | ChannelPressure _ _ => str "ChannelPressure" | PitchBend _ _ => str "PitchBend"
  | SequenceNumber _ => str "SequenceNumber"
  | TextEvent KText _ => str "Text" | TextEvent KCopyright _ => str "Copyright" | TextEvent KTrackName _ => str "TrackName"
  | TextEvent KInstrumentName _ => str "InstrumentName" | TextEvent KLyric _ => str "Lyric" | TextEvent KMarker _ => str "Marker"
  | TextEvent KCuePoint _ => str "CuePoint" | TextEvent KProgramName _ => str "ProgramName" | TextEvent KDeviceName _ => str "DeviceName"
  | MIDIChannelPrefix _ => str "MIDIChannelPrefix" | MIDIPort _ => str "MIDIPort" | EndOfTrack => str "EndOfTrack"
  | Tempo _ => str "Tempo" | SMPTEOffset _ _ _ _ _ _ => str "SMPTEOffset" | TimeSignature _ _ _ _ => str "TimeSignature"
  | KeySignature _ _ _ => str "KeySignature" | SequencerSpecific _ _ => str "SequencerSpecificEvent"
  | SysExMessage _ _ _ => str "SysExMessage" | SysExContinuation _ _ => str "SysExContinuationMessage" | SysExEscape _ => str "SysExEscapeMessage"
  end.

(** midi/smf.go:34, 40, 60, 64, 68, 69, 83, 96, 104: the messages. The event named in the four messages about bank select is
    the Controller (lines 51-57), the one in the first is the EndOfTrack (line 31). *)
Definition message (v : verror) : bytes :=
  match v with
  | VTrackCount n => str "File contains " ++ dec n ++ str " tracks (expected 1 track for FORMAT 0)"
  | VTrack0Unexpected e => str "Track 0: unexpected event (" ++ clean (e_body e) ++ str ")"
  | VTrackUnexpected t e => str "Track " ++ dec t ++ str ": unexpected event (" ++ clean (e_body e) ++ str ")"
  | VEotNotLast t i e => str "Track " ++ dec t ++ str ": EndOfTrack @" ++ dec i ++ str " (" ++ clean (e_body e) ++ str ") is not last event"
  | VEotMissing t => str "Track " ++ dec t ++ str ": missing EndOfTrack event"
  | VMsbMissingLsb t i => str "Track " ++ dec t ++ str ": 'Bank Select MSB' event @" ++ dec i ++ str " missing LSB (Controller)"
  | VLsbMissingMsb t i => str "Track " ++ dec t ++ str ": 'Bank Select LSB' event @" ++ dec i ++ str " missing MSB (Controller)"
  | VMsbOtherChannel t i => str "Track " ++ dec t ++ str ": 'Bank Select MSB' event @" ++ dec i ++ str " LSB on another channel (Controller)"
  | VLsbOtherChannel t i => str "Track " ++ dec t ++ str ": 'Bank Select LSB' event @" ++ dec i ++ str " MSB on another channel (Controller)"
  end.

(** commands/disassemble.go:59-66, commands/notes.go:56-63, commands/export.go:53-60, commands/transpose.go:55-62,
    commands/click.go:52-59, commands/tsv.go:145-158, commands/humanise.go:85-98: what is written to stderr. *)
Definition validation_report (errs : list verror) : bytes :=
  match errs with
  | [] => []
  | _ => [10] ++ str "WARNING: there are validation errors:" ++ [10]
           ++ flat_map (fun v => str "         ** " ++ message v ++ [10]) errs ++ [10]
  end.

(** The same lines: the file is validated and the report is written. *)
Definition validation_warning (s : smf) : outcome bytes :=
  do errs <- validate s;
  Ok (validation_report errs).
