(** * ConformanceLib: the project's unit tests of package lib that Conformance.v leaves out, replayed on the model.

    The tests of MarshalJSON compare texts; here the expected text is read and compared with the tree of the value.  The SMPTE headers of
    midi/MThd_test.go, parsed hexadecimal texts and scales are in Conformance.v. *)
From Verif Require Import Base Strings Tables Event Hex Notes LibText Json JsonText Conf.

(** midi/lib/tag_test.go:8-50 [TestTagStringer]: the tags (midi/lib/tag.go:8-41) by their numbers, in the order of the test *)
Example test_tag_stringer :
  map tag_string [0; 1; 3; 8; 10; 5; 16; 6; 7; 11; 12; 9; 14; 13; 2; 15; 4; 17; 18; 19; 20; 21; 22; 23; 24; 25; 26; 27; 28] =
  map (fun s => Ok (str s)) [""; "SequenceNumber"; "Copyright"; "CuePoint"; "DeviceName"; "InstrumentName"; "KeySignature"; "Lyric"; "Marker"; "MIDIChannelPrefix"; "MIDIPort"; "ProgramName";
    "SMPTEOffset"; "Tempo"; "Text"; "TimeSignature"; "TrackName"; "EndOfTrack"; "SequencerSpecificEvent"; "ChannelPressure"; "Controller"; "NoteOff"; "NoteOn"; "PitchBend"; "PolyphonicPressure";
    "ProgramChange"; "SysExContinuation"; "SysExEscape"; "SysExMessage"]%string.
Proof. vm_compute. reflexivity. Qed.

(** midi/lib/tag_test.go:52-94 [TestTagUnmarshalText], for two orders of the map *)
Example test_tag_unmarshal_text :
  Forall (fun order => map (fun s => tag_unmarshal order (str s))
    ["Copyright"; "CuePoint"; "DeviceName"; "EndOfTrack"; "InstrumentName"; "KeySignature"; "Lyric"; "Marker"; "MIDIChannelPrefix"; "MIDIPort"; "ProgramName"; "SequenceNumber"; "SMPTEOffset";
     "Tempo"; "Text"; "TimeSignature"; "TrackName"; "ChannelPressure"; "Controller"; "NoteOff"; "NoteOn"; "PitchBend"; "PolyphonicPressure"; "ProgramChange"; "SysExContinuation"; "SysExEscape";
     "SysExMessage"]%string =
    map Ok [3; 8; 10; 17; 5; 16; 6; 7; 11; 12; 9; 1; 14; 13; 2; 15; 4; 19; 20; 21; 22; 23; 24; 25; 26; 27; 28]) [tag_names; rev tag_names].
Proof. repeat (apply Forall_cons; [vm_compute; reflexivity|]). apply Forall_nil. Qed.

(** midi/lib/channel_test.go:43-62 [TestChannelUnmarshalText] *)
Example test_channel_unmarshal_text :
  map (fun s => channel_unmarshal (str s)) ["channel:0"; "qwerty channel:12"; "channel:13 uiop"; "qwerty channel:15 uiop"]%string = [Ok 0; Ok 12; Ok 13; Ok 15].
Proof. vm_compute. reflexivity. Qed.

(** midi/lib/channel_test.go:64-79, 81-98 [TestChannelMarshalJSON], [TestChannelUnmarshalJSON] *)
Example test_channel_json : unmarshal_value (str "7") = Ok (JNum 7) /\ (do v <- unmarshal_value (str "7"); read_channel 0 v) = Ok 7.
Proof. vm_compute. split; reflexivity. Qed.

(** midi/lib/hex_test.go:43-59, 61-78 [TestHexMarshalJSON], [TestHexUnmarshalJSON] *)
Example test_hex_json :
  unmarshal_value (str "[126,0,9,254]") = Ok (jhex [126; 0; 9; 254]) /\ (do v <- unmarshal_value (str "[126,0,9,254]"); read_hex [] v) = Ok [126; 0; 9; 254].
Proof. vm_compute. split; reflexivity. Qed.

(** midi/lib/manufacturer_test.go:8-22, 24-39 [TestManufacturerMarshalJSON], [TestManufacturerUnmarshalJSON] *)
Example test_manufacturer_json :
  let text := str "{""id"":[0,0,59],""region"":""American"",""name"":""Mark Of The Unicorn (MOTU)""}" in
  let motu := Manufacturer [0; 0; 59] (str "American") (str "Mark Of The Unicorn (MOTU)") in
  unmarshal_value text = Ok (jmanufacturer_with jstring motu) /\ (do v <- unmarshal_value text; read_manufacturer default_env (Manufacturer [] [] []) v) = Ok motu.
Proof. vm_compute. split; reflexivity. Qed.

(** midi/events/events_test.go:10-36 [TestEventIs]; the kind of an event is the constructor of its body. *)
Example test_event_is : map (fun e => is_tempo (e_body e)) [make_end_of_track 0 480 [131; 96; 255; 47; 0]; make_tempo 0 480 500000 [131; 96; 255; 81; 3; 7; 161; 32]] = [false; true].
Proof. vm_compute. reflexivity. Qed.
