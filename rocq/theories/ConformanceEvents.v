(** * ConformanceEvents: the project's unit tests of the single events, replayed on the model (see Conformance.v).

    One Example per test function of midi/events/{meta,midi,sysex}/*_test.go, with its inputs and expected result.
    The tests call the methods of the event types (UnmarshalBinary, UnmarshalText, UnmarshalJSON); the model has the
    dispatchers above them (midi/events/binary.go, text.go, json.go), which come to these methods here.  Left out are
    the tests of [event.MarshalBinary] (midievent_test.go, sysex_test.go: not used by the program), the UnmarshalBinary
    of SysExEscape (not reachable from Event.UnmarshalBinary; its test is replayed in PropTyped.v) and one test that the project itself skips
    (TestParseNoteOffInMinorKey). *)
From Verif Require Import Base Strings Tables Event Parse Marshal Unmarshal TextEvent Json JsonText.

(** The tests of UnmarshalJSON: the text of an event object, as midi/events/json.go:13-76 hands it to the event. *)
Definition from_json (text : bytes) : outcome event :=
  do (v, _) <- read_text text; unmarshal_json default_env (JObj [(str "event", v)]).

(** midi/events/meta/metaevent_test.go:87-96, midi/events/midi/midievent_test.go:34-44,
    midi/events/sysex/sysex_test.go:33-43 [testMarshalJSON]: the text is that of the fields of the event. *)
Definition to_json (text : bytes) (e : event) : Prop := read_text text = Ok (JObj (event_fields e), []).

(** midi/events/meta/copyright_test.go:10-33 [TestUnmarshalCopyright] *)
Example test_unmarshal_copyright :
  unmarshal_meta default_env 2400 480 2 [84; 104; 101; 109] [0; 255; 2; 4; 84; 104; 101; 109]
  = Ok (Event 2400 480 [0; 255; 2; 4; 84; 104; 101; 109] 255 2 (TextEvent KCopyright (str "Them"))).
Proof. vm_compute. reflexivity. Qed.

(** midi/events/meta/copyright_test.go:35-58 [TestCopyrightMarshalBinary] *)
Example test_copyright_marshal_binary :
  marshal (Event 2400 480 [] 255 2 (TextEvent KCopyright (str "Them")))
  = Ok [255; 2; 4; 84; 104; 101; 109].
Proof. vm_compute. reflexivity. Qed.

(** midi/events/meta/copyright_test.go:60-84 [TestCopyrightUnmarshalBinary] *)
Example test_copyright_unmarshal_binary :
  event_unmarshal default_env [131; 96; 255; 2; 4; 84; 104; 101; 109]
  = Ok (Event 0 480 [131; 96; 255; 2; 4; 84; 104; 101; 109] 255 2 (TextEvent KCopyright (str "Them"))).
Proof. vm_compute. reflexivity. Qed.

(** midi/events/meta/copyright_test.go:86-110 [TestCopyrightUnmarshalText] *)
Example test_copyright_unmarshal_text :
  unmarshal_text manufacturers (str "      00 FF 02 04 54 68 65 6D               tick:0          delta:480        02 Copyright              Them")
  = Ok (Event 0 480 [] 255 2 (TextEvent KCopyright (str "Them"))).
Proof. vm_compute. reflexivity. Qed.

(** midi/events/meta/copyright_test.go:112-137 [TestCopyrightMarshalJSON] *)
Example test_copyright_marshal_json :
  to_json (str "{""tag"":""Copyright"",""delta"":480,""status"":255,""type"":2,""copyright"":""Them""}") (Event 2400 480 [] 255 2 (TextEvent KCopyright (str "Them"))).
Proof. vm_compute. reflexivity. Qed.

(** midi/events/meta/copyright_test.go:139-164 [TestCopyrightUnmarshalJSON] *)
Example test_copyright_unmarshal_json :
  from_json (str "{""tag"":""Copyright"",""delta"":480,""status"":255,""type"":2,""copyright"":""Them""}")
  = Ok (Event 0 480 [] 255 2 (TextEvent KCopyright (str "Them"))).
Proof. vm_compute. reflexivity. Qed.

(** midi/events/meta/cue_point_test.go:10-33 [TestUnmarshalCuePoint] *)
Example test_unmarshal_cue_point :
  unmarshal_meta default_env 2400 480 7 [77; 111; 114; 101; 32; 99; 111; 119; 98; 101; 108; 108] [0; 255; 7; 12; 77; 111; 114; 101; 32; 99; 111; 119; 98; 101; 108; 108]
  = Ok (Event 2400 480 [0; 255; 7; 12; 77; 111; 114; 101; 32; 99; 111; 119; 98; 101; 108; 108] 255 7 (TextEvent KCuePoint (str "More cowbell"))).
Proof. vm_compute. reflexivity. Qed.

(** midi/events/meta/cue_point_test.go:35-58 [TestCuePointMarshalBinary] *)
Example test_cue_point_marshal_binary :
  marshal (Event 2400 480 [] 255 7 (TextEvent KCuePoint (str "More cowbell")))
  = Ok [255; 7; 12; 77; 111; 114; 101; 32; 99; 111; 119; 98; 101; 108; 108].
Proof. vm_compute. reflexivity. Qed.

(** midi/events/meta/cue_point_test.go:60-84 [TestCuePointUnmarshalBinary] *)
Example test_cue_point_unmarshal_binary :
  event_unmarshal default_env [131; 96; 255; 7; 12; 77; 111; 114; 101; 32; 99; 111; 119; 98; 101; 108; 108]
  = Ok (Event 0 480 [131; 96; 255; 7; 12; 77; 111; 114; 101; 32; 99; 111; 119; 98; 101; 108; 108] 255 7 (TextEvent KCuePoint (str "More cowbell"))).
Proof. vm_compute. reflexivity. Qed.

(** midi/events/meta/cue_point_test.go:86-110 [TestCuePointUnmarshalText] *)
Example test_cue_point_unmarshal_text :
  unmarshal_text manufacturers (str "      00 FF 07 0C 4D 6F 72 65 20 63 6F 77…  tick:0          delta:480        07 CuePoint               More cowbell")
  = Ok (Event 0 480 [] 255 7 (TextEvent KCuePoint (str "More cowbell"))).
Proof. vm_compute. reflexivity. Qed.

(** midi/events/meta/cue_point_test.go:112-128 [TestCuePointMarshalJSON] *)
Example test_cue_point_marshal_json :
  to_json (str "{""tag"":""CuePoint"",""delta"":480,""status"":255,""type"":7,""cuepoint"":""More cowbell""}") (Event 2400 480 [] 255 7 (TextEvent KCuePoint (str "More cowbell"))).
Proof. vm_compute. reflexivity. Qed.

(** midi/events/meta/cue_point_test.go:130-154 [TestCuePointNameUnmarshalJSON] *)
Example test_cue_point_name_unmarshal_json :
  from_json (str "{""tag"":""CuePoint"",""delta"":480,""status"":255,""type"":7,""cuepoint"":""More cowbell""}")
  = Ok (Event 0 480 [] 255 7 (TextEvent KCuePoint (str "More cowbell"))).
Proof. vm_compute. reflexivity. Qed.

(** midi/events/meta/device_name_test.go:10-33 [TestUnmarshalDeviceName] *)
Example test_unmarshal_device_name :
  unmarshal_meta default_env 2400 480 9 [84; 104; 101; 84; 104; 105; 110; 103] [0; 255; 9; 8; 84; 104; 101; 84; 104; 105; 110; 103]
  = Ok (Event 2400 480 [0; 255; 9; 8; 84; 104; 101; 84; 104; 105; 110; 103] 255 9 (TextEvent KDeviceName (str "TheThing"))).
Proof. vm_compute. reflexivity. Qed.

(** midi/events/meta/device_name_test.go:35-58 [TestDeviceNameMarshalBinary] *)
Example test_device_name_marshal_binary :
  marshal (Event 2400 480 [] 255 9 (TextEvent KDeviceName (str "TheThing")))
  = Ok [255; 9; 8; 84; 104; 101; 84; 104; 105; 110; 103].
Proof. vm_compute. reflexivity. Qed.

(** midi/events/meta/device_name_test.go:60-84 [TestDeviceNameUnmarshalBinary] *)
Example test_device_name_unmarshal_binary :
  event_unmarshal default_env [131; 96; 255; 9; 8; 84; 104; 101; 84; 104; 105; 110; 103]
  = Ok (Event 0 480 [131; 96; 255; 9; 8; 84; 104; 101; 84; 104; 105; 110; 103] 255 9 (TextEvent KDeviceName (str "TheThing"))).
Proof. vm_compute. reflexivity. Qed.

(** midi/events/meta/device_name_test.go:86-110 [TestDeviceNameUnmarshalText] *)
Example test_device_name_unmarshal_text :
  unmarshal_text manufacturers (str "      00 FF 09 08 54 68 65 54 68 69 6E 67   tick:0          delta:480        09 DeviceName             TheThing")
  = Ok (Event 0 480 [] 255 9 (TextEvent KDeviceName (str "TheThing"))).
Proof. vm_compute. reflexivity. Qed.

(** midi/events/meta/device_name_test.go:112-128 [TestDeviceNameMarshalJSON] *)
Example test_device_name_marshal_json :
  to_json (str "{""tag"":""DeviceName"",""delta"":480,""status"":255,""type"":9,""name"":""TheThing""}") (Event 2400 480 [] 255 9 (TextEvent KDeviceName (str "TheThing"))).
Proof. vm_compute. reflexivity. Qed.

(** midi/events/meta/device_name_test.go:130-154 [TestDeviceNameNameUnmarshalJSON] *)
Example test_device_name_name_unmarshal_json :
  from_json (str "{""tag"":""DeviceName"",""delta"":480,""status"":255,""type"":9,""name"":""TheThing""}")
  = Ok (Event 0 480 [] 255 9 (TextEvent KDeviceName (str "TheThing"))).
Proof. vm_compute. reflexivity. Qed.

(** midi/events/meta/end_of_track_test.go:10-33 [TestUnmarshalEndOfTrack] *)
Example test_unmarshal_end_of_track :
  unmarshal_meta default_env 2400 480 47 [] [255; 47; 0]
  = Ok (Event 2400 480 [255; 47; 0] 255 47 (EndOfTrack)).
Proof. vm_compute. reflexivity. Qed.

(** midi/events/meta/end_of_track_test.go:35-57 [TestEndOfTrackMarshalBinary] *)
Example test_end_of_track_marshal_binary :
  marshal (Event 2400 0 [] 255 47 (EndOfTrack))
  = Ok [255; 47; 0].
Proof. vm_compute. reflexivity. Qed.

(** midi/events/meta/end_of_track_test.go:59-82 [TestEndOfTrackUnmarshalBinary] *)
Example test_end_of_track_unmarshal_binary :
  event_unmarshal default_env [131; 96; 255; 47; 0]
  = Ok (Event 0 480 [131; 96; 255; 47; 0] 255 47 (EndOfTrack)).
Proof. vm_compute. reflexivity. Qed.

(** midi/events/meta/end_of_track_test.go:84-107 [TestEndOfTrackUnmarshalText] *)
Example test_end_of_track_unmarshal_text :
  unmarshal_text manufacturers (str "      00 FF 2F 00                           tick:0          delta:480        2F EndOfTrack")
  = Ok (Event 0 480 [] 255 47 (EndOfTrack)).
Proof. vm_compute. reflexivity. Qed.

(** midi/events/meta/end_of_track_test.go:109-131 [TestEndOfTrackMarshalJSON] *)
Example test_end_of_track_marshal_json :
  to_json (str "{""tag"":""EndOfTrack"",""delta"":0,""status"":255,""type"":47}") (Event 2400 0 [] 255 47 (EndOfTrack)).
Proof. vm_compute. reflexivity. Qed.

(** midi/events/meta/end_of_track_test.go:133-155 [TestEndOfTrackUnmarshalJSON] *)
Example test_end_of_track_unmarshal_json :
  from_json (str "{""tag"":""EndOfTrack"",""delta"":480,""status"":255,""type"":47}")
  = Ok (Event 0 480 [] 255 47 (EndOfTrack)).
Proof. vm_compute. reflexivity. Qed.

(** midi/events/meta/instrument_name_test.go:10-33 [TestUnmarshalInstrumentName] *)
Example test_unmarshal_instrument_name :
  unmarshal_meta default_env 2400 480 4 [68; 105; 100; 103; 101; 114; 105; 100; 111; 111] [0; 255; 4; 10; 68; 105; 100; 103; 101; 114; 105; 100; 111; 111]
  = Ok (Event 2400 480 [0; 255; 4; 10; 68; 105; 100; 103; 101; 114; 105; 100; 111; 111] 255 4 (TextEvent KInstrumentName (str "Didgeridoo"))).
Proof. vm_compute. reflexivity. Qed.

(** midi/events/meta/instrument_name_test.go:35-58 [TestInstrumentNameMarshalBinary] *)
Example test_instrument_name_marshal_binary :
  marshal (Event 2400 480 [] 255 4 (TextEvent KInstrumentName (str "Didgeridoo")))
  = Ok [255; 4; 10; 68; 105; 100; 103; 101; 114; 105; 100; 111; 111].
Proof. vm_compute. reflexivity. Qed.

(** midi/events/meta/instrument_name_test.go:60-84 [TestInstrumentnameUnmarshalBinary] *)
Example test_instrumentname_unmarshal_binary :
  event_unmarshal default_env [131; 96; 255; 4; 10; 68; 105; 100; 103; 101; 114; 105; 100; 111; 111]
  = Ok (Event 0 480 [131; 96; 255; 4; 10; 68; 105; 100; 103; 101; 114; 105; 100; 111; 111] 255 4 (TextEvent KInstrumentName (str "Didgeridoo"))).
Proof. vm_compute. reflexivity. Qed.

(** midi/events/meta/instrument_name_test.go:86-110 [TestTextUnmarshalInstrumentName] *)
Example test_text_unmarshal_instrument_name :
  unmarshal_text manufacturers (str "      00 FF 04 0A 44 69 64 67 65 72 69 64…  tick:0          delta:480        04 InstrumentName         Didgeridoo")
  = Ok (Event 0 480 [] 255 4 (TextEvent KInstrumentName (str "Didgeridoo"))).
Proof. vm_compute. reflexivity. Qed.

(** midi/events/meta/instrument_name_test.go:112-128 [TestInstrumentNameMarshalJSON] *)
Example test_instrument_name_marshal_json :
  to_json (str "{""tag"":""InstrumentName"",""delta"":480,""status"":255,""type"":4,""name"":""Didgeridoo""}") (Event 2400 480 [] 255 4 (TextEvent KInstrumentName (str "Didgeridoo"))).
Proof. vm_compute. reflexivity. Qed.

(** midi/events/meta/instrument_name_test.go:130-154 [TestInstrumentNameUnmarshalJSON] *)
Example test_instrument_name_unmarshal_json :
  from_json (str "{""tag"":""InstrumentName"",""delta"":480,""status"":255,""type"":4,""name"":""Didgeridoo""}")
  = Ok (Event 0 480 [] 255 4 (TextEvent KInstrumentName (str "Didgeridoo"))).
Proof. vm_compute. reflexivity. Qed.

(** midi/events/meta/key_signature_test.go:10-35 [TestUnmarshalCMajorKeySignature] *)
Example test_unmarshal_c_major_key_signature :
  unmarshal_meta default_env 2400 480 89 [0; 0] [255; 89; 2; 0; 0]
  = Ok (Event 2400 480 [255; 89; 2; 0; 0] 255 89 (KeySignature 0 0 (str "C major"))).
Proof. vm_compute. reflexivity. Qed.

(** midi/events/meta/key_signature_test.go:37-62 [TestUnmarshalCMinorKeySignature] *)
Example test_unmarshal_c_minor_key_signature :
  unmarshal_meta default_env 2400 480 89 [253; 1] [255; 89; 2; 253; 1]
  = Ok (Event 2400 480 [255; 89; 2; 253; 1] 255 89 (KeySignature (-3) 1 (str "C minor"))).
Proof. vm_compute. reflexivity. Qed.

(** midi/events/meta/key_signature_test.go:64-89 [TestKeySignatureMarshalBinary] *)
Example test_key_signature_marshal_binary :
  marshal (Event 2400 480 [] 255 89 (KeySignature (-3) 1 (str "C minor")))
  = Ok [255; 89; 2; 253; 1].
Proof. vm_compute. reflexivity. Qed.

(** midi/events/meta/key_signature_test.go:91-117 [TestKeySignatureUnmarshalBinary] *)
Example test_key_signature_unmarshal_binary :
  event_unmarshal default_env [131; 96; 255; 89; 2; 253; 1]
  = Ok (Event 0 480 [131; 96; 255; 89; 2; 253; 1] 255 89 (KeySignature (-3) 1 (str "C minor"))).
Proof. vm_compute. reflexivity. Qed.

(** midi/events/meta/key_signature_test.go:119-145 [TestKeySignatureUnmarshalText] *)
Example test_key_signature_unmarshal_text :
  unmarshal_text manufacturers (str "      00 FF 59 02 00 01                     tick:0          delta:480        59 KeySignature           B minor")
  = Ok (Event 0 480 [] 255 89 (KeySignature 2 1 (str "B minor"))).
Proof. vm_compute. reflexivity. Qed.

(** midi/events/meta/key_signature_test.go:147-165 [TestKeySignatureMarshalJSON] *)
Example test_key_signature_marshal_json :
  to_json (str "{""tag"":""KeySignature"",""delta"":480,""status"":255,""type"":89,""accidentals"":-3,""key-type"":1,""key"":""C minor""}") (Event 2400 480 [] 255 89 (KeySignature (-3) 1 (str "C minor"))).
Proof. vm_compute. reflexivity. Qed.

(** midi/events/meta/key_signature_test.go:167-193 [TestKeySignatureNameUnmarshalJSON] *)
Example test_key_signature_name_unmarshal_json :
  from_json (str "{""tag"":""KeySignature"",""delta"":480,""status"":255,""type"":89,""accidentals"":-3,""key-type"":1,""key"":""C minor""}")
  = Ok (Event 0 480 [] 255 89 (KeySignature (-3) 1 (str "C minor"))).
Proof. vm_compute. reflexivity. Qed.

(** midi/events/meta/lyric_test.go:10-33 [TestUnmarshalLyric] *)
Example test_unmarshal_lyric :
  unmarshal_meta default_env 2400 480 5 [76; 97; 45; 108; 97; 45; 108; 97] [0; 255; 5; 8; 76; 97; 45; 108; 97; 45; 108; 97]
  = Ok (Event 2400 480 [0; 255; 5; 8; 76; 97; 45; 108; 97; 45; 108; 97] 255 5 (TextEvent KLyric (str "La-la-la"))).
Proof. vm_compute. reflexivity. Qed.

(** midi/events/meta/lyric_test.go:35-58 [TestLyricMarshalBinary] *)
Example test_lyric_marshal_binary :
  marshal (Event 2400 480 [] 255 5 (TextEvent KLyric (str "La-la-la")))
  = Ok [255; 5; 8; 76; 97; 45; 108; 97; 45; 108; 97].
Proof. vm_compute. reflexivity. Qed.

(** midi/events/meta/lyric_test.go:60-84 [TestLyricUnmarshalBinary] *)
Example test_lyric_unmarshal_binary :
  event_unmarshal default_env [131; 96; 255; 5; 8; 76; 97; 45; 108; 97; 45; 108; 97]
  = Ok (Event 0 480 [131; 96; 255; 5; 8; 76; 97; 45; 108; 97; 45; 108; 97] 255 5 (TextEvent KLyric (str "La-la-la"))).
Proof. vm_compute. reflexivity. Qed.

(** midi/events/meta/lyric_test.go:86-110 [TestLyricUnmarshalText] *)
Example test_lyric_unmarshal_text :
  unmarshal_text manufacturers (str "      00 FF 05 08 4C 61 2D 6C 61 2D 6C 61   tick:0          delta:480        05 Lyric                  La-la-la")
  = Ok (Event 0 480 [] 255 5 (TextEvent KLyric (str "La-la-la"))).
Proof. vm_compute. reflexivity. Qed.

(** midi/events/meta/lyric_test.go:112-128 [TestLyricMarshalJSON] *)
Example test_lyric_marshal_json :
  to_json (str "{""tag"":""Lyric"",""delta"":480,""status"":255,""type"":5,""lyric"":""La-la-la""}") (Event 2400 480 [] 255 5 (TextEvent KLyric (str "La-la-la"))).
Proof. vm_compute. reflexivity. Qed.

(** midi/events/meta/lyric_test.go:130-154 [TestLyricNameUnmarshalJSON] *)
Example test_lyric_name_unmarshal_json :
  from_json (str "{""tag"":""Lyric"",""delta"":480,""status"":255,""type"":5,""lyric"":""La-la-la""}")
  = Ok (Event 0 480 [] 255 5 (TextEvent KLyric (str "La-la-la"))).
Proof. vm_compute. reflexivity. Qed.

(** midi/events/meta/marker_test.go:10-33 [TestUnmarshalMarker] *)
Example test_unmarshal_marker :
  unmarshal_meta default_env 2400 480 6 [72; 101; 114; 101; 32; 66; 101; 32; 68; 114; 97; 103; 111; 110; 115] [0; 255; 6; 15; 72; 101; 114; 101; 32; 66; 101; 32; 68; 114; 97; 103; 111; 110; 115]
  = Ok (Event 2400 480 [0; 255; 6; 15; 72; 101; 114; 101; 32; 66; 101; 32; 68; 114; 97; 103; 111; 110; 115] 255 6 (TextEvent KMarker (str "Here Be Dragons"))).
Proof. vm_compute. reflexivity. Qed.

(** midi/events/meta/marker_test.go:35-58 [TestMarkerMarshalBinary] *)
Example test_marker_marshal_binary :
  marshal (Event 2400 480 [] 255 6 (TextEvent KMarker (str "Here Be Dragons")))
  = Ok [255; 6; 15; 72; 101; 114; 101; 32; 66; 101; 32; 68; 114; 97; 103; 111; 110; 115].
Proof. vm_compute. reflexivity. Qed.

(** midi/events/meta/marker_test.go:60-84 [TestMarkerUnmarshalBinary] *)
Example test_marker_unmarshal_binary :
  event_unmarshal default_env [131; 96; 255; 6; 15; 72; 101; 114; 101; 32; 66; 101; 32; 68; 114; 97; 103; 111; 110; 115]
  = Ok (Event 0 480 [131; 96; 255; 6; 15; 72; 101; 114; 101; 32; 66; 101; 32; 68; 114; 97; 103; 111; 110; 115] 255 6 (TextEvent KMarker (str "Here Be Dragons"))).
Proof. vm_compute. reflexivity. Qed.

(** midi/events/meta/marker_test.go:86-110 [TestMarkerUnmarshalText] *)
Example test_marker_unmarshal_text :
  unmarshal_text manufacturers (str "      00 FF 06 0F 48 65 72 65 20 42 65 20…  tick:0          delta:480        06 Marker                 Here Be Dragons")
  = Ok (Event 0 480 [] 255 6 (TextEvent KMarker (str "Here Be Dragons"))).
Proof. vm_compute. reflexivity. Qed.

(** midi/events/meta/marker_test.go:112-128 [TestMarkerMarshalJSON] *)
Example test_marker_marshal_json :
  to_json (str "{""tag"":""Marker"",""delta"":480,""status"":255,""type"":6,""marker"":""Here Be Dragons""}") (Event 2400 480 [] 255 6 (TextEvent KMarker (str "Here Be Dragons"))).
Proof. vm_compute. reflexivity. Qed.

(** midi/events/meta/marker_test.go:130-154 [TestMarkerNameUnmarshalJSON] *)
Example test_marker_name_unmarshal_json :
  from_json (str "{""tag"":""Marker"",""delta"":480,""status"":255,""type"":6,""marker"":""Here Be Dragons""}")
  = Ok (Event 0 480 [] 255 6 (TextEvent KMarker (str "Here Be Dragons"))).
Proof. vm_compute. reflexivity. Qed.

(** midi/events/meta/metaevent_test.go:29-56 [TestParseCMajorKeySignature] *)
Example test_parse_c_major_key_signature :
  meta_parse default_env 2400 [131; 96; 255; 89; 2; 0; 0]
  = Ok (Event 2400 480 [131; 96; 255; 89; 2; 0; 0] 255 89 (KeySignature 0 0 (str "C major"))).
Proof. vm_compute. reflexivity. Qed.

(** midi/events/meta/metaevent_test.go:58-85 [TestParseCMinorKeySignature] *)
Example test_parse_c_minor_key_signature :
  meta_parse default_env 2400 [131; 96; 255; 89; 2; 253; 1]
  = Ok (Event 2400 480 [131; 96; 255; 89; 2; 253; 1] 255 89 (KeySignature (-3) 1 (str "C minor"))).
Proof. vm_compute. reflexivity. Qed.

(** midi/events/meta/midi_channel_prefix_test.go:10-33 [TestUnmarshalMIDIChannelPrefix] *)
Example test_unmarshal_midi_channel_prefix :
  unmarshal_meta default_env 2400 480 32 [13] [0; 255; 32; 1; 13]
  = Ok (Event 2400 480 [0; 255; 32; 1; 13] 255 32 (MIDIChannelPrefix 13)).
Proof. vm_compute. reflexivity. Qed.

(** midi/events/meta/midi_channel_prefix_test.go:35-58 [TestMIDIChannelPrefixMarshalBinary] *)
Example test_midi_channel_prefix_marshal_binary :
  marshal (Event 2400 480 [] 255 32 (MIDIChannelPrefix 13))
  = Ok [255; 32; 1; 13].
Proof. vm_compute. reflexivity. Qed.

(** midi/events/meta/midi_channel_prefix_test.go:60-84 [TestMIDIChannelPrefixUnmarshalBinary] *)
Example test_midi_channel_prefix_unmarshal_binary :
  event_unmarshal default_env [131; 96; 255; 32; 1; 13]
  = Ok (Event 0 480 [131; 96; 255; 32; 1; 13] 255 32 (MIDIChannelPrefix 13)).
Proof. vm_compute. reflexivity. Qed.

(** midi/events/meta/midi_channel_prefix_test.go:86-110 [TestMIDIChannelPrefixUnmarshalText] *)
Example test_midi_channel_prefix_unmarshal_text :
  unmarshal_text manufacturers (str "      00 FF 20 01 0D                        tick:0          delta:480        20 MIDIChannelPrefix      13")
  = Ok (Event 0 480 [] 255 32 (MIDIChannelPrefix 13)).
Proof. vm_compute. reflexivity. Qed.

(** midi/events/meta/midi_channel_prefix_test.go:112-128 [TestMIDIChannelPrefixMarshalJSON] *)
Example test_midi_channel_prefix_marshal_json :
  to_json (str "{""tag"":""MIDIChannelPrefix"",""delta"":480,""status"":255,""type"":32,""channel"":13}") (Event 2400 480 [] 255 32 (MIDIChannelPrefix 13)).
Proof. vm_compute. reflexivity. Qed.

(** midi/events/meta/midi_channel_prefix_test.go:130-154 [TestMIDIChannelPrefixNameUnmarshalJSON] *)
Example test_midi_channel_prefix_name_unmarshal_json :
  from_json (str "{""tag"":""MIDIChannelPrefix"",""delta"":480,""status"":255,""type"":32,""channel"":13}")
  = Ok (Event 0 480 [] 255 32 (MIDIChannelPrefix 13)).
Proof. vm_compute. reflexivity. Qed.

(** midi/events/meta/midi_port_test.go:10-33 [TestUnmarshalMIDIPort] *)
Example test_unmarshal_midi_port :
  unmarshal_meta default_env 2400 480 33 [112] [0; 255; 33; 1; 112]
  = Ok (Event 2400 480 [0; 255; 33; 1; 112] 255 33 (MIDIPort 112)).
Proof. vm_compute. reflexivity. Qed.

(** midi/events/meta/midi_port_test.go:35-58 [TestMIDIPortMarshalBinary] *)
Example test_midi_port_marshal_binary :
  marshal (Event 2400 480 [] 255 33 (MIDIPort 112))
  = Ok [255; 33; 1; 112].
Proof. vm_compute. reflexivity. Qed.

(** midi/events/meta/midi_port_test.go:60-84 [TestMIDIPortUnmarshalBinary] *)
Example test_midi_port_unmarshal_binary :
  event_unmarshal default_env [131; 96; 255; 33; 1; 112]
  = Ok (Event 0 480 [131; 96; 255; 33; 1; 112] 255 33 (MIDIPort 112)).
Proof. vm_compute. reflexivity. Qed.

(** midi/events/meta/midi_port_test.go:86-110 [TestMIDIPortUnmarshalText] *)
Example test_midi_port_unmarshal_text :
  unmarshal_text manufacturers (str "      00 FF 21 01 70                        tick:0          delta:480        21 MIDIPort               112")
  = Ok (Event 0 480 [] 255 33 (MIDIPort 112)).
Proof. vm_compute. reflexivity. Qed.

(** midi/events/meta/midi_port_test.go:112-128 [TestMIDIPortMarshalJSON] *)
Example test_midi_port_marshal_json :
  to_json (str "{""tag"":""MIDIPort"",""delta"":480,""status"":255,""type"":33,""port"":112}") (Event 2400 480 [] 255 33 (MIDIPort 112)).
Proof. vm_compute. reflexivity. Qed.

(** midi/events/meta/midi_port_test.go:130-154 [TestMIDIPortNameUnmarshalJSON] *)
Example test_midi_port_name_unmarshal_json :
  from_json (str "{""tag"":""MIDIPort"",""delta"":480,""status"":255,""type"":33,""port"":112}")
  = Ok (Event 0 480 [] 255 33 (MIDIPort 112)).
Proof. vm_compute. reflexivity. Qed.

(** midi/events/meta/program_name_test.go:10-33 [TestUnmarshalProgramName] *)
Example test_unmarshal_program_name :
  unmarshal_meta default_env 2400 480 8 [69; 115; 99; 97; 112; 101] [0; 255; 8; 6; 69; 115; 99; 97; 112; 101]
  = Ok (Event 2400 480 [0; 255; 8; 6; 69; 115; 99; 97; 112; 101] 255 8 (TextEvent KProgramName (str "Escape"))).
Proof. vm_compute. reflexivity. Qed.

(** midi/events/meta/program_name_test.go:35-58 [TestProgramNameMarshalBinary] *)
Example test_program_name_marshal_binary :
  marshal (Event 2400 480 [] 255 8 (TextEvent KProgramName (str "Escape")))
  = Ok [255; 8; 6; 69; 115; 99; 97; 112; 101].
Proof. vm_compute. reflexivity. Qed.

(** midi/events/meta/program_name_test.go:60-84 [TestProgramNameUnmarshalBinary] *)
Example test_program_name_unmarshal_binary :
  event_unmarshal default_env [131; 96; 255; 8; 6; 69; 115; 99; 97; 112; 101]
  = Ok (Event 0 480 [131; 96; 255; 8; 6; 69; 115; 99; 97; 112; 101] 255 8 (TextEvent KProgramName (str "Escape"))).
Proof. vm_compute. reflexivity. Qed.

(** midi/events/meta/program_name_test.go:86-110 [TestProgramNameUnmarshalText] *)
Example test_program_name_unmarshal_text :
  unmarshal_text manufacturers (str "      00 FF 08 06 45 73 63 61 70 65         tick:0          delta:480        08 ProgramName            Escape")
  = Ok (Event 0 480 [] 255 8 (TextEvent KProgramName (str "Escape"))).
Proof. vm_compute. reflexivity. Qed.

(** midi/events/meta/program_name_test.go:112-128 [TestProgramNameMarshalJSON] *)
Example test_program_name_marshal_json :
  to_json (str "{""tag"":""ProgramName"",""delta"":480,""status"":255,""type"":8,""name"":""Escape""}") (Event 2400 480 [] 255 8 (TextEvent KProgramName (str "Escape"))).
Proof. vm_compute. reflexivity. Qed.

(** midi/events/meta/program_name_test.go:130-154 [TestProgramNameNameUnmarshalJSON] *)
Example test_program_name_name_unmarshal_json :
  from_json (str "{""tag"":""ProgramName"",""delta"":480,""status"":255,""type"":8,""name"":""Escape""}")
  = Ok (Event 0 480 [] 255 8 (TextEvent KProgramName (str "Escape"))).
Proof. vm_compute. reflexivity. Qed.

(** midi/events/meta/sequence_number_test.go:10-33 [TestUnmarshalSequenceNumber] *)
Example test_unmarshal_sequence_number :
  unmarshal_meta default_env 2400 480 0 [0; 23] [0; 255; 0; 2; 0; 23]
  = Ok (Event 2400 480 [0; 255; 0; 2; 0; 23] 255 0 (SequenceNumber 23)).
Proof. vm_compute. reflexivity. Qed.

(** midi/events/meta/sequence_number_test.go:35-58 [TestSequenceNumberMarshalBinary] *)
Example test_sequence_number_marshal_binary :
  marshal (Event 2400 480 [] 255 0 (SequenceNumber 23))
  = Ok [255; 0; 2; 0; 23].
Proof. vm_compute. reflexivity. Qed.

(** midi/events/meta/sequence_number_test.go:60-83 [TestSequenceNumberUnmarshalBinary] *)
Example test_sequence_number_unmarshal_binary :
  event_unmarshal default_env [131; 96; 255; 0; 2; 0; 23]
  = Ok (Event 0 480 [131; 96; 255; 0; 2; 0; 23] 255 0 (SequenceNumber 23)).
Proof. vm_compute. reflexivity. Qed.

(** midi/events/meta/sequence_number_test.go:85-109 [TestSequenceNumberUnmarshalText] *)
Example test_sequence_number_unmarshal_text :
  unmarshal_text manufacturers (str "      00 FF 00 02 00 17                     tick:0          delta:480        00 SequenceNumber         23")
  = Ok (Event 0 480 [] 255 0 (SequenceNumber 23)).
Proof. vm_compute. reflexivity. Qed.

(** midi/events/meta/sequence_number_test.go:111-136 [TestSequenceNumberMarshalJSON] *)
Example test_sequence_number_marshal_json :
  to_json (str "{""tag"":""SequenceNumber"",""delta"":480,""status"":255,""type"":0,""sequence-number"":23}") (Event 2400 480 [] 255 0 (SequenceNumber 23)).
Proof. vm_compute. reflexivity. Qed.

(** midi/events/meta/sequence_number_test.go:138-163 [TestSequenceNumberUnmarshalJSON] *)
Example test_sequence_number_unmarshal_json :
  from_json (str "{""tag"":""SequenceNumber"",""delta"":480,""status"":255,""type"":0,""sequence-number"":23}")
  = Ok (Event 0 480 [] 255 0 (SequenceNumber 23)).
Proof. vm_compute. reflexivity. Qed.

(** midi/events/meta/sequencer_specific_test.go:10-38 [TestUnmarshalSequencerSpecificEvent] *)
Example test_unmarshal_sequencer_specific_event :
  unmarshal_meta default_env 2400 480 127 [0; 0; 59; 58; 76; 94] [0; 255; 127; 6; 0; 0; 59; 58; 76; 94]
  = Ok (Event 2400 480 [0; 255; 127; 6; 0; 0; 59; 58; 76; 94] 255 127 (SequencerSpecific (Manufacturer [0; 0; 59] (str "American") (str "Mark Of The Unicorn (MOTU)")) [58; 76; 94])).
Proof. vm_compute. reflexivity. Qed.

(** midi/events/meta/sequencer_specific_test.go:40-68 [TestSequencerSpecificEventMarshalBinary] *)
Example test_sequencer_specific_event_marshal_binary :
  marshal (Event 2400 480 [] 255 127 (SequencerSpecific (Manufacturer [0; 0; 59] (str "American") (str "Mark Of The Unicorn (MOTU)")) [58; 76; 94]))
  = Ok [255; 127; 6; 0; 0; 59; 58; 76; 94].
Proof. vm_compute. reflexivity. Qed.

(** midi/events/meta/sequencer_specific_test.go:70-99 [TestSequencerSpecificEventUnmarshalBinary] *)
Example test_sequencer_specific_event_unmarshal_binary :
  event_unmarshal default_env [131; 96; 255; 127; 6; 0; 0; 59; 58; 76; 94]
  = Ok (Event 0 480 [131; 96; 255; 127; 6; 0; 0; 59; 58; 76; 94] 255 127 (SequencerSpecific (Manufacturer [0; 0; 59] (str "American") (str "Mark Of The Unicorn (MOTU)")) [58; 76; 94])).
Proof. vm_compute. reflexivity. Qed.

(** midi/events/meta/sequencer_specific_test.go:101-130 [TestTextUnmarshalSequencerSpecific] *)
Example test_text_unmarshal_sequencer_specific :
  unmarshal_text manufacturers (str "      00 FF 7F 06 00 00 3B 3A 4C 5E         tick:0          delta:480        7F SequencerSpecificEvent Mark Of The Unicorn (MOTU), 3A 4C 5E")
  = Ok (Event 0 480 [] 255 127 (SequencerSpecific (Manufacturer [0; 0; 59] (str "American") (str "Mark Of The Unicorn (MOTU)")) [58; 76; 94])).
Proof. vm_compute. reflexivity. Qed.

(** midi/events/meta/sequencer_specific_test.go:132-153 [TestSequencerSpecificEventMarshalJSON] *)
Example test_sequencer_specific_event_marshal_json :
  to_json (str "{""tag"":""SequencerSpecificEvent"",""delta"":480,""status"":255,""type"":127,""manufacturer"":{""id"":[0,0,59],""region"":""American"",""name"":""Mark Of The Unicorn (MOTU)""},""data"":[58,76,94]}") (Event 2400 480 [] 255 127 (SequencerSpecific (Manufacturer [0; 0; 59] (str "American") (str "Mark Of The Unicorn (MOTU)")) [58; 76; 94])).
Proof. vm_compute. reflexivity. Qed.

(** midi/events/meta/sequencer_specific_test.go:155-184 [TestSequencerSpecificEventNameUnmarshalJSON] *)
Example test_sequencer_specific_event_name_unmarshal_json :
  from_json (str "{""tag"":""SequencerSpecificEvent"",""delta"":480,""status"":255,""type"":127,""manufacturer"":{""id"":[0,0,59],""region"":""American"",""name"":""Mark Of The Unicorn (MOTU)""},""data"":[58,76,94]}")
  = Ok (Event 0 480 [] 255 127 (SequencerSpecific (Manufacturer [0; 0; 59] (str "American") (str "Mark Of The Unicorn (MOTU)")) [58; 76; 94])).
Proof. vm_compute. reflexivity. Qed.

(** midi/events/meta/smpte_offset_test.go:10-38 [TestSMPTEOffsetMarshalBinary24FPS] *)
Example test_smpte_offset_marshal_binary24_fps :
  marshal (Event 2400 480 [] 255 84 (SMPTEOffset 13 45 59 24 7 39))
  = Ok [255; 84; 5; 13; 45; 59; 7; 39].
Proof. vm_compute. reflexivity. Qed.

(** midi/events/meta/smpte_offset_test.go:40-68 [TestSMPTEOffsetMarshalBinary25FPS] *)
Example test_smpte_offset_marshal_binary25_fps :
  marshal (Event 2400 480 [] 255 84 (SMPTEOffset 13 45 59 25 7 39))
  = Ok [255; 84; 5; 45; 45; 59; 7; 39].
Proof. vm_compute. reflexivity. Qed.

(** midi/events/meta/smpte_offset_test.go:70-98 [TestSMPTEOffsetMarshalBinary29FPS] *)
Example test_smpte_offset_marshal_binary29_fps :
  marshal (Event 2400 480 [] 255 84 (SMPTEOffset 13 45 59 29 7 39))
  = Ok [255; 84; 5; 77; 45; 59; 7; 39].
Proof. vm_compute. reflexivity. Qed.

(** midi/events/meta/smpte_offset_test.go:100-128 [TestSMPTEOffsetMarshalBinary30FPS] *)
Example test_smpte_offset_marshal_binary30_fps :
  marshal (Event 2400 480 [] 255 84 (SMPTEOffset 13 45 59 30 7 39))
  = Ok [255; 84; 5; 109; 45; 59; 7; 39].
Proof. vm_compute. reflexivity. Qed.

(** midi/events/meta/smpte_offset_test.go:130-158 [TestUnmarshalSMPTEOffset24FPS] *)
Example test_unmarshal_smpte_offset24_fps :
  unmarshal_meta default_env 2400 480 84 [13; 45; 59; 7; 39] [0; 255; 84; 5; 13; 45; 59; 7; 39]
  = Ok (Event 2400 480 [0; 255; 84; 5; 13; 45; 59; 7; 39] 255 84 (SMPTEOffset 13 45 59 24 7 39)).
Proof. vm_compute. reflexivity. Qed.

(** midi/events/meta/smpte_offset_test.go:160-188 [TestUnmarshalSMPTEOffset25FPS] *)
Example test_unmarshal_smpte_offset25_fps :
  unmarshal_meta default_env 2400 480 84 [45; 45; 59; 7; 39] [0; 255; 84; 5; 45; 45; 59; 7; 39]
  = Ok (Event 2400 480 [0; 255; 84; 5; 45; 45; 59; 7; 39] 255 84 (SMPTEOffset 13 45 59 25 7 39)).
Proof. vm_compute. reflexivity. Qed.

(** midi/events/meta/smpte_offset_test.go:190-218 [TestUnmarshalSMPTEOffset29FPS] *)
Example test_unmarshal_smpte_offset29_fps :
  unmarshal_meta default_env 2400 480 84 [77; 45; 59; 7; 39] [0; 255; 84; 5; 77; 45; 59; 7; 39]
  = Ok (Event 2400 480 [0; 255; 84; 5; 77; 45; 59; 7; 39] 255 84 (SMPTEOffset 13 45 59 29 7 39)).
Proof. vm_compute. reflexivity. Qed.

(** midi/events/meta/smpte_offset_test.go:220-248 [TestUnmarshalSMPTEOffset30FPS] *)
Example test_unmarshal_smpte_offset30_fps :
  unmarshal_meta default_env 2400 480 84 [109; 45; 59; 7; 39] [0; 255; 84; 5; 109; 45; 59; 7; 39]
  = Ok (Event 2400 480 [0; 255; 84; 5; 109; 45; 59; 7; 39] 255 84 (SMPTEOffset 13 45 59 30 7 39)).
Proof. vm_compute. reflexivity. Qed.

(** midi/events/meta/smpte_offset_test.go:250-279 [TestSMPTEOffsetUnmarshalBinary24FPS] *)
Example test_smpte_offset_unmarshal_binary24_fps :
  event_unmarshal default_env [131; 96; 255; 84; 5; 13; 45; 59; 7; 39]
  = Ok (Event 0 480 [131; 96; 255; 84; 5; 13; 45; 59; 7; 39] 255 84 (SMPTEOffset 13 45 59 24 7 39)).
Proof. vm_compute. reflexivity. Qed.

(** midi/events/meta/smpte_offset_test.go:281-310 [TestSMPTEOffsetUnmarshalBinary25FPS] *)
Example test_smpte_offset_unmarshal_binary25_fps :
  event_unmarshal default_env [131; 96; 255; 84; 5; 45; 45; 59; 7; 39]
  = Ok (Event 0 480 [131; 96; 255; 84; 5; 45; 45; 59; 7; 39] 255 84 (SMPTEOffset 13 45 59 25 7 39)).
Proof. vm_compute. reflexivity. Qed.

(** midi/events/meta/smpte_offset_test.go:312-341 [TestSMPTEOffsetUnmarshalBinary29FPS] *)
Example test_smpte_offset_unmarshal_binary29_fps :
  event_unmarshal default_env [131; 96; 255; 84; 5; 77; 45; 59; 7; 39]
  = Ok (Event 0 480 [131; 96; 255; 84; 5; 77; 45; 59; 7; 39] 255 84 (SMPTEOffset 13 45 59 29 7 39)).
Proof. vm_compute. reflexivity. Qed.

(** midi/events/meta/smpte_offset_test.go:343-372 [TestSMPTEOffsetUnmarshalBinary30FPS] *)
Example test_smpte_offset_unmarshal_binary30_fps :
  event_unmarshal default_env [131; 96; 255; 84; 5; 109; 45; 59; 7; 39]
  = Ok (Event 0 480 [131; 96; 255; 84; 5; 109; 45; 59; 7; 39] 255 84 (SMPTEOffset 13 45 59 30 7 39)).
Proof. vm_compute. reflexivity. Qed.

(** midi/events/meta/smpte_offset_test.go:374-403 [TestSMPTEOffsetUnmarshalText] *)
Example test_smpte_offset_unmarshal_text :
  unmarshal_text manufacturers (str "      00 FF 54 05 2D 2D 3B 07 27            tick:0          delta:480        54 SMPTEOffset            13 45 59 25 7 39")
  = Ok (Event 0 480 [] 255 84 (SMPTEOffset 13 45 59 25 7 39)).
Proof. vm_compute. reflexivity. Qed.

(** midi/events/meta/smpte_offset_test.go:405-435 [TestSMPTEOffetMarshalJSON] *)
Example test_smpte_offet_marshal_json :
  to_json (str "{""tag"":""SMPTEOffset"",""delta"":480,""status"":255,""type"":84,""hour"":13,""minute"":45,""second"":59,""frame-rate"":25,""frames"":7,""fractional-frames"":39}") (Event 2400 480 [] 255 84 (SMPTEOffset 13 45 59 25 7 39)).
Proof. vm_compute. reflexivity. Qed.

(** midi/events/meta/tempo_test.go:10-33 [TestUnmarshalTempo] *)
Example test_unmarshal_tempo :
  unmarshal_meta default_env 2400 480 81 [7; 161; 32] [0; 255; 81; 3; 7; 161; 32]
  = Ok (Event 2400 480 [0; 255; 81; 3; 7; 161; 32] 255 81 (Tempo 500000)).
Proof. vm_compute. reflexivity. Qed.

(** midi/events/meta/tempo_test.go:35-58 [TestTempoMarshalBinary] *)
Example test_tempo_marshal_binary :
  marshal (Event 2400 480 [] 255 81 (Tempo 500000))
  = Ok [255; 81; 3; 7; 161; 32].
Proof. vm_compute. reflexivity. Qed.

(** midi/events/meta/tempo_test.go:60-84 [TestTempoUnmarshalBinary] *)
Example test_tempo_unmarshal_binary :
  event_unmarshal default_env [131; 96; 255; 81; 3; 7; 161; 32]
  = Ok (Event 0 480 [131; 96; 255; 81; 3; 7; 161; 32] 255 81 (Tempo 500000)).
Proof. vm_compute. reflexivity. Qed.

(** midi/events/meta/tempo_test.go:86-110 [TestTempoUnmarshalText] *)
Example test_tempo_unmarshal_text :
  unmarshal_text manufacturers (str "      00 FF 51 03 07 A1 20                  tick:0          delta:480        51 Tempo                  tempo:500000")
  = Ok (Event 0 480 [] 255 81 (Tempo 500000)).
Proof. vm_compute. reflexivity. Qed.

(** midi/events/meta/tempo_test.go:112-135 [TestTempoMarshalJSON] *)
Example test_tempo_marshal_json :
  to_json (str "{""tag"":""Tempo"",""delta"":480,""status"":255,""type"":81,""tempo"":500000}") (Event 2400 480 [] 255 81 (Tempo 500000)).
Proof. vm_compute. reflexivity. Qed.

(** midi/events/meta/tempo_test.go:137-162 [TestTempoUnmarshalJSON] *)
Example test_tempo_unmarshal_json :
  from_json (str "{""tag"":""Tempo"",""delta"":480,""status"":255,""type"":81,""tempo"":500000}")
  = Ok (Event 0 480 [] 255 81 (Tempo 500000)).
Proof. vm_compute. reflexivity. Qed.

(** midi/events/meta/text_test.go:10-33 [TestUnmarshalText] *)
Example test_unmarshal_text :
  unmarshal_meta default_env 2400 480 1 [84; 104; 105; 115; 32; 97; 110; 100; 32; 84; 104; 97; 116] [0; 255; 1; 13; 84; 104; 105; 115; 32; 97; 110; 100; 32; 84; 104; 97; 116]
  = Ok (Event 2400 480 [0; 255; 1; 13; 84; 104; 105; 115; 32; 97; 110; 100; 32; 84; 104; 97; 116] 255 1 (TextEvent KText (str "This and That"))).
Proof. vm_compute. reflexivity. Qed.

(** midi/events/meta/text_test.go:35-55 [TestTextMarshalBinary] *)
Example test_text_marshal_binary :
  marshal (Event 2400 480 [] 255 1 (TextEvent KText (str "This and That")))
  = Ok [255; 1; 13; 84; 104; 105; 115; 32; 97; 110; 100; 32; 84; 104; 97; 116].
Proof. vm_compute. reflexivity. Qed.

(** midi/events/meta/text_test.go:57-81 [TestTextUnmarshalBinary] *)
Example test_text_unmarshal_binary :
  event_unmarshal default_env [131; 96; 255; 1; 13; 84; 104; 105; 115; 32; 97; 110; 100; 32; 84; 104; 97; 116]
  = Ok (Event 0 480 [131; 96; 255; 1; 13; 84; 104; 105; 115; 32; 97; 110; 100; 32; 84; 104; 97; 116] 255 1 (TextEvent KText (str "This and That"))).
Proof. vm_compute. reflexivity. Qed.

(** midi/events/meta/text_test.go:83-107 [TestTextUnmarshalText] *)
Example test_text_unmarshal_text :
  unmarshal_text manufacturers (str "      00 FF 01 0D 54 68 69 73 20 61 6E 64…  tick:0          delta:480        01 Text                   This and That")
  = Ok (Event 0 480 [] 255 1 (TextEvent KText (str "This and That"))).
Proof. vm_compute. reflexivity. Qed.

(** midi/events/meta/text_test.go:109-134 [TestTextMarshalJSON] *)
Example test_text_marshal_json :
  to_json (str "{""tag"":""Text"",""delta"":480,""status"":255,""type"":1,""text"":""This and That""}") (Event 2400 480 [] 255 1 (TextEvent KText (str "This and That"))).
Proof. vm_compute. reflexivity. Qed.

(** midi/events/meta/text_test.go:136-161 [TestTextUnmarshalJSON] *)
Example test_text_unmarshal_json :
  from_json (str "{""tag"":""Text"",""delta"":480,""status"":255,""type"":1,""text"":""This and That""}")
  = Ok (Event 0 480 [] 255 1 (TextEvent KText (str "This and That"))).
Proof. vm_compute. reflexivity. Qed.

(** midi/events/meta/time_signature_test.go:10-36 [TestUnmarshalTimeSignature] *)
Example test_unmarshal_time_signature :
  unmarshal_meta default_env 2400 480 88 [3; 2; 24; 8] [0; 255; 88; 4; 3; 2; 24; 8]
  = Ok (Event 2400 480 [0; 255; 88; 4; 3; 2; 24; 8] 255 88 (TimeSignature 3 4 24 8)).
Proof. vm_compute. reflexivity. Qed.

(** midi/events/meta/time_signature_test.go:38-64 [TestTimeSignatureMarshalBinary] *)
Example test_time_signature_marshal_binary :
  marshal (Event 2400 480 [] 255 88 (TimeSignature 3 4 24 8))
  = Ok [255; 88; 4; 3; 2; 24; 8].
Proof. vm_compute. reflexivity. Qed.

(** midi/events/meta/time_signature_test.go:66-93 [TestTimeSignatureUnmarshalBinary] *)
Example test_time_signature_unmarshal_binary :
  event_unmarshal default_env [131; 96; 255; 88; 4; 3; 2; 24; 8]
  = Ok (Event 0 480 [131; 96; 255; 88; 4; 3; 2; 24; 8] 255 88 (TimeSignature 3 4 24 8)).
Proof. vm_compute. reflexivity. Qed.

(** midi/events/meta/time_signature_test.go:95-124 [TestTimeSignatureUnmarshalText] *)
Example test_time_signature_unmarshal_text :
  unmarshal_text manufacturers (str "      00 FF 58 04 04 02 18 08               tick:0          delta:480        58 TimeSignature          3/4, 24 ticks per click, 8/32 per quarter")
  = Ok (Event 0 480 [] 255 88 (TimeSignature 3 4 24 8)).
Proof. vm_compute. reflexivity. Qed.

(** midi/events/meta/time_signature_test.go:126-154 [TestTimeSignatureMarshalJSON] *)
Example test_time_signature_marshal_json :
  to_json (str "{""tag"":""TimeSignature"",""delta"":480,""status"":255,""type"":88,""numerator"":3,""denominator"":4,""ticks-per-click"":24,""thirty-seconds-per-quarter"":8}") (Event 2400 480 [] 255 88 (TimeSignature 3 4 24 8)).
Proof. vm_compute. reflexivity. Qed.

(** midi/events/meta/time_signature_test.go:156-184 [TestTimeSignatureUnmarshalJSON] *)
Example test_time_signature_unmarshal_json :
  from_json (str "{""tag"":""TimeSignature"",""delta"":480,""status"":255,""type"":88,""numerator"":3,""denominator"":4,""ticks-per-click"":24,""thirty-seconds-per-quarter"":8}")
  = Ok (Event 0 480 [] 255 88 (TimeSignature 3 4 24 8)).
Proof. vm_compute. reflexivity. Qed.

(** midi/events/meta/track_name_test.go:10-40 [TestUnmarshalTrackName] *)
Example test_unmarshal_track_name :
  unmarshal_meta default_env 2400 480 3 [82; 97; 105; 108; 114; 111; 97; 100; 32; 84; 114; 97; 113; 117; 101] [0; 255; 3; 15; 82; 97; 105; 108; 114; 111; 97; 100; 32; 84; 114; 97; 113; 117; 101]
  = Ok (Event 2400 480 [0; 255; 3; 15; 82; 97; 105; 108; 114; 111; 97; 100; 32; 84; 114; 97; 113; 117; 101] 255 3 (TextEvent KTrackName (str "Railroad Traque"))).
Proof. vm_compute. reflexivity. Qed.

(** midi/events/meta/track_name_test.go:42-69 [TestTrackNameMarshalBinary] *)
Example test_track_name_marshal_binary :
  marshal (Event 2400 480 [] 255 3 (TextEvent KTrackName (str "Railroad Traque")))
  = Ok [255; 3; 15; 82; 97; 105; 108; 114; 111; 97; 100; 32; 84; 114; 97; 113; 117; 101].
Proof. vm_compute. reflexivity. Qed.

(** midi/events/meta/track_name_test.go:71-102 [TestTracknameUnmarshalBinary] *)
Example test_trackname_unmarshal_binary :
  event_unmarshal default_env [131; 96; 255; 3; 15; 82; 97; 105; 108; 114; 111; 97; 100; 32; 84; 114; 97; 113; 117; 101]
  = Ok (Event 0 480 [131; 96; 255; 3; 15; 82; 97; 105; 108; 114; 111; 97; 100; 32; 84; 114; 97; 113; 117; 101] 255 3 (TextEvent KTrackName (str "Railroad Traque"))).
Proof. vm_compute. reflexivity. Qed.

(** midi/events/meta/track_name_test.go:104-128 [TestTrackNameUnmarshalText] *)
Example test_track_name_unmarshal_text :
  unmarshal_text manufacturers (str "      00 FF 03 0F 41 63 6F 75 73 74 69 63…  tick:0          delta:480        03 TrackName              Railroad Traque")
  = Ok (Event 0 480 [] 255 3 (TextEvent KTrackName (str "Railroad Traque"))).
Proof. vm_compute. reflexivity. Qed.

(** midi/events/meta/track_name_test.go:130-146 [TestTrackNameMarshalJSON] *)
Example test_track_name_marshal_json :
  to_json (str "{""tag"":""TrackName"",""delta"":480,""status"":255,""type"":3,""name"":""Railroad Traque""}") (Event 2400 480 [] 255 3 (TextEvent KTrackName (str "Railroad Traque"))).
Proof. vm_compute. reflexivity. Qed.

(** midi/events/meta/track_name_test.go:148-172 [TestTrackNameUnmarshalJSON] *)
Example test_track_name_unmarshal_json :
  from_json (str "{""tag"":""TrackName"",""delta"":480,""status"":255,""type"":3,""name"":""Railroad Traque""}")
  = Ok (Event 0 480 [] 255 3 (TextEvent KTrackName (str "Railroad Traque"))).
Proof. vm_compute. reflexivity. Qed.

(** midi/events/midi/channel_pressure_test.go:10-39 [TestParseChannelPressure] *)
Example test_parse_channel_pressure :
  midi_parse default_env 2400 215 [131; 96; 215; 100]
  = Ok (Event 2400 480 [131; 96; 215; 100] 215 0 (ChannelPressure 7 100)).
Proof. vm_compute. reflexivity. Qed.

(** midi/events/midi/channel_pressure_test.go:41-65 [TestChannelPressureMarshalBinary] *)
Example test_channel_pressure_marshal_binary :
  marshal (Event 2400 480 [0; 215; 100] 215 0 (ChannelPressure 7 100))
  = Ok [215; 100].
Proof. vm_compute. reflexivity. Qed.

(** midi/events/midi/channel_pressure_test.go:67-90 [TestChannelPressureUnmarshalBinary] *)
Example test_channel_pressure_unmarshal_binary :
  event_unmarshal default_env [131; 96; 215; 100]
  = Ok (Event 0 480 [131; 96; 215; 100] 215 0 (ChannelPressure 7 100)).
Proof. vm_compute. reflexivity. Qed.

(** midi/events/midi/channel_pressure_test.go:92-116 [TestChannelPressureUnmarshalText] *)
Example test_channel_pressure_unmarshal_text :
  unmarshal_text manufacturers (str "      00 D0 07                              tick:0          delta:480        D0 ChannelPressure        channel:7  pressure:100")
  = Ok (Event 0 480 [] 215 0 (ChannelPressure 7 100)).
Proof. vm_compute. reflexivity. Qed.

(** midi/events/midi/channel_pressure_test.go:118-135 [TestChannelPressureMarshalJSON] *)
Example test_channel_pressure_marshal_json :
  to_json (str "{""tag"":""ChannelPressure"",""delta"":480,""status"":215,""channel"":7,""pressure"":100}") (Event 2400 480 [0; 167; 100] 215 0 (ChannelPressure 7 100)).
Proof. vm_compute. reflexivity. Qed.

(** midi/events/midi/channel_pressure_test.go:137-162 [TestChannelPressureNameUnmarshalJSON] *)
Example test_channel_pressure_name_unmarshal_json :
  from_json (str "{""tag"":""ChannelPressure"",""delta"":480,""status"":215,""channel"":7,""pressure"":100}")
  = Ok (Event 0 480 [] 215 0 (ChannelPressure 7 100)).
Proof. vm_compute. reflexivity. Qed.

(** midi/events/midi/controller_test.go:10-40 [TestParseController] *)
Example test_parse_controller :
  midi_parse default_env 2400 183 [131; 96; 183; 84; 29]
  = Ok (Event 2400 480 [131; 96; 183; 84; 29] 183 0 (Controller 7 (MkController 84 (str "Portamento Control")) 29)).
Proof. vm_compute. reflexivity. Qed.

(** midi/events/midi/controller_test.go:42-67 [TestControllerMarshalBinary] *)
Example test_controller_marshal_binary :
  marshal (Event 2400 480 [0; 183; 84; 29] 183 0 (Controller 7 (MkController 84 (str "Portamento Control")) 29))
  = Ok [183; 84; 29].
Proof. vm_compute. reflexivity. Qed.

(** midi/events/midi/controller_test.go:69-93 [TestControllerUnmarshalBinary] *)
Example test_controller_unmarshal_binary :
  event_unmarshal default_env [131; 96; 183; 84; 29]
  = Ok (Event 0 480 [131; 96; 183; 84; 29] 183 0 (Controller 7 (MkController 84 (str "Portamento Control")) 29)).
Proof. vm_compute. reflexivity. Qed.

(** midi/events/midi/controller_test.go:95-120 [TestControllerUnmarshalText] *)
Example test_controller_unmarshal_text :
  unmarshal_text manufacturers (str "      00 B0 65 09                           tick:0          delta:480        B7 Controller             channel:7  101/Registered Parameter Number (MSB), value:9")
  = Ok (Event 0 480 [] 183 0 (Controller 7 (MkController 101 (str "Registered Parameter Number (MSB)")) 9)).
Proof. vm_compute. reflexivity. Qed.

(** midi/events/midi/controller_test.go:122-140 [TestControllerMarshalJSON] *)
Example test_controller_marshal_json :
  to_json (str "{""tag"":""Controller"",""delta"":480,""status"":183,""channel"":7,""controller"":{""id"":84,""name"":""Portamento Control""},""value"":29}") (Event 2400 480 [0; 183; 84; 29] 183 0 (Controller 7 (MkController 84 (str "Portamento Control")) 29)).
Proof. vm_compute. reflexivity. Qed.

(** midi/events/midi/controller_test.go:142-168 [TestControllerNameUnmarshalJSON] *)
Example test_controller_name_unmarshal_json :
  from_json (str "{""tag"":""Controller"",""delta"":480,""status"":183,""channel"":7,""controller"":{""id"":84,""name"":""Portamento Control""},""value"":29}")
  = Ok (Event 0 480 [] 183 0 (Controller 7 (MkController 84 (str "Portamento Control")) 29)).
Proof. vm_compute. reflexivity. Qed.

(** midi/events/midi/note_off_test.go:11-45 [TestParseNoteOffInMajorKey] *)
Example test_parse_note_off_in_major_key :
  midi_parse default_env 0 129 [131; 96; 129; 49; 72]
  = Ok (Event 0 480 [131; 96; 129; 49; 72] 129 0 (NoteOff 1 (Note 49 (str "C♯3") (str "C♯3")) 72)).
Proof. vm_compute. reflexivity. Qed.

(** midi/events/midi/note_off_test.go:85-114 [TestNoteOffMarshalBinary] *)
Example test_note_off_marshal_binary :
  marshal (Event 2400 480 [0; 135; 49; 72] 135 0 (NoteOff 7 (Note 49 (str "C♯3") (str "C♯3")) 72))
  = Ok [135; 49; 72].
Proof. vm_compute. reflexivity. Qed.

(** midi/events/midi/note_off_test.go:116-144 [TestNoteOffUnmarshalBinary] *)
Example test_note_off_unmarshal_binary :
  event_unmarshal default_env [131; 96; 135; 49; 72]
  = Ok (Event 0 480 [131; 96; 135; 49; 72] 135 0 (NoteOff 7 (Note 49 (str "C♯3") (str "C♯3")) 72)).
Proof. vm_compute. reflexivity. Qed.

(** midi/events/midi/note_off_test.go:146-174 [TestNoteOffUnmarshalText] *)
Example test_note_off_unmarshal_text :
  unmarshal_text manufacturers (str "   83 60 87 30 40                           tick:480        delta:480        80 NoteOff                channel:7  note:C3, velocity:64")
  = Ok (Event 0 480 [] 135 0 (NoteOff 7 (Note 48 (str "C3") (str "C3")) 64)).
Proof. vm_compute. reflexivity. Qed.

(** midi/events/midi/note_off_test.go:221-242 [TestNoteOffMarshalJSON] *)
Example test_note_off_marshal_json :
  to_json (str "{""tag"":""NoteOff"",""delta"":480,""status"":135,""channel"":7,""note"":{""value"":48,""name"":""C3"",""alias"":""C3""},""velocity"":72}") (Event 0 480 [] 135 0 (NoteOff 7 (Note 48 (str "C3") (str "C3")) 72)).
Proof. vm_compute. reflexivity. Qed.

(** midi/events/midi/note_off_test.go:244-273 [TestNoteOffNameUnmarshalJSON] *)
Example test_note_off_name_unmarshal_json :
  from_json (str "{""tag"":""NoteOff"",""delta"":480,""status"":135,""channel"":7,""note"":{""value"":48,""name"":""C3"",""alias"":""C3""},""velocity"":72}")
  = Ok (Event 0 480 [] 135 0 (NoteOff 7 (Note 48 (str "C3") (str "C3")) 72)).
Proof. vm_compute. reflexivity. Qed.

(** midi/events/midi/note_on_test.go:11-46 [TestParseNoteOnInMajorKey] *)
Example test_parse_note_on_in_major_key :
  midi_parse default_env 2400 145 [131; 96; 145; 49; 72]
  = Ok (Event 2400 480 [131; 96; 145; 49; 72] 145 0 (NoteOn 1 (Note 49 (str "C♯3") (str "C♯3")) 72)).
Proof. vm_compute. reflexivity. Qed.

(** midi/events/midi/note_on_test.go:88-116 [TestNoteOnMarshalBinary] *)
Example test_note_on_marshal_binary :
  marshal (Event 2400 480 [0; 151; 49; 72] 151 0 (NoteOn 7 (Note 49 (str "C♯3") (str "C♯3")) 72))
  = Ok [151; 49; 72].
Proof. vm_compute. reflexivity. Qed.

(** midi/events/midi/note_on_test.go:118-146 [TestNoteOnUnmarshalBinary] *)
Example test_note_on_unmarshal_binary :
  event_unmarshal default_env [131; 96; 151; 49; 72]
  = Ok (Event 0 480 [131; 96; 151; 49; 72] 151 0 (NoteOn 7 (Note 49 (str "C♯3") (str "C♯3")) 72)).
Proof. vm_compute. reflexivity. Qed.

(** midi/events/midi/note_on_test.go:148-177 [TestNoteOnUnmarshalText] *)
Example test_note_on_unmarshal_text :
  unmarshal_text manufacturers (str "      00 97 30 48                           tick:0          delta:480        97 NoteOn                 channel:7  note:C3, velocity:72")
  = Ok (Event 0 480 [] 151 0 (NoteOn 7 (Note 48 (str "C3") (str "C3")) 72)).
Proof. vm_compute. reflexivity. Qed.

(** midi/events/midi/note_on_test.go:224-245 [TestNoteOnMarshalJSON] *)
Example test_note_on_marshal_json :
  to_json (str "{""tag"":""NoteOn"",""delta"":480,""status"":151,""channel"":7,""note"":{""value"":48,""name"":""C3"",""alias"":""C3""},""velocity"":72}") (Event 0 480 [] 151 0 (NoteOn 7 (Note 48 (str "C3") (str "C3")) 72)).
Proof. vm_compute. reflexivity. Qed.

(** midi/events/midi/note_on_test.go:247-276 [TestNoteOnNameUnmarshalJSON] *)
Example test_note_on_name_unmarshal_json :
  from_json (str "{""tag"":""NoteOn"",""delta"":480,""status"":151,""channel"":7,""note"":{""value"":48,""name"":""C3"",""alias"":""C3""},""velocity"":72}")
  = Ok (Event 0 480 [] 151 0 (NoteOn 7 (Note 48 (str "C3") (str "C3")) 72)).
Proof. vm_compute. reflexivity. Qed.

(** midi/events/midi/pitch_bend_test.go:10-37 [TestParsePitchBend] *)
Example test_parse_pitch_bend :
  midi_parse default_env 2400 231 [131; 96; 231; 0; 8]
  = Ok (Event 2400 480 [131; 96; 231; 0; 8] 231 0 (PitchBend 7 8)).
Proof. vm_compute. reflexivity. Qed.

(** midi/events/midi/pitch_bend_test.go:39-63 [TestPitchBendMarshalBinary] *)
Example test_pitch_bend_marshal_binary :
  marshal (Event 2400 480 [0; 231; 0; 8] 231 0 (PitchBend 7 8))
  = Ok [231; 0; 8].
Proof. vm_compute. reflexivity. Qed.

(** midi/events/midi/pitch_bend_test.go:65-88 [TestPitchBendUnmarshalBinary] *)
Example test_pitch_bend_unmarshal_binary :
  event_unmarshal default_env [131; 96; 231; 0; 8]
  = Ok (Event 0 480 [131; 96; 231; 0; 8] 231 0 (PitchBend 7 8)).
Proof. vm_compute. reflexivity. Qed.

(** midi/events/midi/pitch_bend_test.go:90-114 [TestPitchBendUnmarshalText] *)
Example test_pitch_bend_unmarshal_text :
  unmarshal_text manufacturers (str "      81 70 E7 00 08                           tick:240        delta:240        E7 PitchBend              channel:7  bend:8")
  = Ok (Event 0 240 [] 231 0 (PitchBend 7 8)).
Proof. vm_compute. reflexivity. Qed.

(** midi/events/midi/pitch_bend_test.go:115-131 [TestPitchBendMarshalJSON] *)
Example test_pitch_bend_marshal_json :
  to_json (str "{""tag"":""PitchBend"",""delta"":480,""status"":231,""channel"":7,""bend"":8}") (Event 2400 480 [0; 231; 0; 8] 231 0 (PitchBend 7 8)).
Proof. vm_compute. reflexivity. Qed.

(** midi/events/midi/pitch_bend_test.go:133-157 [TestPitchBendNameUnmarshalJSON] *)
Example test_pitch_bend_name_unmarshal_json :
  from_json (str "{""tag"":""PitchBend"",""delta"":480,""status"":231,""channel"":7,""bend"":8}")
  = Ok (Event 0 480 [] 231 0 (PitchBend 7 8)).
Proof. vm_compute. reflexivity. Qed.

(** midi/events/midi/polyphonic_pressure_test.go:10-39 [TestParsePolyphonicPressure] *)
Example test_parse_polyphonic_pressure :
  midi_parse default_env 2400 167 [131; 96; 167; 100]
  = Ok (Event 2400 480 [131; 96; 167; 100] 167 0 (PolyphonicPressure 7 100)).
Proof. vm_compute. reflexivity. Qed.

(** midi/events/midi/polyphonic_pressure_test.go:41-65 [TestPolyphonicPressureMarshalBinary] *)
Example test_polyphonic_pressure_marshal_binary :
  marshal (Event 2400 480 [0; 167; 100] 167 0 (PolyphonicPressure 7 100))
  = Ok [167; 100].
Proof. vm_compute. reflexivity. Qed.

(** midi/events/midi/polyphonic_pressure_test.go:67-90 [TestPolyphonicPressureUnmarshalBinary] *)
Example test_polyphonic_pressure_unmarshal_binary :
  event_unmarshal default_env [131; 96; 167; 100]
  = Ok (Event 0 480 [131; 96; 167; 100] 167 0 (PolyphonicPressure 7 100)).
Proof. vm_compute. reflexivity. Qed.

(** midi/events/midi/polyphonic_pressure_test.go:92-116 [TestPolyphonicPressureUnmarshalText] *)
Example test_polyphonic_pressure_unmarshal_text :
  unmarshal_text manufacturers (str "      00 A0 64                              tick:0          delta:480        A7 PolyphonicPressure     channel:7  pressure:100")
  = Ok (Event 0 480 [] 167 0 (PolyphonicPressure 7 100)).
Proof. vm_compute. reflexivity. Qed.

(** midi/events/midi/polyphonic_pressure_test.go:118-135 [TestPolyphonicPressureMarshalJSON] *)
Example test_polyphonic_pressure_marshal_json :
  to_json (str "{""tag"":""PolyphonicPressure"",""delta"":480,""status"":167,""channel"":7,""pressure"":100}") (Event 2400 480 [0; 167; 100] 167 0 (PolyphonicPressure 7 100)).
Proof. vm_compute. reflexivity. Qed.

(** midi/events/midi/polyphonic_pressure_test.go:137-162 [TestPolyphonicPressureNameUnmarshalJSON] *)
Example test_polyphonic_pressure_name_unmarshal_json :
  from_json (str "{""tag"":""PolyphonicPressure"",""delta"":480,""status"":167,""channel"":7,""pressure"":100}")
  = Ok (Event 0 480 [] 167 0 (PolyphonicPressure 7 100)).
Proof. vm_compute. reflexivity. Qed.

(** midi/events/midi/program_change_test.go:10-39 [TestProgramChange] *)
Example test_program_change :
  midi_parse default_env 12345 199 [131; 96; 199; 13]
  = Ok (Event 12345 480 [131; 96; 199; 13] 199 0 (ProgramChange 7 0 13)).
Proof. vm_compute. reflexivity. Qed.

(** midi/events/midi/program_change_test.go:41-65 [TestProgramChangeMarshalBinary] *)
Example test_program_change_marshal_binary :
  marshal (Event 2400 480 [0; 199; 25] 199 0 (ProgramChange 7 0 25))
  = Ok [199; 25].
Proof. vm_compute. reflexivity. Qed.

(** midi/events/midi/program_change_test.go:67-91 [TestProgramChangeUnmarshalBinary] *)
Example test_program_change_unmarshal_binary :
  event_unmarshal default_env [131; 96; 199; 25]
  = Ok (Event 0 480 [131; 96; 199; 25] 199 0 (ProgramChange 7 0 25)).
Proof. vm_compute. reflexivity. Qed.

(** midi/events/midi/program_change_test.go:93-118 [TestProgramChangeUnmarshalText] *)
Example test_program_change_unmarshal_text :
  unmarshal_text manufacturers (str "      00 C7 19                              tick:0          delta:480        C7 ProgramChange          channel:7  bank:3, program:25")
  = Ok (Event 0 480 [] 199 0 (ProgramChange 7 3 25)).
Proof. vm_compute. reflexivity. Qed.

(** midi/events/midi/program_change_test.go:120-138 [TestProgramChangeMarshalJSON] *)
Example test_program_change_marshal_json :
  to_json (str "{""tag"":""ProgramChange"",""delta"":480,""status"":199,""channel"":7,""bank"":673,""program"":13}") (Event 2400 480 [0; 183; 84; 29] 199 0 (ProgramChange 7 673 13)).
Proof. vm_compute. reflexivity. Qed.

(** midi/events/midi/program_change_test.go:140-166 [TestProgramChangeNameUnmarshalJSON] *)
Example test_program_change_name_unmarshal_json :
  from_json (str "{""tag"":""ProgramChange"",""delta"":480,""status"":199,""channel"":7,""bank"":673,""program"":13}")
  = Ok (Event 0 480 [] 199 0 (ProgramChange 7 673 13)).
Proof. vm_compute. reflexivity. Qed.

(** midi/events/sysex/continuation_message_test.go:31-53 [TestSysExContinuationMessageMarshalBinary] *)
Example test_sysex_continuation_message_marshal_binary :
  marshal (Event 2400 480 [] 247 0 (SysExContinuation [126; 0; 9; 1] false))
  = Ok [247; 4; 126; 0; 9; 1].
Proof. vm_compute. reflexivity. Qed.

(** midi/events/sysex/continuation_message_test.go:55-78 [TestSysExContinuationEndMessageMarshalBinary] *)
Example test_sysex_continuation_end_message_marshal_binary :
  marshal (Event 2400 480 [] 247 0 (SysExContinuation [126; 0; 9; 1] true))
  = Ok [247; 5; 126; 0; 9; 1; 247].
Proof. vm_compute. reflexivity. Qed.

(** midi/events/sysex/continuation_message_test.go:80-102 [TestSysExContinuationMessageUnmarshalBinary] *)
Example test_sysex_continuation_message_unmarshal_binary :
  event_unmarshal default_env [131; 96; 247; 4; 126; 0; 9; 1]
  = Ok (Event 0 480 [131; 96; 247; 4; 126; 0; 9; 1] 247 0 (SysExContinuation [126; 0; 9; 1] false)).
Proof. vm_compute. reflexivity. Qed.

(** midi/events/sysex/continuation_message_test.go:104-127 [TestSysExContinuationMessageUnmarshalText] *)
Example test_sysex_continuation_message_unmarshal_text :
  unmarshal_text manufacturers (str "   81 48 F7 06 43 12 00 43 12 00            tick:920        delta:200        F7 SysExContinuation      43 12 00 43 12 00")
  = Ok (Event 0 200 [] 247 0 (SysExContinuation [67; 18; 0; 67; 18; 0] false)).
Proof. vm_compute. reflexivity. Qed.

(** midi/events/sysex/continuation_message_test.go:129-145 [TestSysExContinuationMessageMarshalJSON] *)
Example test_sysex_continuation_message_marshal_json :
  to_json (str "{""tag"":""SysExContinuation"",""delta"":480,""status"":247,""data"":[126,0,9,1],""end"":true}") (Event 2400 480 [] 247 0 (SysExContinuation [126; 0; 9; 1] true)).
Proof. vm_compute. reflexivity. Qed.

(** midi/events/sysex/continuation_message_test.go:147-171 [TestSysExContinuationNameUnmarshalJSON] *)
Example test_sysex_continuation_name_unmarshal_json :
  from_json (str "{""tag"":""SysExContinuation"",""delta"":480,""status"":247,""data"":[126,0,9,1],""end"":true}")
  = Ok (Event 0 480 [] 247 0 (SysExContinuation [126; 0; 9; 1] false)).
Proof. vm_compute. reflexivity. Qed.

(** midi/events/sysex/escape_message_test.go:31-53 [TestSysExEscapeMessageMarshalBinary] *)
Example test_sysex_escape_message_marshal_binary :
  marshal (Event 2400 480 [] 247 0 (SysExEscape [243; 1]))
  = Ok [247; 2; 243; 1].
Proof. vm_compute. reflexivity. Qed.

(** midi/events/sysex/escape_message_test.go:79-102 [TestSysExEscapeMessageUnmarshalText] *)
Example test_sysex_escape_message_unmarshal_text :
  unmarshal_text manufacturers (str "      00 F7 02 F3 01                        tick:1020       delta:480        F7 SysExEscape            F3 01")
  = Ok (Event 0 480 [] 247 0 (SysExEscape [243; 1])).
Proof. vm_compute. reflexivity. Qed.

(** midi/events/sysex/escape_message_test.go:104-119 [TestSysExEscapeMessageMarshalJSON] *)
Example test_sysex_escape_message_marshal_json :
  to_json (str "{""tag"":""SysExEscape"",""delta"":480,""status"":247,""data"":[243,1]}") (Event 2400 480 [] 247 0 (SysExEscape [243; 1])).
Proof. vm_compute. reflexivity. Qed.

(** midi/events/sysex/escape_message_test.go:121-144 [TestSysExEscapeNameUnmarshalJSON] *)
Example test_sysex_escape_name_unmarshal_json :
  from_json (str "{""tag"":""SysExEscape"",""delta"":480,""status"":247,""data"":[243,1]}")
  = Ok (Event 0 480 [] 247 0 (SysExEscape [243; 1])).
Proof. vm_compute. reflexivity. Qed.

(** midi/events/sysex/message_test.go:78-105 [TestSysExMessageMarshalBinary] *)
Example test_sysex_message_marshal_binary :
  marshal (Event 2400 480 [] 240 0 (SysExMessage (Manufacturer [126] (str "Special Purpose") (str "Non-RealTime Extensions")) [0; 9; 1] false))
  = Ok [240; 4; 126; 0; 9; 1].
Proof. vm_compute. reflexivity. Qed.

(** midi/events/sysex/message_test.go:107-134 [TestSysExMessageUnmarshalBinary] *)
Example test_sysex_message_unmarshal_binary :
  event_unmarshal default_env [131; 96; 240; 4; 126; 0; 9; 1]
  = Ok (Event 0 480 [131; 96; 240; 4; 126; 0; 9; 1] 240 0 (SysExMessage (Manufacturer [126] (str "Special Purpose") (str "Non-RealTime Extensions")) [0; 9; 1] false)).
Proof. vm_compute. reflexivity. Qed.

(** midi/events/sysex/message_test.go:136-164 [TestSysExSingleMessageMarshalBinary] *)
Example test_sysex_single_message_marshal_binary :
  marshal (Event 2400 480 [] 240 0 (SysExMessage (Manufacturer [126] (str "Special Purpose") (str "Non-RealTime Extensions")) [0; 9; 1] true))
  = Ok [240; 5; 126; 0; 9; 1; 247].
Proof. vm_compute. reflexivity. Qed.

(** midi/events/sysex/message_test.go:166-194 [TestSysExMessageUnmarshalText] *)
Example test_sysex_message_unmarshal_text :
  unmarshal_text manufacturers (str "      00 F0 05 7E 00 09 01 F7               tick:720        delta:480         F0 SysExMessage           Non-RealTime Extensions, 00 09 01")
  = Ok (Event 0 480 [] 240 0 (SysExMessage (Manufacturer [126] (str "Special Purpose") (str "Non-RealTime Extensions")) [0; 9; 1] false)).
Proof. vm_compute. reflexivity. Qed.

(** midi/events/sysex/message_test.go:196-217 [TestSysExMessageMarshalJSON] *)
Example test_sysex_message_marshal_json :
  to_json (str "{""tag"":""SysExMessage"",""delta"":480,""status"":240,""manufacturer"":{""id"":[126],""region"":""Special Purpose"",""name"":""Non-RealTime Extensions""},""data"":[0,9,1],""single"":true}") (Event 2400 480 [] 240 0 (SysExMessage (Manufacturer [126] (str "Special Purpose") (str "Non-RealTime Extensions")) [0; 9; 1] true)).
Proof. vm_compute. reflexivity. Qed.

(** midi/events/sysex/message_test.go:219-248 [TestSysExMessageNameUnmarshalJSON] *)
Example test_sysex_message_name_unmarshal_json :
  from_json (str "{""tag"":""SysExMessage"",""delta"":480,""status"":240,""manufacturer"":{""id"":[126],""region"":""Special Purpose"",""name"":""Non-RealTime Extensions""},""data"":[0,9,1],""single"":true}")
  = Ok (Event 0 480 [] 240 0 (SysExMessage (Manufacturer [126] (str "Special Purpose") (str "Non-RealTime Extensions")) [0; 9; 1] true)).
Proof. vm_compute. reflexivity. Qed.
