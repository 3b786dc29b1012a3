(** * Conformance: the project's own unit tests, replayed on the model.

    Every Example below is one test of /repo, with the inputs and the expected results of that test: the model gives
    the results that the tests demand of the code.  The tests of the events are in ConformanceEvents.v, the contents
    of the test files in Reference.v.  These are no properties; they are evidence that the model is the program. *)
From Verif Require Import Base Strings Tables Vlq Event Manufacturer Marshal Parse Unmarshal Track File Validate Transpose.
From Verif Require Import Hex TextEvent Assemble TextAssemble Json JsonText Disassemble Tsv Csv Notes NotesPrint Reference Template TemplateLoad TemplateSamples.

(** ** The reference files *)

(** ops/assemble/text_test.go:17-28 [TestTextReference] *)
Example test_text_assemble : assemble_text (fun _ _ => manufacturers) assemble_reference = Ok assembled_reference.
Proof. vm_compute. reflexivity. Qed.

(** ops/assemble/json_test.go:17-28 [TestJSONReference] *)
Example test_json_assemble : assemble_json_text default_env json_reference = Ok assembled_reference.
Proof. vm_compute. reflexivity. Qed.

(** commands/tsv_test.go:16-29 [TestTSV] *)
Example test_tsv :
  (do s <- decode default_env assembled_reference; do t <- tsv_export s; write_tsv [9] t) = Ok tsv_reference.
Proof. vm_compute. reflexivity. Qed.

(** ops/disassemble/disassemble_test.go:21-86 [TestDisassembleSMF] *)
Example test_disassemble : (do s <- decode default_env disassembled_reference; disassemble s) = Ok disassemble_reference.
Proof. vm_compute. reflexivity. Qed.

(** The same with the templates of the program as they are written *)
Example test_disassemble_template :
  (do s <- decode default_env disassembled_reference; Ok (listing (fun x => x) (str "{}") (str "document") (smf_data s))) =
  Ok (Some (disassemble_reference, Done)).
Proof. vm_compute. reflexivity. Qed.

(** ops/disassemble/disassemble_test.go:88-162 [TestDisassembleWithLoadedTemplate] *)
Example test_disassemble_with_loaded_template :
  (do s <- decode default_env templated_file; Ok (listing (fun x => x) loaded_template (str "document") (smf_data s))) =
  Ok (Some (templated_reference, Done)).
Proof. vm_compute. reflexivity. Qed.

(** ops/notes/notes_test.go:197-213 [TestNotesWithTempoChanges] *)
Example test_notes_with_tempo_changes :
  (do s <- decode default_env notes_file; do n <- extract default_env 0 (fun x => x) s; Ok (print_notes n)) = Ok notes_reference.
Proof. vm_compute. reflexivity. Qed.

(** ops/notes/notes_test.go:221-237 [TestExtractNotesWithMissingNoteOff] *)
Example test_extract_notes_with_missing_note_off :
  (do s <- decode default_env missing_file; do n <- extract default_env 0 (fun x => x) s; Ok (print_notes n)) = Ok missing_reference.
Proof. vm_compute. reflexivity. Qed.

(** ** Values that the tests use *)

(** midi/events/binary_test.go:155-159, 165-169, 213-217; midi/MTrk_test.go:27-49 *)
Definition motu_manufacturer : manufacturer := Manufacturer [0; 0; 59] (str "American") (str "Mark Of The Unicorn (MOTU)").
Definition extensions : manufacturer := Manufacturer [126] (str "Special Purpose") (str "Non-RealTime Extensions").
Definition c_sharp_3 : note := Note 49 (str "C♯3") (str "C♯3").
Definition c_3 : note := Note 48 (str "C3") (str "C3").

(** ** midi/events *)

(** midi/events/binary_test.go:13-43, 45-241 [TestEventUnmarshalBinary]: the bytes and the event made of them *)
Definition binary_tests : list (bytes * (bytes -> outcome event)) := [
  ([131; 96; 255; 0; 2; 0; 23],
   fun B => Ok (make_sequence_number 0 480 23 B));
  ([131; 96; 255; 1; 13; 84; 104; 105; 115; 32; 97; 110; 100; 32; 84; 104; 97; 116],
   fun B => Ok (make_text KText 0 480 (str "This and That") B));
  ([131; 96; 255; 2; 4; 84; 104; 101; 109],
   fun B => Ok (make_text KCopyright 0 480 (str "Them") B));
  ([131; 96; 255; 3; 15; 82; 97; 105; 108; 114; 111; 97; 100; 32; 84; 114; 97; 113; 117; 101],
   fun B => Ok (make_text KTrackName 0 480 (str "Railroad Traque") B));
  ([131; 96; 255; 4; 10; 68; 105; 100; 103; 101; 114; 105; 100; 111; 111],
   fun B => Ok (make_text KInstrumentName 0 480 (str "Didgeridoo") B));
  ([131; 96; 255; 5; 8; 76; 97; 45; 108; 97; 45; 108; 97],
   fun B => Ok (make_text KLyric 0 480 (str "La-la-la") B));
  ([131; 96; 255; 6; 15; 72; 101; 114; 101; 32; 66; 101; 32; 68; 114; 97; 103; 111; 110; 115],
   fun B => Ok (make_text KMarker 0 480 (str "Here Be Dragons") B));
  ([131; 96; 255; 7; 12; 77; 111; 114; 101; 32; 99; 111; 119; 98; 101; 108; 108],
   fun B => Ok (make_text KCuePoint 0 480 (str "More cowbell") B));
  ([131; 96; 255; 8; 6; 69; 115; 99; 97; 112; 101],
   fun B => Ok (make_text KProgramName 0 480 (str "Escape") B));
  ([131; 96; 255; 9; 8; 84; 104; 101; 84; 104; 105; 110; 103],
   fun B => Ok (make_text KDeviceName 0 480 (str "TheThing") B));
  ([131; 96; 255; 32; 1; 13],
   fun B => make_channel_prefix 0 480 13 B);
  ([131; 96; 255; 33; 1; 112],
   fun B => make_port 0 480 112 B);
  ([131; 96; 255; 81; 3; 7; 161; 32],
   fun B => Ok (make_tempo 0 480 500000 B));
  ([131; 96; 255; 88; 4; 3; 2; 24; 8],
   fun B => make_time_signature 0 480 3 4 24 8 B);
  ([131; 96; 255; 89; 2; 253; 1],
   fun B => make_key_signature 0 480 (-3) 1 B);
  ([131; 96; 255; 84; 5; 45; 45; 59; 7; 39],
   fun B => make_smpte_offset 0 480 13 45 59 25 7 39 B);
  ([131; 96; 255; 47; 0],
   fun B => Ok (make_end_of_track 0 480 B));
  ([131; 96; 255; 127; 6; 0; 0; 59; 58; 76; 94],
   fun B => Ok (make_sequencer_specific 0 480 motu_manufacturer [58; 76; 94] B));
  ([131; 96; 135; 49; 72],
   fun B => make_note_off 0 480 7 c_sharp_3 72 B);
  ([131; 96; 151; 49; 72],
   fun B => make_note_on 0 480 7 c_sharp_3 72 B);
  ([131; 96; 167; 100],
   fun B => make_polyphonic_pressure 0 480 7 100 B);
  ([131; 96; 183; 84; 29],
   fun B => make_controller 0 480 7 (MkController 84 (str "Portamento Control")) 29 B);
  ([131; 96; 199; 25],
   fun B => make_program_change 0 480 7 0 25 B);
  ([131; 96; 215; 100],
   fun B => make_channel_pressure 0 480 7 100 B);
  ([131; 96; 231; 0; 8],
   fun B => make_pitch_bend 0 480 7 8 B);
  ([131; 96; 240; 4; 126; 0; 9; 1],
   fun B => Ok (make_sysex 0 480 extensions [0; 9; 1] false B));
  ([131; 96; 247; 4; 126; 0; 9; 1],
   fun B => Ok (make_continuation 0 480 [126; 0; 9; 1] false B))].

Example test_event_unmarshal_binary :
  Forall (fun t => event_unmarshal default_env (fst t) = snd t (fst t)) binary_tests.
Proof. repeat (apply Forall_cons; [vm_compute; reflexivity|]). apply Forall_nil. Qed.

(** midi/events/json_test.go:10-25 [TestEventUnmarshalJSON] *)
Example test_event_unmarshal_json :
  (do (v, _) <- read_text (str "{ ""event"": { ""tag"":""SequenceNumber"",""delta"":480,""status"":255,""type"":0,""sequence-number"":23 } }");
   unmarshal_json default_env v) = Ok (make_sequence_number 0 480 23 []).
Proof. vm_compute. reflexivity. Qed.

(** midi/events/text_test.go:10-25 [TestEventUnmarshalText] *)
Example test_event_unmarshal_text :
  unmarshal_text manufacturers (str "      00 FF 00 02 00 17                     tick:0          delta:480         00 SequenceNumber         23")
  = Ok (make_sequence_number 0 480 23 []).
Proof. vm_compute. reflexivity. Qed.

(** midi/events/sysex/message_test.go:10-42 [TestParseSysExSingleMessage] *)
Example test_parse_sysex_single_message :
  sysex_parse default_env 0 false [131; 96; 240; 5; 126; 0; 9; 1; 247]
  = Ok (Event 0 480 [131; 96; 240; 5; 126; 0; 9; 1; 247] 240 0 (SysExMessage extensions [0; 9; 1] true)).
Proof. vm_compute. reflexivity. Qed.

(** midi/events/sysex/message_test.go:44-76 [TestParseSysExMessage] *)
Example test_parse_sysex_message :
  sysex_parse default_env 0 false [131; 96; 240; 5; 126; 0; 9; 1; 67]
  = Ok (Event 0 480 [131; 96; 240; 5; 126; 0; 9; 1; 67] 240 0 (SysExMessage extensions [0; 9; 1; 67] false)).
Proof. vm_compute. reflexivity. Qed.

(** midi/events/sysex/continuation_message_test.go:10-29 [TestParseContinuationMessage], which looks at the data only *)
Example test_parse_continuation_message :
  match sysex_parse default_env 0 true [131; 96; 247; 5; 126; 0; 9; 1; 247] with
  | Ok e => match e_body e with SysExContinuation d _ => d = [126; 0; 9; 1] | _ => False end
  | _ => False
  end.
Proof. vm_compute. reflexivity. Qed.

(** midi/events/sysex/escape_message_test.go:10-29 [TestParseEscapeMessage] *)
Example test_parse_escape_message :
  match sysex_parse default_env 0 false [131; 96; 247; 2; 243; 1] with
  | Ok e => match e_body e with SysExEscape d => d = [243; 1] | _ => False end
  | _ => False
  end.
Proof. vm_compute. reflexivity. Qed.

(** midi/events/midi/note_on_test.go:179-222 [TestTransposeNoteOn] *)
Example test_transpose_note_on :
  transpose_event default_env (Some new_context) 1
    (Event 0 0 [0; 129; 57; 72] 145 0 (NoteOn 1 (Note 57 (str "A3") (str "A3")) 72))
  = Ok (Event 0 0 [] 145 0 (NoteOn 1 (Note 58 (str "A♯3") (str "A♯3")) 72), Some new_context).
Proof. vm_compute. reflexivity. Qed.

(** midi/events/midi/note_off_test.go:176-219 [TestTransposeNoteOff] *)
Example test_transpose_note_off :
  transpose_event default_env (Some new_context) 1
    (Event 0 0 [0; 129; 57; 72] 129 0 (NoteOff 1 (Note 57 (str "A3") (str "A3")) 72))
  = Ok (Event 0 0 [] 129 0 (NoteOff 1 (Note 58 (str "A♯3") (str "A♯3")) 72), Some new_context).
Proof. vm_compute. reflexivity. Qed.

(** ** midi *)

(** The events of a decoded track chunk: midi/MTrk_test.go:74-81 and 114-121 *)
Definition track_events (number : Z) (data : bytes) : outcome (list event) :=
  do t <- unmarshal_mtrk default_env number new_context data; Ok (t_events t).

(** midi/MTrk_test.go:51-88 [TestUnmarshalNoteAlias] *)
Example test_unmarshal_note_alias :
  track_events 1
    [77; 84; 114; 107; 0; 0; 0; 20; 0; 255; 89; 2; 6; 0; 0; 145; 49; 72; 0; 255; 89; 2; 250; 1; 0; 129; 49; 100]
  = (do k1 <- make_key_signature 0 0 6 0 [0; 255; 89; 2; 6; 0];
     do n1 <- make_note_on 0 0 1 c_sharp_3 72 [0; 145; 49; 72];
     do k2 <- make_key_signature 0 0 (-6) 1 [0; 255; 89; 2; 250; 1];
     do n2 <- make_note_off 0 0 1 (Note 49 (str "C♯3") (str "D♭3")) 100 [0; 129; 49; 100];
     Ok [k1; n1; k2; n2]).
Proof. vm_compute. reflexivity. Qed.

(** midi/MTrk_test.go:90-122 [TestUnmarshalWithRunningStatus] *)
Example test_unmarshal_with_running_status :
  track_events 1
    [77; 84; 114; 107; 0; 0; 0; 24; 0; 145; 48; 72; 0; 48; 0; 0; 48; 64; 0; 48; 32; 0; 255; 47; 0]
  = (do n1 <- make_note_on 0 0 1 c_3 72 [0; 145; 48; 72];
     do n2 <- make_note_on 0 0 1 c_3 0 [0; 48; 0];
     do n3 <- make_note_on 0 0 1 c_3 64 [0; 48; 64];
     do n4 <- make_note_on 0 0 1 c_3 32 [0; 48; 32];
     Ok [n1; n2; n3; n4; make_end_of_track 0 0 [0; 255; 47; 0]]).
Proof. vm_compute. reflexivity. Qed.

(** midi/MTrk_test.go:124-147 [TestUnmarshalWithInvalidRunningStatus] *)
Example test_unmarshal_with_invalid_running_status :
  track_events 1 [77; 84; 114; 107; 0; 0; 0; 11; 0; 60; 76; 0; 145; 49; 72; 0; 255; 47; 0] = Err.
Proof. vm_compute. reflexivity. Qed.

(** midi/MThd_test.go:8-33 [TestMThdMarshal] *)
Example test_mthd_marshal :
  marshal_mthd (MThd (str "MThd") 6 1 1 480 0 false 0 0 false []) = [77; 84; 104; 100; 0; 0; 0; 6; 0; 1; 0; 1; 1; 224].
Proof. vm_compute. reflexivity. Qed.

(** midi/MThd_test.go:35-67 [TestUnmarshalMThdFormat0] *)
Example test_unmarshal_mthd_format0 :
  let b := [77; 84; 104; 100; 0; 0; 0; 6; 0; 0; 0; 1; 1; 224] in
  unmarshal_mthd b = Ok (MThd (str "MThd") 6 0 1 480 480 false 0 0 false b).
Proof. vm_compute. reflexivity. Qed.

(** midi/MThd_test.go:69-197 [TestUnmarshalMThdSMPTE24FPS], [25FPS], [29FPS], [30FPS] *)
Example test_unmarshal_mthd_smpte :
  Forall (fun t : Z * Z * Z * bool => let '(hi, lo, fps, drop) := t in
    let b := [77; 84; 104; 100; 0; 0; 0; 6; 0; 0; 0; 1; hi; lo] in
    unmarshal_mthd b = Ok (MThd (str "MThd") 6 0 1 (256 * hi + lo) 0 true lo fps drop b))
  [(232, 80, 24, false); (231, 40, 25, false); (227, 80, 29, true); (226, 80, 30, false)].
Proof. repeat constructor. Qed.

(** midi/smf_test.go:60-115 [TestValidateFormat1]; the messages are the constructors of [verror] *)
Example test_validate_format1 :
  let eot := make_end_of_track 0 0 [0; 255; 47; 0] in
  let tempo := make_tempo 0 0 50000 [0; 255; 81; 3; 7; 161; 32] in
  (do offset <- make_smpte_offset 0 0 13 45 59 25 7 39 [0; 255; 84; 5; 77; 45; 59; 7; 39];
   do errors <- validate (SMF (Some (MThd [] 6 1 0 0 0 false 0 0 false []))
     [MTrk [] 0 0 [] [eot] None; MTrk [] 1 0 [] [tempo; offset; eot] None]);
   Ok (errors, offset))
  = (do offset <- make_smpte_offset 0 0 13 45 59 25 7 39 [0; 255; 84; 5; 77; 45; 59; 7; 39];
     Ok ([VTrackUnexpected 1 tempo; VTrackUnexpected 1 offset], offset)).
Proof. vm_compute. reflexivity. Qed.

(** midi/smf_test.go:117-169 [TestValidateProgramBank] *)
Example test_validate_program_bank :
  let eot := make_end_of_track 0 0 [0; 255; 47; 0] in
  let c2 := Note 48 (str "C2") (str "C2") in
  (do msb <- make_controller 0 0 7 (MkController 0 (str "Bank Select (MSB)")) 5 [0; 183; 0; 5];
   do lsb <- make_controller 0 0 7 (MkController 32 (str "Bank Select (LSB)")) 33 [0; 183; 32; 33];
   do msb3 <- make_controller 0 0 3 (MkController 0 (str "Bank Select (MSB)")) 5 [0; 179; 0; 5];
   do lsb5 <- make_controller 0 0 5 (MkController 32 (str "Bank Select (LSB)")) 43 [0; 181; 32; 33];
   do on <- make_note_on 0 0 0 c2 64 [0; 48; 64];
   do off <- make_note_off 0 0 7 c2 64 [0; 48; 64];
   validate (SMF (Some (MThd [] 6 1 0 0 0 false 0 0 false []))
     [MTrk [] 0 0 [] [eot] None;
      MTrk [] 1 0 [] [msb; lsb; on; off; msb; on; lsb; off; msb3; lsb5; on; off; eot] None]))
  = Ok [VMsbMissingLsb 1 5; VLsbMissingMsb 1 7; VMsbOtherChannel 1 9; VLsbOtherChannel 1 10].
Proof. vm_compute. reflexivity. Qed.

(** ** encoding/midi *)

(** encoding/midi/decoder_test.go:15-55 *)
Definition smf0 : bytes :=
  [77; 84; 104; 100; 0; 0; 0; 6; 0; 0; 0; 1; 0; 96; 77; 84; 114; 107; 0; 0; 0; 111; 0; 255; 81; 3; 7; 161;
   32; 0; 255; 84; 5; 45; 45; 59; 7; 39; 0; 255; 0; 2; 0; 23; 0; 255; 1; 13; 84; 104; 105; 115; 32; 97; 110;
   100; 32; 84; 104; 97; 116; 0; 255; 2; 4; 84; 104; 101; 109; 0; 255; 3; 15; 65; 99; 111; 117; 115; 116;
   105; 99; 32; 71; 117; 105; 116; 97; 114; 0; 255; 4; 10; 68; 105; 100; 103; 101; 114; 105; 100; 111; 111;
   0; 255; 89; 2; 0; 1; 0; 255; 127; 6; 0; 0; 59; 58; 76; 94; 0; 145; 49; 72; 0; 60; 76; 0; 129; 49; 100; 0;
   255; 47; 0].
Definition smf1 : bytes :=
  [77; 84; 104; 100; 0; 0; 0; 6; 0; 1; 0; 2; 0; 96; 77; 84; 114; 107; 0; 0; 0; 33; 0; 255; 3; 9; 69; 120; 97;
   109; 112; 108; 101; 32; 49; 0; 255; 81; 3; 7; 161; 32; 0; 255; 84; 5; 45; 45; 59; 7; 39; 0; 255; 47; 0;
   77; 84; 114; 107; 0; 0; 0; 95; 0; 255; 0; 2; 0; 23; 0; 255; 1; 13; 84; 104; 105; 115; 32; 97; 110; 100;
   32; 84; 104; 97; 116; 0; 255; 2; 4; 84; 104; 101; 109; 0; 255; 3; 15; 65; 99; 111; 117; 115; 116; 105; 99;
   32; 71; 117; 105; 116; 97; 114; 0; 255; 4; 10; 68; 105; 100; 103; 101; 114; 105; 100; 111; 111; 0; 255;
   89; 2; 0; 1; 0; 255; 127; 6; 0; 0; 59; 58; 76; 94; 0; 145; 49; 72; 0; 60; 76; 0; 129; 49; 100; 0; 255; 47;
   0].

(** encoding/midi/decoder_test.go:194-256: the events after [example1] and the meta events of track 0 *)
Definition test_head : outcome (list event) :=
  do offset <- make_smpte_offset 0 0 13 45 59 25 7 39 [0; 255; 84; 5; 45; 45; 59; 7; 39];
  Ok [make_tempo 0 0 500000 [0; 255; 81; 3; 7; 161; 32]; offset].
Definition test_tail : outcome (list event) :=
  do key <- make_key_signature 0 0 0 1 [0; 255; 89; 2; 0; 1];
  do on1 <- make_note_on 0 0 1 c_sharp_3 72 [0; 145; 49; 72];
  do on2 <- make_note_on 0 0 1 (Note 60 (str "C4") (str "C4")) 76 [0; 60; 76];
  do off <- make_note_off 0 0 1 c_sharp_3 100 [0; 129; 49; 100];
  Ok [make_sequence_number 0 0 23 [0; 255; 0; 2; 0; 23];
      make_text KText 0 0 (str "This and That") [0; 255; 1; 13; 84; 104; 105; 115; 32; 97; 110; 100; 32; 84; 104; 97; 116];
      make_text KCopyright 0 0 (str "Them") [0; 255; 2; 4; 84; 104; 101; 109];
      make_text KTrackName 0 0 (str "Acoustic Guitar")
        [0; 255; 3; 15; 65; 99; 111; 117; 115; 116; 105; 99; 32; 71; 117; 105; 116; 97; 114];
      make_text KInstrumentName 0 0 (str "Didgeridoo") [0; 255; 4; 10; 68; 105; 100; 103; 101; 114; 105; 100; 111; 111];
      key;
      make_sequencer_specific 0 0 motu_manufacturer [58; 76; 94] [0; 255; 127; 6; 0; 0; 59; 58; 76; 94];
      on1; on2; off; make_end_of_track 0 0 [0; 255; 47; 0]].

(** encoding/midi/decoder_test.go:144-190 [testDecode]: what the test compares (tag, number, length, first eight bytes
    and events of each track; the whole header) *)
Definition observed (s : smf) : option mthd * list (bytes * Z * Z * bytes * list event) :=
  (f_mthd s, map (fun t => (t_tag t, t_number t, t_length t, firstn 8 (t_bytes t), t_events t)) (f_tracks s)).

(** encoding/midi/decoder_test.go:136-138 [TestDecodeFormat0] *)
Example test_decode_format0 :
  (do s <- decode default_env smf0; Ok (observed s))
  = (do head <- test_head; do tail <- test_tail;
     Ok (Some (MThd (str "MThd") 6 0 1 96 96 false 0 0 false [77; 84; 104; 100; 0; 0; 0; 6; 0; 0; 0; 1; 0; 96]),
         [(str "MTrk", 0, 111, [77; 84; 114; 107; 0; 0; 0; 111], head ++ tail)])).
Proof. vm_compute. reflexivity. Qed.

(** encoding/midi/decoder_test.go:140-142 [TestDecodeFormat1] *)
Example test_decode_format1 :
  (do s <- decode default_env smf1; Ok (observed s))
  = (do head <- test_head; do tail <- test_tail;
     Ok (Some (MThd (str "MThd") 6 1 2 96 96 false 0 0 false [77; 84; 104; 100; 0; 0; 0; 6; 0; 1; 0; 2; 0; 96]),
         [(str "MTrk", 0, 33, [77; 84; 114; 107; 0; 0; 0; 33],
           make_text KTrackName 0 0 (str "Example 1") [0; 255; 3; 9; 69; 120; 97; 109; 112; 108; 101; 32; 49] :: head
           ++ [make_end_of_track 0 0 [0; 255; 47; 0]]);
          (str "MTrk", 1, 95, [77; 84; 114; 107; 0; 0; 0; 95], tail)])).
Proof. vm_compute. reflexivity. Qed.

(** encoding/midi/encoder_test.go:16-23 [TestEncodeEmptySMF] *)
Example test_encode_empty_smf : encode (SMF None []) = Err.
Proof. vm_compute. reflexivity. Qed.

(** encoding/midi/encoder_test.go:25-41 [TestEncodeMThdOnly] *)
Example test_encode_mthd_only :
  (do h <- make_mthd 1 0 480 []; encode (SMF (Some h) [])) = Ok [77; 84; 104; 100; 0; 0; 0; 6; 0; 1; 0; 0; 1; 224].
Proof. vm_compute. reflexivity. Qed.

(** encoding/midi/encoder_test.go:43-57 [TestEncodeInvalidMThd] *)
Example test_encode_invalid_mthd :
  let t := MTrk (str "MTrk") 0 0 [] [] None in
  (do h <- make_mthd 1 0 480 []; encode (SMF (Some h) [t; t])) = Err.
Proof. vm_compute. reflexivity. Qed.

(** ** midi/context and midi/lib *)

(** midi/context/context_test.go:10-85 [TestFormatNote], [TestFormatNoteWithC4]: notes 0 to 119 with sharps and with
    flats; the octave of note 0 is -1, or -2 when middle C is C4 *)
Definition sharp_names : list bytes := map str ["C"; "C♯"; "D"; "D♯"; "E"; "F"; "F♯"; "G"; "G♯"; "A"; "A♯"; "B"]%string.
Definition flat_names : list bytes := map str ["C"; "D♭"; "D"; "E♭"; "E"; "F"; "G♭"; "G"; "A♭"; "A"; "B♭"; "B"]%string.
Definition expected_names (first : Z) (names : list bytes) : list bytes :=
  flat_map (fun octave => map (fun n => n ++ dec (first + octave)) names) [0; 1; 2; 3; 4; 5; 6; 7; 8; 9].

Example test_format_note :
  Forall (fun t : bool * Z * bool * list bytes => let '(c4, first, flats, names) := t in
    map (fun n => format_note (Env c4 manufacturers) flats (Z.of_nat n)) (seq 0 120) = expected_names first names)
  [(false, -1, false, sharp_names); (false, -1, true, flat_names); (true, -2, false, sharp_names); (true, -2, true, flat_names)].
Proof. repeat (apply Forall_cons; [vm_compute; reflexivity|]). apply Forall_nil. Qed.

(** midi/lib/scales_test.go:8-50, 52-94 [TestTransposeCMajorScale], [TestTransposeAMinorScale]: five octaves each *)
Definition scale_tests : list (scale * Z * scale) :=
  [(C_MAJOR, 1, D_FLAT_MAJOR); (C_MAJOR, 2, D_MAJOR); (C_MAJOR, 3, E_FLAT_MAJOR); (C_MAJOR, 4, E_MAJOR);
   (C_MAJOR, 5, F_MAJOR); (C_MAJOR, 6, F_SHARP_MAJOR); (C_MAJOR, 7, G_MAJOR); (C_MAJOR, 8, A_FLAT_MAJOR);
   (C_MAJOR, 9, A_MAJOR); (C_MAJOR, 10, B_FLAT_MAJOR); (C_MAJOR, 11, B_MAJOR); (C_MAJOR, 12, C_MAJOR);
   (C_MAJOR, (-1), B_MAJOR); (C_MAJOR, (-2), B_FLAT_MAJOR); (C_MAJOR, (-3), A_MAJOR); (C_MAJOR, (-4), A_FLAT_MAJOR);
   (C_MAJOR, (-5), G_MAJOR); (C_MAJOR, (-6), F_SHARP_MAJOR); (C_MAJOR, (-7), F_MAJOR); (C_MAJOR, (-8), E_MAJOR);
   (C_MAJOR, (-9), E_FLAT_MAJOR); (C_MAJOR, (-10), D_MAJOR); (C_MAJOR, (-11), D_FLAT_MAJOR); (C_MAJOR, (-12), C_MAJOR);
   (A_MINOR, 1, B_FLAT_MINOR); (A_MINOR, 2, B_MINOR); (A_MINOR, 3, C_MINOR); (A_MINOR, 4, C_SHARP_MINOR);
   (A_MINOR, 5, D_MINOR); (A_MINOR, 6, D_SHARP_MINOR); (A_MINOR, 7, E_MINOR); (A_MINOR, 8, F_MINOR);
   (A_MINOR, 9, F_SHARP_MINOR); (A_MINOR, 10, G_MINOR); (A_MINOR, 11, G_SHARP_MINOR); (A_MINOR, 12, A_MINOR);
   (A_MINOR, (-1), G_SHARP_MINOR); (A_MINOR, (-2), G_MINOR); (A_MINOR, (-3), F_SHARP_MINOR); (A_MINOR, (-4), F_MINOR);
   (A_MINOR, (-5), E_MINOR); (A_MINOR, (-6), D_SHARP_MINOR); (A_MINOR, (-7), D_MINOR); (A_MINOR, (-8), C_SHARP_MINOR);
   (A_MINOR, (-9), C_MINOR); (A_MINOR, (-10), B_MINOR); (A_MINOR, (-11), B_FLAT_MINOR); (A_MINOR, (-12), A_MINOR)].

Example test_transpose_scale :
  Forall (fun octave => Forall (fun t : scale * Z * scale => let '(s, steps, expected) := t in
    scale_transpose s (12 * octave + steps) = Ok expected) scale_tests) [-2; -1; 0; 1; 2].
Proof. repeat (apply Forall_cons; [repeat (apply Forall_cons; [vm_compute; reflexivity|]); apply Forall_nil|]). apply Forall_nil. Qed.

(** midi/lib/scales_test.go:96-118 [TestTransposeEnharmonicKeys] *)
Example test_transpose_enharmonic_keys :
  Forall (fun t : scale * Z * scale => let '(s, steps, expected) := t in scale_transpose s steps = Ok expected)
  [(C_MAJOR, 1, D_FLAT_MAJOR); (G_MAJOR, (-1), F_SHARP_MAJOR); (C_MAJOR, 11, B_MAJOR); (A_MINOR, 1, B_FLAT_MINOR);
   (B_MINOR, (-1), B_FLAT_MINOR); (A_MINOR, 6, D_SHARP_MINOR)].
Proof. repeat (apply Forall_cons; [vm_compute; reflexivity|]). apply Forall_nil. Qed.

(** midi/lib/channel_test.go:7-41 [TestParseChannel], [TestParseInvalidChannel] *)
Example test_parse_channel :
  map (fun s => parse_channel (str s)) ["0"; "12"; "13"; "15"; "-1"; "16"]%string = [Ok 0; Ok 12; Ok 13; Ok 15; Err; Err].
Proof. vm_compute. reflexivity. Qed.

(** midi/lib/delta_test.go:7-38 [TestParseDelta], [TestParseInvalidDelta] *)
Example test_parse_delta : map (fun s => parse_delta (str s)) ["0"; "480"; "-1"]%string = [Ok 0; Ok 480; Err].
Proof. vm_compute. reflexivity. Qed.

(** midi/lib/hex_test.go:8-23, 25-41 [TestParseHex], [TestHexMarshalBinary] *)
Example test_parse_hex : parse_hex (str "00 09 01") = Ok [0; 9; 1].
Proof. vm_compute. reflexivity. Qed.
Example test_hex_marshal_binary : vlf_encode [126; 0; 9; 1] = [4; 126; 0; 9; 1].
Proof. vm_compute. reflexivity. Qed.

(** midi/lib/types_test.go:8-24 [TestVlq2Bin] *)
Example test_vlq2bin : map vlq_encode [0; 1; 480] = [[0]; [1]; [131; 96]].
Proof. vm_compute. reflexivity. Qed.

(** ** ops *)

(** ops/disassemble/disassemble_test.go:164-190 [TestEllipsize] *)
Example test_ellipsize :
  map (ellipsize (str "12 34 56")) [0; 1; 2; 7; 8; 16]
  = [[]; str "…"; str "1…"; str "12 34 …"; str "12 34 56"; str "12 34 56"]
  /\ map (ellipsize (str "1… 34 56")) [7; 8] = [str "1… 34 …"; str "1… 34 56"].
Proof. vm_compute. split; reflexivity. Qed.

(** ops/transpose/transpose_test.go:14-108 [TestTransposeMTrk]; the zero EndOfTrack has no status *)
Example test_transpose_mtrk :
  let a3 := Note 57 (str "A3") (str "A3") in
  let b_flat_3 := Note 58 (str "B♭3") (str "B♭3") in
  let eot := Event 0 0 [] 0 0 EndOfTrack in
  (do key <- make_key_signature 0 0 0 0 [];
   do on <- make_note_on 0 0 1 a3 76 [];
   do off <- make_note_off 0 0 1 a3 40 [];
   do t <- transpose_track default_env 1 (MTrk (str "MTrk") 1 0 [] [key; on; off; eot] (Some new_context));
   Ok (t_tag t, t_number t, t_events t))
  = (do key <- make_key_signature 0 0 (-5) 0 [];
     do on <- make_note_on 0 0 1 b_flat_3 76 [];
     do off <- make_note_off 0 0 1 b_flat_3 40 [];
     Ok (str "MTrk", 1, [key; on; off; eot])).
Proof. vm_compute. reflexivity. Qed.

(** ops/notes/notes_test.go:17-189 [TestExtractNotes]: times in nanoseconds *)
Example test_extract_notes :
  let note (v : Z) (s : string) := Note v (str s) (str s) in
  let h := MThd [] 0 1 2 480 480 false 0 0 false [] in
  let ms := 1000000 in
  (do on1 <- make_note_on 0 0 0 (note 48 "C3"%string) 72 []; do off1 <- make_note_off 480 480 0 (note 48 "C3"%string) 64 [];
   do on2 <- make_note_on 480 0 0 (note 50 "D3"%string) 72 []; do off2 <- make_note_off 960 480 0 (note 50 "D3"%string) 64 [];
   do on3 <- make_note_on 960 0 0 (note 52 "E3"%string) 72 []; do off3 <- make_note_off 1440 480 0 (note 52 "E3"%string) 64 [];
   do on4 <- make_note_on 1440 0 0 (note 53 "F3"%string) 72 []; do off4 <- make_note_off 1920 480 0 (note 53 "F3"%string) 64 [];
   do on5 <- make_note_on 1920 0 0 (note 55 "G3"%string) 72 []; do off5 <- make_note_on 2400 480 0 (note 55 "G3"%string) 0 [];
   extract default_env 0 (fun x => x)
     (SMF (Some h) [MTrk [] 0 0 [] [make_tempo 0 0 500000 []] None;
                    MTrk [] 0 0 [] [on1; off1; on2; off2; on3; off3; on4; off4; on5; off5] None]))
  = Ok [NoteOut 0 48 (str "C3") 72 0 480 0 (500 * ms) (500 * ms);
        NoteOut 0 50 (str "D3") 72 480 960 (500 * ms) (1000 * ms) (500 * ms);
        NoteOut 0 52 (str "E3") 72 960 1440 (1000 * ms) (1500 * ms) (500 * ms);
        NoteOut 0 53 (str "F3") 72 1440 1920 (1500 * ms) (2000 * ms) (500 * ms);
        NoteOut 0 55 (str "G3") 72 1920 2400 (2000 * ms) (2500 * ms) (500 * ms)].
Proof. vm_compute. reflexivity. Qed.
