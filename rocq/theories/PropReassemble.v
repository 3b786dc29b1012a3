(** * Files as text: C56, C57.  Theorems only; proofs in ReassembleProofs.v, TextCrashProofs.v and ReassembleSamples.v. *)
From Verif Require Import Base Strings Tables Event Marshal Track File SpecEvent SpecTrack SpecTable SpecAssemble SpecNote SpecSurvive SpecRead NoteProofs Disassemble Regex TextEvent
  TextAssemble Assemble Samples SampleProofs ReadSamples ReassembleProofs TextCrashProofs ReassembleSamples.

(** C56, full statement: every decoded file, disassembled and assembled again, decodes to the same events.  False as shown below and for the events
    of C36 and C16; missing: SMPTE time codes in the header, texts that contain a tag, packets of messages apart from each other, events that are not
    [readable] or not [legal_event]. *)
Theorem C56_text_roundtrip_partial : forall env r s text tables, is_bytes r -> decode env r = Ok s -> middle_octave env = 4 ->
  (forall h, f_mthd s = Some h -> h_smpte h = false) -> Forall (track_readable tables) (f_tracks s) ->
  Forall (fun t => Forall legal_event (t_events t) /\ chained false (t_events t) /\ faithful_events env (t_events t)) (f_tracks s) ->
  disassemble s = Ok text -> ~ long_line text ->
  exists bs, assemble_text tables text = Ok bs /\ (zlen bs < 4294967296 ->
    exists s' h h', decode env bs = Ok s' /\ f_mthd s = Some h /\ f_mthd s' = Some h' /\ same_header h h' /\
      map (fun t => map ev_view (t_events t)) (f_tracks s') = map (fun t => map ev_view (t_events t)) (f_tracks s)).
Proof. exact text_roundtrip. Qed.
Print Assumptions C56_text_roundtrip_partial.

(** Without any condition on the packets and the values: what the assembler then encodes is the header and the events that were printed. *)
Theorem C56_reassembled_partial : forall env r s text tables, is_bytes r -> decode env r = Ok s -> middle_octave env = 4 ->
  (forall h, f_mthd s = Some h -> h_smpte h = false) -> Forall (track_readable tables) (f_tracks s) ->
  disassemble s = Ok text -> ~ long_line text ->
  exists h h' ts, f_mthd s = Some h /\ assemble_text tables text = encode (SMF (Some h') ts) /\
    h_tag h' = h_tag h /\ h_length h' = h_length h /\ h_format h' = h_format h /\ h_tracks h' = h_tracks h /\ h_division h' = h_division h /\
    Forall2 (fun t t' => events_back (t_events t) (t_events t') /\ Forall legal_header (t_events t') /\ t_tag t' = t_tag t) (f_tracks s) ts.
Proof. exact reassembled. Qed.
Print Assumptions C56_reassembled_partial.

Example C56_example : decode default_env sample_file = Ok sample_smf /\ middle_octave default_env = 4 /\
  (forall h, f_mthd sample_smf = Some h -> h_smpte h = false) /\ Forall (track_readable in_order) (f_tracks sample_smf) /\
  Forall (fun t => Forall legal_event (t_events t) /\ chained false (t_events t) /\ faithful_events default_env (t_events t)) (f_tracks sample_smf) /\
  disassemble sample_smf = Ok sample_text /\ ~ long_line sample_text /\ map (fun t => length (t_events t)) (f_tracks sample_smf) = [3%nat; 11%nat].
Proof.
  split; [vm_compute; reflexivity|]. split; [reflexivity|]. split; [intros h [= <-]; reflexivity|]. split; [exact sample_track_readable|].
  split; [exact sample_chained|]. split; [apply sample_short|]. split; [apply sample_short|vm_compute; reflexivity].
Qed.

(** A file with a text event "MTrk": assembling what was disassembled crashes. *)
Theorem C56_tag_in_text_refuted : exists file s, decode default_env file = Ok s /\ (forall h, f_mthd s = Some h -> h_smpte h = false) /\ through_text file = Panic.
Proof. exact text_crashes. Qed.
Print Assumptions C56_tag_in_text_refuted.

(** A note between the two packets of a message: the message becomes complete, the second packet becomes an escape message with the end mark in its data. *)
Theorem C56_packets_refuted : exists file bs, through_text file = Ok bs /\
  bodies (decode default_env file) =
    [[SysExMessage (Manufacturer [67] (str "Japanese") (str "Yamaha")) [1; 2] false; NoteOn 0 (Note 60 (str "C4") (str "C4")) 64; SysExContinuation [3; 4] false; EndOfTrack]] /\
  bodies (decode default_env bs) =
    [[SysExMessage (Manufacturer [67] (str "Japanese") (str "Yamaha")) [1; 2] true; NoteOn 0 (Note 60 (str "C4") (str "C4")) 64; SysExEscape [3; 4; 247]; EndOfTrack]].
Proof. exact packets_split. Qed.
Print Assumptions C56_packets_refuted.

(** A header with an SMPTE time code is printed in a form that the assembler rejects. *)
Theorem C56_timecode_refuted : exists file s, decode default_env file = Ok s /\ map (fun t => map e_body (t_events t)) (f_tracks s) = [[EndOfTrack]] /\
  through_text file = Err.
Proof. exact timecode_rejected. Qed.
Print Assumptions C56_timecode_refuted.

(** C57, full statement: assembling any text ends with a file or an error.  False as shown below; this leaves exactly three causes of a crash and one of
    a hang. *)
Theorem C57_crash_partial : forall tables text,
  match assemble_text tables text with
  | Panic => exists lines, lines_of text lines /\
      ((exists l, In l lines /\ occurs (str "SMPTEOffset") l) \/ empty_track lines \/ comment_header lines)
  | Loop => exists lines l, lines_of text lines /\ In l lines /\ occurs (str "TimeSignature") l
  | Eof => False
  | _ => True
  end.
Proof. exact text_crash. Qed.
Print Assumptions C57_crash_partial.

(** One line: only those two kinds of events can crash or hang. *)
Theorem C57_line_partial : forall table l,
  match unmarshal_text table l with
  | Panic => occurs (str "SMPTEOffset") l
  | Loop => occurs (str "TimeSignature") l
  | Eof => False
  | Err => True
  | Ok e => exists b, marshal e = Ok b
  end.
Proof. exact only_event. Qed.
Print Assumptions C57_line_partial.

Example C57_example : exists bs, assemble_text in_order good_text = Ok bs /\ assemble_text in_order (line (str "MTrk")) = Err.
Proof. eexists. split; vm_compute; reflexivity. Qed.

(** A track without events. *)
Theorem C57_empty_track_refuted : exists text, assemble_text in_order text = Panic /\ text = good_header ++ line (str "MTrk").
Proof. exists no_track_events. split; vm_compute; reflexivity. Qed.
Print Assumptions C57_empty_track_refuted.

(** The header commented out. *)
Theorem C57_comment_header_refuted : exists text, assemble_text in_order text = Panic /\
  text = line (str "%% MThd format:0, metrical time:480 ppqn") ++ line (str "MTrk") ++ line (str "delta:0 EndOfTrack").
Proof. exists hidden_header. split; vm_compute; reflexivity. Qed.
Print Assumptions C57_comment_header_refuted.

(** Frame 25 at 25 frames per second. *)
Theorem C57_smpte_refuted : exists text, assemble_text in_order text = Panic /\
  text = good_header ++ line (str "MTrk") ++ line (str "delta:0 SMPTEOffset 1 2 3 25 25 0") ++ line (str "delta:0 EndOfTrack").
Proof. exists bad_frame. split; vm_compute; reflexivity. Qed.
Print Assumptions C57_smpte_refuted.

(** The denominator 129. *)
Theorem C57_time_signature_refuted : exists text, assemble_text in_order text = Loop /\
  text = good_header ++ line (str "MTrk") ++ line (str "delta:0 TimeSignature 4/129, 24 ticks per click, 8/32 per quarter") ++ line (str "delta:0 EndOfTrack").
Proof. exists bad_denominator. split; vm_compute; reflexivity. Qed.
Print Assumptions C57_time_signature_refuted.
