(** * Note names and lines of assembly text: C30, C35, C36.  Theorems only; proofs in NoteNameProofs.v and TextFileProofs.v. *)
From Verif Require Import Base Strings Tables Event Track File SpecEvent SpecTable SpecAssemble SpecNote SpecTrack SpecHistory SpecRead
  Utf8 Hex Disassemble Regex TextEvent NoteProofs NoteNameProofs TextFileProofs Samples ReadSamples.

(** C30.  [note_name] (SpecNote.v) says what the name of a note is, given the octave of note 60.  The displayed names have [middle] 4, or 3 with
    the option --C4.  The parser reads the value back in the first case, and the note an octave lower in the second case. *)
Theorem C30_names_parsed_partial : forall middle flats n s, middle = 3 \/ middle = 4 -> 0 <= n <= 127 -> note_name middle flats n s ->
  parse_note s = Ok (Note ((n + 12 * (middle - 4)) mod 256) s s).
Proof. exact name_parsed. Qed.
Print Assumptions C30_names_parsed_partial.

(** The full statement, true without the option --C4. *)
Theorem C30_displayed_partial : forall env flats n, env_c4 env = false -> 0 <= n <= 127 ->
  exists x, parse_note (format_note env flats n) = Ok x /\ n_value x = n /\ note_name 4 flats n (format_note env flats n).
Proof. exact displayed_parsed. Qed.
Print Assumptions C30_displayed_partial.

Example C30_example : note_name 4 true 61 (str "D♭4") /\ parse_note (str "D♭4") = Ok (Note 61 (str "D♭4") (str "D♭4")).
Proof. split; [exact (format_note_name default_env true 61)|reflexivity]. Qed.

(** With the option --C4 the name of note 60 is C3, which is read as note 48. *)
Theorem C30_middle_c_refuted : exists env flats n x, 0 <= n <= 127 /\ parse_note (format_note env flats n) = Ok x /\ n_value x <> n.
Proof. exact middle_c_shifted. Qed.
Print Assumptions C30_middle_c_refuted.

(** The notes below 12 have names of a negative octave, which ParseNote reads and the NoteOn and NoteOff lines do not. *)
Theorem C30_line_refuted : exists x, parse_note (format_note default_env false 0) = Ok x /\ n_value x = 0 /\
  exists events, reads_as events Err /\ e_body (first_event events) = NoteOn 0 (Note 0 (str "C-1") (str "C-1")) 64.
Proof. exact low_note_rejected. Qed.
Print Assumptions C30_line_refuted.

(** C35.  [misleading] (SpecRead.v): the text of the event contains the name of a kind of event that the assembler looks for earlier.  The full
    statement, for all events, is refuted below; this is exactly when it holds. *)
Theorem C35_kind_partial : forall env r s t e, is_bytes r -> decode env r = Ok s -> In t (f_tracks s) -> In e (t_events t) ->
  exists l, event_line e = Ok (l ++ [10]) /\
    (~ misleading (e_body e) -> forall table e', unmarshal_text table l = Ok e' -> kind_name (e_body e') = kind_name (e_body e)) /\
    (misleading (e_body e) -> forall table e', unmarshal_text table l = Ok e' -> kind_name (e_body e') <> kind_name (e_body e)).
Proof. exact line_kind. Qed.
Print Assumptions C35_kind_partial.

(** A marker whose text is "Text A" is read as a text event. *)
Theorem C35_marker_refuted : exists events, e_body (first_event events) = TextEvent KMarker (str "Text A") /\ misleading (TextEvent KMarker (str "Text A")) /\
  reads_as events (Ok (TextEvent KText (str "A"))).
Proof. exact marker_read_as_text. Qed.
Print Assumptions C35_marker_refuted.

(** C36.  [readable] and [as_read] (SpecRead.v); the hypotheses that the full statement lacks are shown to be needed below. *)
Theorem C36_line_partial : forall env r s t e, is_bytes r -> decode env r = Ok s -> In t (f_tracks s) -> In e (t_events t) -> middle_octave env = 4 ->
  exists l, event_line e = Ok (l ++ [10]) /\
    forall table, ~ misleading (e_body e) -> readable table (e_body e) ->
      exists e', unmarshal_text table l = Ok e' /\ e_delta e' = e_delta e /\ e_body e' = as_read (e_body e) /\ legal_header e'.
Proof. exact line_read. Qed.
Print Assumptions C36_line_partial.

(** The hypotheses hold for all fourteen events of the sample file. *)
Example C36_example : decode default_env sample_file = Ok sample_smf /\ middle_octave default_env = 4 /\
  map (fun t => length (t_events t)) (f_tracks sample_smf) = [3%nat; 11%nat] /\
  Forall (fun t => Forall (fun e => ~ misleading (e_body e) /\ readable manufacturers (e_body e)) (t_events t)) (f_tracks sample_smf).
Proof. split; [vm_compute; reflexivity|]. split; [reflexivity|]. split; [vm_compute; reflexivity|exact sample_readable]. Qed.

(** Leading white space is lost, text after a line feed is lost. *)
Theorem C36_text_refuted :
  (exists events, e_body (first_event events) = TextEvent KText (str "  Hi") /\ reads_as events (Ok (TextEvent KText (str "Hi")))) /\
  (exists events, e_body (first_event events) = TextEvent KText [65; 10; 66] /\ reads_as events (Ok (TextEvent KText (str "A")))).
Proof. exact text_lost. Qed.
Print Assumptions C36_text_refuted.

(** Rejected: 19 or no thirty-second notes per quarter note, denominator exponent 8 (shown as 0), a manufacturer that is not listed. *)
Theorem C36_rejected_refuted :
  (exists events, e_body (first_event events) = TimeSignature 4 4 24 19 /\ reads_as events Err) /\
  (exists events, e_body (first_event events) = TimeSignature 4 4 24 0 /\ reads_as events Err) /\
  (exists events, e_body (first_event events) = TimeSignature 4 0 24 8 /\ reads_as events Err) /\
  (exists events, e_body (first_event events) = SysExMessage (Manufacturer [96] (str "<unknown>") (str "<unknown>")) [1; 2] true /\ reads_as events Err).
Proof. exact lines_rejected. Qed.
Print Assumptions C36_rejected_refuted.
