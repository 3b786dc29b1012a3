(** * JSON: C33, C34, C58.  Theorems only; proofs in JsonProofs.v, JsonFileProofs.v, JsonCrashProofs.v and JsonSamples.v. *)
From Verif Require Import Base Strings Tables Event Track File SpecText SpecEvent SpecTrack SpecAssemble SpecRead SpecJson Json Manufacturer Samples SampleProofs ReadSamples ReassembleSamples
  JsonProofs JsonFileProofs JsonCrashProofs JsonSamples.

(** C33, full statement: every event, exported as JSON and imported again, is the same kind of event with the same delta time and values.  False for
    text that is not UTF-8, see below.  Here for all events of all decoded files and any manufacturers loaded by the user: the event can always be
    imported and keeps its kind and delta time, and its values survive exactly when its text, if it has one, is valid UTF-8. *)
Theorem C33_events_partial : forall c4 conf l r s, Forall (fun x => wire_id (fst (fst x))) conf -> load_manufacturers conf = Ok l -> is_bytes r ->
  let env := add_manufacturers (Env c4 manufacturers) l in decode env r = Ok s ->
  Forall (fun t => Forall (fun e => exists e', unmarshal_json env (marshal_json e) = Ok e' /\ e_delta e' = e_delta e /\ body_tag (e_body e') = body_tag (e_body e) /\
    (same_values (e_body e) (e_body e') <-> valid_text (e_body e))) (t_events t)) (f_tracks s).
Proof. exact events_through_json. Qed.
Print Assumptions C33_events_partial.

Example C33_example : add_manufacturers (Env (env_c4 default_env) manufacturers) [] = default_env /\ load_manufacturers [] = Ok [] /\
  decode default_env sample_file = Ok sample_smf /\ map (fun t => length (t_events t)) (f_tracks sample_smf) = [3%nat; 11%nat] /\
  Forall json_ready (f_tracks sample_smf).
Proof. split; [reflexivity|]. split; [reflexivity|]. split; [vm_compute; reflexivity|]. split; [vm_compute; reflexivity|exact sample_ready]. Qed.

(** Latin-1 text is replaced. *)
Theorem C33_text_refuted : exists e e', unmarshal_json default_env (marshal_json e) = Ok e' /\ e_body e = TextEvent KText [67; 97; 102; 233] /\
  e_body e' = TextEvent KText [67; 97; 102; 239; 191; 189].
Proof. exact latin1_changed. Qed.
Print Assumptions C33_text_refuted.

(** C34, full statement: every decoded file, exported as JSON and assembled again, decodes to the same header and events.  False as shown below;
    missing: SMPTE time codes in the header, text that is not UTF-8, tracks without events, packets of messages apart from each other, events that are
    not [legal_event] (see C16). *)
Theorem C34_json_roundtrip_partial : forall c4 conf l r s, Forall (fun x => wire_id (fst (fst x))) conf -> load_manufacturers conf = Ok l ->
  let env := add_manufacturers (Env c4 manufacturers) l in is_bytes r -> decode env r = Ok s ->
  (forall h, f_mthd s = Some h -> h_smpte h = false) ->
  Forall (fun t => t_events t <> [] /\ Forall (fun e => valid_text (e_body e)) (t_events t)) (f_tracks s) ->
  Forall (fun t => Forall legal_event (t_events t) /\ chained false (t_events t) /\ faithful_events env (t_events t)) (f_tracks s) ->
  exists bs, assemble_json env (export_json s) = Ok bs /\ (zlen bs < 4294967296 ->
    exists s' h h', decode env bs = Ok s' /\ f_mthd s = Some h /\ f_mthd s' = Some h' /\ same_header h h' /\
      map (fun t => map ev_view (t_events t)) (f_tracks s') = map (fun t => map ev_view (t_events t)) (f_tracks s)).
Proof. exact json_roundtrip. Qed.
Print Assumptions C34_json_roundtrip_partial.

(** Without any condition on the packets and the values: what the assembler then encodes is the header and the events that were exported. *)
Theorem C34_reassembled_partial : forall c4 conf l r s, Forall (fun x => wire_id (fst (fst x))) conf -> load_manufacturers conf = Ok l ->
  let env := add_manufacturers (Env c4 manufacturers) l in is_bytes r -> decode env r = Ok s ->
  (forall h, f_mthd s = Some h -> h_smpte h = false) ->
  Forall (fun t => t_events t <> [] /\ Forall (fun e => valid_text (e_body e)) (t_events t)) (f_tracks s) ->
  exists h h' ts, f_mthd s = Some h /\ assemble_json env (export_json s) = encode (SMF (Some h') ts) /\
    h_tag h' = h_tag h /\ h_length h' = h_length h /\ h_format h' = h_format h /\ h_tracks h' = h_tracks h /\ h_division h' = h_division h /\
    Forall2 (fun t t' => events_from_json (t_events t) (t_events t') /\ Forall legal_header (t_events t') /\ t_tag t' = str "MTrk") (f_tracks s) ts.
Proof. exact reassembled_json. Qed.
Print Assumptions C34_reassembled_partial.

Example C34_example : decode default_env sample_file = Ok sample_smf /\ (forall h, f_mthd sample_smf = Some h -> h_smpte h = false) /\
  Forall json_ready (f_tracks sample_smf) /\
  Forall (fun t => Forall legal_event (t_events t) /\ chained false (t_events t) /\ faithful_events default_env (t_events t)) (f_tracks sample_smf).
Proof. split; [vm_compute; reflexivity|]. split; [intros h [= <-]; reflexivity|]. split; [exact sample_ready|exact sample_chained]. Qed.

(** A header with an SMPTE time code (25 frames, 40 subframes) becomes metrical time with 0 pulses per quarter, without an error. *)
Theorem C34_timecode_refuted : exists file bs s s' h h', through_json file = Ok bs /\ decode default_env file = Ok s /\ decode default_env bs = Ok s' /\
  f_mthd s = Some h /\ f_mthd s' = Some h' /\ (h_smpte h = true /\ h_fps h = 25 /\ h_subframes h = 40) /\ (h_smpte h' = false /\ h_ppqn h' = 0).
Proof. exact timecode_lost. Qed.
Print Assumptions C34_timecode_refuted.

(** Latin-1 text. *)
Theorem C34_text_refuted : exists file bs, through_json file = Ok bs /\ bodies (decode default_env file) = [[TextEvent KText [67; 97; 102; 233]; EndOfTrack]] /\
  bodies (decode default_env bs) = [[TextEvent KText [67; 97; 102; 239; 191; 189]; EndOfTrack]].
Proof. exact latin1_file. Qed.
Print Assumptions C34_text_refuted.

(** A note between the two packets of a message. *)
Theorem C34_packets_refuted : exists file bs, through_json file = Ok bs /\
  bodies (decode default_env file) =
    [[SysExMessage (Manufacturer [67] (str "Japanese") (str "Yamaha")) [1; 2] false; NoteOn 0 (Note 60 (str "C4") (str "C4")) 64; SysExContinuation [3; 4] false; EndOfTrack]] /\
  bodies (decode default_env bs) =
    [[SysExMessage (Manufacturer [67] (str "Japanese") (str "Yamaha")) [1; 2] true; NoteOn 0 (Note 60 (str "C4") (str "C4")) 64; SysExEscape [3; 4; 247]; EndOfTrack]].
Proof. exact packets_split_json. Qed.
Print Assumptions C34_packets_refuted.

(** A track that was cut off in its first event: crash. *)
Theorem C34_empty_track_refuted : exists file s, decode default_env file = Ok s /\ map t_events (f_tracks s) = [[]] /\ through_json file = Panic.
Proof. exact empty_track_json. Qed.
Print Assumptions C34_empty_track_refuted.

(** C58, full statement: assembling any JSON document ends with a file or an error.  False as shown below; this leaves exactly two causes of a crash
    and one of a hang. *)
Theorem C58_crash_partial : forall env v,
  match assemble_json env v with
  | Panic => (exists t, track_of v t /\ without_events t) \/ exists e, event_of v e /\ crash_event e
  | Loop => exists e, event_of v e /\ hang_event e
  | Eof => False
  | _ => True
  end.
Proof. exact json_crash. Qed.
Print Assumptions C58_crash_partial.

Example C58_example : exists bs, assemble_json default_env (one (str "NoteOn") [(str "channel", JNum 1); (str "note", JObj [(str "value", JNum 60)]); (str "velocity", JNum 127)]) = Ok bs /\
  assemble_json default_env (one (str "NoteOn") [(str "channel", JNum 16)]) = Err.
Proof. eexists. split; vm_compute; reflexivity. Qed.

Theorem C58_empty_track_refuted : exists v, v = doc [track []] /\ assemble_json default_env v = Panic.
Proof. exists (doc [track []]). split; vm_compute; reflexivity. Qed.
Print Assumptions C58_empty_track_refuted.

Theorem C58_velocity_refuted : exists v, v = one (str "NoteOn") [(str "velocity", JNum 128)] /\ assemble_json default_env v = Panic.
Proof. exists (one (str "NoteOn") [(str "velocity", JNum 128)]). split; vm_compute; reflexivity. Qed.
Print Assumptions C58_velocity_refuted.

Theorem C58_pressure_refuted : exists v w, v = one (str "PolyphonicPressure") [(str "pressure", JNum 128)] /\ assemble_json default_env v = Panic /\
  w = one (str "ChannelPressure") [(str "pressure", JNum 128)] /\ assemble_json default_env w = Panic.
Proof.
  exists (one (str "PolyphonicPressure") [(str "pressure", JNum 128)]), (one (str "ChannelPressure") [(str "pressure", JNum 128)]).
  split; [reflexivity|]. split; [vm_compute; reflexivity|]. split; vm_compute; reflexivity.
Qed.
Print Assumptions C58_pressure_refuted.

Theorem C58_key_refuted : exists v, v = one (str "KeySignature") [(str "accidentals", JNum 8); (str "key-type", JNum 0)] /\ assemble_json default_env v = Panic.
Proof. exists (one (str "KeySignature") [(str "accidentals", JNum 8); (str "key-type", JNum 0)]). split; vm_compute; reflexivity. Qed.
Print Assumptions C58_key_refuted.

(** An SMPTE offset without a frame rate. *)
Theorem C58_offset_refuted : exists v, v = one (str "SMPTEOffset") [(str "hour", JNum 1)] /\ assemble_json default_env v = Panic.
Proof. exists (one (str "SMPTEOffset") [(str "hour", JNum 1)]). split; vm_compute; reflexivity. Qed.
Print Assumptions C58_offset_refuted.

Theorem C58_denominator_refuted : exists v, v = one (str "TimeSignature") [(str "numerator", JNum 4); (str "denominator", JNum 129)] /\ assemble_json default_env v = Loop.
Proof. exists (one (str "TimeSignature") [(str "numerator", JNum 4); (str "denominator", JNum 129)]). split; vm_compute; reflexivity. Qed.
Print Assumptions C58_denominator_refuted.

(** A note off with a velocity that no file can hold is accepted, and the file that is written is not the one described. *)
Theorem C58_note_off_refuted : exists v bs, v = one (str "NoteOff") [(str "note", JObj [(str "value", JNum 60)]); (str "velocity", JNum 200)] /\
  assemble_json default_env v = Ok bs /\ decode default_env bs = Panic.
Proof. exists (one (str "NoteOff") [(str "note", JObj [(str "value", JNum 60)]); (str "velocity", JNum 200)]). eexists. split; [reflexivity|]. split; [vm_compute; reflexivity|]. vm_compute. reflexivity. Qed.
Print Assumptions C58_note_off_refuted.
