(** * What sources say as a whole: C81 (JSON), C82 (assembly text).  Theorems only; proofs in SourceProofs.v and SourceTextProofs.v. *)
From Verif Require Import Base Strings Tables Event Track File SpecEvent SpecTrack SpecSurvive SpecLine SpecSource Assemble TextEvent TextAssemble Json JsonText SpecJsonText JsonReadProofs NoteProofs SourceProofs SourceTextProofs
  LineSamples SourceSamples Samples.

(** C81, full statement: the file assembled from a JSON document decodes to the header and the events that the document says ([json_file], SpecSource.v), the messages closed.
    Missing: events that cannot be written (C80), system exclusive messages whose manufacturer is not read back as written (C15), more than 4294967295 bytes. *)
Theorem C81_source_partial : forall env v bs, assemble_json env v = Ok bs ->
  exists f d ess ess', json_file (env_manufacturers env) (middle_octave env) v f d ess /\ Forall2 closes ess ess' /\ zlen ess < 65536 /\
    (Forall legal_events ess' -> Forall (faithful_events env) ess' -> zlen bs < 4294967296 ->
     exists s h, decode env bs = Ok s /\ f_mthd s = Some h /\ h_format h = f /\ h_division h = d /\ h_tracks h = zlen ess /\
       map (fun t => map ev_view (t_events t)) (f_tracks s) = map contents ess').
Proof. exact json_source. Qed.
Print Assumptions C81_source_partial.

(** Every document that says a header and events that can be written is accepted. *)
Theorem C81_accepted : forall env v f d ess ess', json_file (env_manufacturers env) (middle_octave env) v f d ess -> Forall2 closes ess ess' -> zlen ess < 65536 ->
  Forall legal_events ess' -> exists bs, assemble_json env v = Ok bs.
Proof. exact json_accepted. Qed.
Print Assumptions C81_accepted.

(** Two headers that are taken together, of two lists of tracks the last; a system exclusive message with a continuation. *)
Example C81_example : json_file (env_manufacturers default_env) (middle_octave default_env) source_doc 0 96 [source_events] /\ Forall2 closes [source_events] [closed_events] /\
  Forall legal_events [closed_events] /\ Forall (faithful_events default_env) [closed_events] /\
  exists bs s h, assemble_json default_env source_doc = Ok bs /\ decode default_env bs = Ok s /\ f_mthd s = Some h /\ h_format h = 0 /\ h_division h = 96 /\ h_tracks h = 1 /\
    map (fun t => map ev_view (t_events t)) (f_tracks s) = map contents [closed_events].
Proof.
  split; [exact source_says|]. split; [constructor; [exact source_closes|constructor]|]. split; [constructor; [exact source_legal|constructor]|]. split; [constructor; [exact source_faithful|constructor]|].
  destruct (assemble_json default_env source_doc) as [bs| | | |] eqn:A; vm_compute in A; try discriminate A. exists bs. apply Ok_inj in A. subst bs.
  destruct (decode default_env _) as [s| | | |] eqn:D; vm_compute in D; try discriminate D. exists s. apply Ok_inj in D. subst s. eexists. repeat split.
Qed.

(** The same from the text on: what follows the first value of the text is not looked at (C74). *)
Theorem C81_text_partial : forall env s bs, is_bytes s -> assemble_json_text env s = Ok bs ->
  exists w t rest v f d ess ess', s = w ++ t ++ rest /\ white w /\ json_in lax_chars v t /\
    json_file (env_manufacturers env) (middle_octave env) v f d ess /\ Forall2 closes ess ess' /\ zlen ess < 65536 /\
    (Forall legal_events ess' -> Forall (faithful_events env) ess' -> zlen bs < 4294967296 ->
     exists s h, decode env bs = Ok s /\ f_mthd s = Some h /\ h_format h = f /\ h_division h = d /\ h_tracks h = zlen ess /\
       map (fun t => map ev_view (t_events t)) (f_tracks s) = map contents ess').
Proof. exact json_text_source. Qed.
Print Assumptions C81_text_partial.

(** Finding: a document that says a pitch bend of 8192 (the middle position) is assembled to a file with a pitch bend of 4096 (C09). *)
Theorem C81_bend_refuted : exists v es bs s, json_file (env_manufacturers default_env) (middle_octave default_env) v 0 480 [es] /\ map ev_view es = [(0, CBend 0 8192); (0, CEndOfTrack)] /\
  assemble_json default_env v = Ok bs /\ decode default_env bs = Ok s /\ map (fun t => map ev_view (t_events t)) (f_tracks s) = [[(0, CBend 0 4096); (0, CEndOfTrack)]].
Proof. exists bend_doc, bend_events. exact bend_lost. Qed.
Print Assumptions C81_bend_refuted.

(** C82, full statement: the file assembled from a text decodes to the header and the events that the text says ([text_file], SpecSource.v), the messages closed.  False as shown below
    where a comment or a line before the first track is concerned: [text_file] leaves out what follows a comment that mentions MTrk or MThd.
    Missing besides, as for C81: events that cannot be written, manufacturers not read back as written, more than 4294967295 bytes. *)
Theorem C82_source_partial : forall env tables text bs, is_bytes text -> assemble_text tables text = Ok bs ->
  exists f d ess ess', text_file (fun l e => exists j i, line_says (tables j i) l e) text f d ess /\ Forall2 closes ess ess' /\ zlen ess < 65536 /\
    (Forall legal_events ess' -> Forall (faithful_events env) ess' -> zlen bs < 4294967296 ->
     exists s h, decode env bs = Ok s /\ f_mthd s = Some h /\ h_format h = f /\ h_division h = d /\ h_tracks h = zlen ess /\
       map (fun t => map ev_view (t_events t)) (f_tracks s) = map contents ess').
Proof. exact text_source. Qed.
Print Assumptions C82_source_partial.

(** Texts whose lines say their events plainly (C77) are accepted and say nothing else. *)
Theorem C82_accepted_partial : forall env tables text f d ess ess', is_bytes text -> text_file (fun l e => forall j i, plainly (tables j i) l e) text f d ess -> Forall2 closes ess ess' ->
  zlen ess < 65536 -> Forall legal_events ess' ->
  exists bs, assemble_text tables text = Ok bs /\ (Forall (faithful_events env) ess' -> zlen bs < 4294967296 ->
     exists s h, decode env bs = Ok s /\ f_mthd s = Some h /\ h_format h = f /\ h_division h = d /\ h_tracks h = zlen ess /\
       map (fun t => map ev_view (t_events t)) (f_tracks s) = map contents ess').
Proof. exact text_accepted. Qed.
Print Assumptions C82_accepted_partial.

Example C82_example : is_bytes source_text /\ text_file (fun l e => forall j i : nat, plainly ((fun _ _ => []) j i) l e) source_text 1 480 [[controller_event; end_event]] /\
  Forall2 closes [[controller_event; end_event]] [[controller_event; end_event]] /\ Forall legal_events [[controller_event; end_event]] /\
  Forall (faithful_events default_env) [[controller_event; end_event]].
Proof.
  split; [exact source_text_bytes|]. split; [exact text_says|]. split; [constructor; [exact text_closes|constructor]|]. split; [constructor; [exact text_legal|constructor]|]. constructor; [exact text_faithful|constructor].
Qed.

(** Finding: a comment that mentions MTrk ends the track, and the lines up to the next tag are dropped without an error: the NoteOff is not assembled. *)
Theorem C82_comment_refuted : exists bs s, assemble_text (fun _ _ => []) (text_of commented_lines) = Ok bs /\ decode default_env bs = Ok s /\
  exists l e, In l commented_lines /\ line_says [] l e /\ (exists n, e_body e = NoteOff 0 n 64) /\
  Forall (fun t => Forall (fun e => forall c n v, e_body e <> NoteOff c n v) (t_events t)) (f_tracks s).
Proof. exact comment_ends_track. Qed.
Print Assumptions C82_comment_refuted.

(** Finding: so is an event between the header and the first track. *)
Theorem C82_early_refuted : exists bs s, assemble_text (fun _ _ => []) (text_of early_lines) = Ok bs /\ decode default_env bs = Ok s /\
  exists l e, In l early_lines /\ line_says [] l e /\ e_body e = Tempo 250000 /\
  Forall (fun t => Forall (fun e => forall n, e_body e <> Tempo n) (t_events t)) (f_tracks s).
Proof. exact early_dropped. Qed.
Print Assumptions C82_early_refuted.
