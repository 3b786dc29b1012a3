(** * What exported documents and listings tell about a file: C88, C89, C90.  Theorems only; proofs in ExportProofs.v, ListingProofs.v and ExportSamples.v. *)
From Verif Require Import Base Strings Tables Event Track File SpecText SpecEvent SpecTrack SpecAssemble SpecTable SpecRead SpecJson SpecSurvive SpecLine SpecSource SpecExport NoteProofs Disassemble Manufacturer
  Json JsonText SpecJsonText JsonProofs JsonExportProofs JsonReadProofs ExportProofs ListingProofs Samples SampleProofs ReadSamples ReassembleSamples ExportSamples.

(** C88: what is exported is JSON text (RFC 8259) for a document that says ([json_file], SpecSource.v) the format, the pulses per quarter note (0 for an SMPTE time code) and of every track
    all events in order, with delta time, kind and values ([said], SpecExport.v). *)
Theorem C88_export_says : forall c4 conf l r s, conf_bytes conf -> Forall (fun x => wire_id (fst (fst x))) conf -> load_manufacturers conf = Ok l ->
  let env := add_manufacturers (Env c4 manufacturers) l in is_bytes r -> decode env r = Ok s ->
  json_text (export_json s) (export_text s) /\
  exists h ess, f_mthd s = Some h /\ json_file (env_manufacturers env) (middle_octave env) (export_json s) (h_format h) (if h_smpte h then 0 else h_division h) ess /\
    Forall2 (fun t es => Forall2 said (t_events t) es) (f_tracks s) ess.
Proof. exact export_says. Qed.
Print Assumptions C88_export_says.

(** A document says one file only. *)
Theorem C88_nothing_else : forall env v f d ess f' d' ess', json_file (env_manufacturers env) (middle_octave env) v f d ess -> json_file (env_manufacturers env) (middle_octave env) v f' d' ess' ->
  f' = f /\ d' = d /\ ess' = ess.
Proof. exact says_one. Qed.
Print Assumptions C88_nothing_else.

Example C88_example : conf_bytes [] /\ load_manufacturers [] = Ok [] /\ add_manufacturers (Env (env_c4 default_env) manufacturers) [] = default_env /\
  decode default_env sample_file = Ok sample_smf /\ map (fun t => length (t_events t)) (f_tracks sample_smf) = [3%nat; 11%nat].
Proof. split; [constructor|]. split; [reflexivity|]. split; [reflexivity|]. split; vm_compute; reflexivity. Qed.

(** Text that is not UTF-8, and a header with an SMPTE time code. *)
Example C88_text_example : bodies (decode default_env latin) = [[TextEvent KText [67; 97; 102; 233]; EndOfTrack]] /\ repaired [67; 97; 102; 233] [67; 97; 102; 239; 191; 189] /\
  option_map h_smpte (f_mthd (smf_in timecode)) = Some true.
Proof. split; [vm_compute; reflexivity|]. split; [exact latin_repaired|vm_compute; reflexivity]. Qed.

(** C89, full statement: the listing of a decoded file says ([text_file], SpecSource.v) the format, the division and of every track all events in order, with delta time, kind and values
    ([listed], SpecExport.v).  False as shown below; missing: SMPTE time codes, a middle C other than C4 (C30), lines of more than 65535 bytes, events that are [misleading] or not [readable],
    texts with a tag or with a carriage return at the end. *)
Theorem C89_listing_says_partial : forall env r s text table, is_bytes r -> decode env r = Ok s -> middle_octave env = 4 ->
  (forall h, f_mthd s = Some h -> h_smpte h = false) ->
  Forall (fun t => Forall (fun e => ~ misleading (e_body e) /\ line_safe (e_body e) /\ readable table (e_body e)) (t_events t)) (f_tracks s) ->
  disassemble s = Ok text -> ~ long_line text ->
  exists h ess, f_mthd s = Some h /\ text_file (line_says table) text (h_format h) (h_division h) ess /\
    Forall2 (fun t es => Forall2 listed (t_events t) es) (f_tracks s) ess.
Proof. exact listing_says. Qed.
Print Assumptions C89_listing_says_partial.

Example C89_example : decode default_env sample_file = Ok sample_smf /\ middle_octave default_env = 4 /\ (forall h, f_mthd sample_smf = Some h -> h_smpte h = false) /\
  Forall (fun t => Forall (fun e => ~ misleading (e_body e) /\ line_safe (e_body e) /\ readable manufacturers (e_body e)) (t_events t)) (f_tracks sample_smf) /\
  disassemble sample_smf = Ok sample_text /\ ~ long_line sample_text.
Proof.
  split; [vm_compute; reflexivity|]. split; [reflexivity|]. split; [intros h [= <-]; reflexivity|].
  split; [exact sample_listed|]. exact sample_short.
Qed.

(** Finding: the listing of a file with a text of two lines says nothing: the second line is no event. *)
Theorem C89_two_lines_refuted : exists file s text, decode default_env file = Ok s /\ (forall h, f_mthd s = Some h -> h_smpte h = false) /\ disassemble s = Ok text /\
  map (fun t => map e_body (t_events t)) (f_tracks s) = [[TextEvent KText [65; 10; 66]; EndOfTrack]] /\ forall table f d ess, ~ text_file (line_says table) text f d ess.
Proof. exact says_nothing. Qed.
Print Assumptions C89_two_lines_refuted.

(** Finding: the listing of a file with a marker "Text A" says no marker. *)
Theorem C89_marker_refuted : exists file s text, decode default_env file = Ok s /\ (forall h, f_mthd s = Some h -> h_smpte h = false) /\ disassemble s = Ok text /\
  map (fun t => map e_body (t_events t)) (f_tracks s) = [[TextEvent KMarker (str "Text A"); EndOfTrack]] /\
  forall table f d ess, text_file (line_says table) text f d ess -> exists e e', ess = [[e; e']] /\ forall text, e_body e <> TextEvent KMarker text.
Proof. exact says_another. Qed.
Print Assumptions C89_marker_refuted.

(** C90, full statement: files with the same document, and files with the same listing, have the same format, division and events.  False as shown below; missing: text
    that is not UTF-8. *)
Theorem C90_same_document_partial : forall c4 conf l r r' s s', Forall (fun x => wire_id (fst (fst x))) conf -> load_manufacturers conf = Ok l ->
  let env := add_manufacturers (Env c4 manufacturers) l in is_bytes r -> is_bytes r' -> decode env r = Ok s -> decode env r' = Ok s' -> export_json s = export_json s' ->
  Forall (fun t => Forall (fun e => valid_text (e_body e)) (t_events t)) (f_tracks s ++ f_tracks s') ->
  exists h h', f_mthd s = Some h /\ f_mthd s' = Some h' /\ h_format h = h_format h' /\ h_division h = h_division h' /\
    Forall2 (fun t t' => Forall2 (fun e e' => e_delta e = e_delta e' /\ same_values (e_body e) (e_body e')) (t_events t) (t_events t')) (f_tracks s) (f_tracks s').
Proof. exact same_document. Qed.
Print Assumptions C90_same_document_partial.

(** The same for listings, with the conditions of C89. *)
Theorem C90_same_listing_partial : forall env env' r r' s s' text table, is_bytes r -> is_bytes r' -> decode env r = Ok s -> decode env' r' = Ok s' -> middle_octave env = 4 -> middle_octave env' = 4 ->
  (forall h, f_mthd s = Some h -> h_smpte h = false) -> (forall h, f_mthd s' = Some h -> h_smpte h = false) ->
  Forall (fun t => Forall (fun e => ~ misleading (e_body e) /\ line_safe (e_body e) /\ readable table (e_body e)) (t_events t)) (f_tracks s ++ f_tracks s') ->
  disassemble s = Ok text -> disassemble s' = Ok text -> ~ long_line text ->
  exists h h', f_mthd s = Some h /\ f_mthd s' = Some h' /\ h_format h = h_format h' /\ h_division h = h_division h' /\
    listed_contents (map t_events (f_tracks s)) = listed_contents (map t_events (f_tracks s')).
Proof. exact same_listing. Qed.
Print Assumptions C90_same_listing_partial.

(** Two files that differ (running status) with the same document. *)
Example C90_example : exists r r' s s', r <> r' /\ decode default_env r = Ok s /\ decode default_env r' = Ok s' /\ export_json s = export_json s' /\
  Forall (fun t => Forall (fun e => valid_text (e_body e)) (t_events t)) (f_tracks s ++ f_tracks s').
Proof. exact same_document_sample. Qed.

(** Finding: the documents of files with different texts in Latin 1 are the same. *)
Theorem C90_latin_refuted : exists r r' s s', decode default_env r = Ok s /\ decode default_env r' = Ok s' /\
  map (fun t => map e_body (t_events t)) (f_tracks s) = [[TextEvent KText [67; 97; 102; 233]; EndOfTrack]] /\
  map (fun t => map e_body (t_events t)) (f_tracks s') = [[TextEvent KText [67; 97; 102; 232]; EndOfTrack]] /\ export_json s = export_json s'.
Proof. exists latin, latin'. exact same_latin. Qed.
Print Assumptions C90_latin_refuted.

(** Finding: files with a complete message and with the first packet of one, after long delta times, have the same listing. *)
Theorem C90_listing_refuted : exists r r' s s' text, decode default_env r = Ok s /\ decode default_env r' = Ok s' /\ disassemble s = Ok text /\ disassemble s' = Ok text /\
  map (fun t => map e_body (t_events t)) (f_tracks s) = [[SysExMessage (Manufacturer [67] (str "Japanese") (str "Yamaha")) [1; 2] true; EndOfTrack]] /\
  map (fun t => map e_body (t_events t)) (f_tracks s') = [[SysExMessage (Manufacturer [67] (str "Japanese") (str "Yamaha")) [1; 2] false; EndOfTrack]].
Proof. exists complete, unfinished. exact same_packets. Qed.
Print Assumptions C90_listing_refuted.
