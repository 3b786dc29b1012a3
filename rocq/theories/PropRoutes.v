(** * The three ways to write a file again: C94.  Theorems only; proofs in SettledProofs.v, RoutesProofs.v and RoutesSamples.v. *)
From Verif Require Import Base Strings Tables Event SpecEvent Marshal Track File SpecTrack SpecTable SpecAssemble SpecSurvive SpecRead SpecText SpecJson Disassemble TextAssemble Json Manufacturer Assemble
  NoteProofs Samples SampleProofs ReadSamples ReassembleSamples JsonProofs JsonFileProofs JsonSamples SpecRoutes SettledProofs RoutesProofs RoutesSamples.

(** C94, full statement: a decoded file gives the same bytes when its listing is assembled, when its exported document is assembled and when it is encoded.
    False as shown below; missing: SMPTE time codes in the header, text that is not UTF-8, listings that cannot be read (C56), tracks that end with a
    complete message and, for the comparison with the encoder, messages in packets. *)
Theorem C94_text_json_partial : forall c4 conf l r s text tables, Forall (fun x => wire_id (fst (fst x))) conf -> load_manufacturers conf = Ok l ->
  let env := add_manufacturers (Env c4 manufacturers) l in is_bytes r -> decode env r = Ok s -> middle_octave env = 4 ->
  (forall h, f_mthd s = Some h -> h_smpte h = false) -> Forall (track_readable tables) (f_tracks s) ->
  Forall (fun t => Forall (fun e => valid_text (e_body e)) (t_events t) /\ ~ ends_in_message (t_events t)) (f_tracks s) ->
  disassemble s = Ok text -> ~ long_line text ->
  assemble_text tables text = assemble_json env (export_json s).
Proof. exact same_file. Qed.
Print Assumptions C94_text_json_partial.

(** Without packets the listing gives the file that the encoder writes. *)
Theorem C94_text_encoded_partial : forall env r s text tables, is_bytes r -> decode env r = Ok s -> middle_octave env = 4 ->
  (forall h, f_mthd s = Some h -> h_smpte h = false) -> Forall (track_readable tables) (f_tracks s) ->
  Forall (fun t => ~ ends_in_message (t_events t) /\ unsplit (t_events t)) (f_tracks s) ->
  disassemble s = Ok text -> ~ long_line text ->
  assemble_text tables text = encode s.
Proof. exact written_again. Qed.
Print Assumptions C94_text_encoded_partial.

(** And so does the document. *)
Theorem C94_json_encoded_partial : forall c4 conf l r s, Forall (fun x => wire_id (fst (fst x))) conf -> load_manufacturers conf = Ok l ->
  let env := add_manufacturers (Env c4 manufacturers) l in is_bytes r -> decode env r = Ok s ->
  (forall h, f_mthd s = Some h -> h_smpte h = false) -> Forall json_ready (f_tracks s) ->
  Forall (fun t => unsplit (t_events t)) (f_tracks s) ->
  assemble_json env (export_json s) = encode s.
Proof. exact exported_again. Qed.
Print Assumptions C94_json_encoded_partial.

(** A file with text, tempo, key, notes and a message: the conditions hold, and all three ways give the file itself. *)
Example C94_example : decode default_env sample_file = Ok sample_smf /\ middle_octave default_env = 4 /\ (forall h, f_mthd sample_smf = Some h -> h_smpte h = false) /\
  Forall (track_readable in_order) (f_tracks sample_smf) /\ Forall json_ready (f_tracks sample_smf) /\
  Forall (fun t => ~ ends_in_message (t_events t) /\ unsplit (t_events t)) (f_tracks sample_smf) /\ disassemble sample_smf = Ok sample_text /\ ~ long_line sample_text /\
  load_manufacturers [] = Ok [] /\ add_manufacturers (Env false manufacturers) [] = default_env /\
  encode sample_smf = Ok sample_file /\ through_text sample_file = Ok sample_file /\ through_json sample_file = Ok sample_file.
Proof.
  split; [vm_compute; reflexivity|]. split; [reflexivity|]. split; [intros h [= <-]; reflexivity|]. split; [exact sample_track_readable|]. split; [exact sample_ready|].
  split; [exact sample_quiet|]. split; [apply sample_short|]. split; [apply sample_short|]. split; [reflexivity|]. split; [reflexivity|].
  split; [vm_compute; reflexivity|]. split; vm_compute; reflexivity.
Qed.

(** Text in Latin-1 changes only in the document.  A message at the very end of a track loses its end mark only in the listing. *)
Theorem C94_differ_refuted : exists a b t1 t2 j1 j2, through_text a = Ok t1 /\ through_json a = Ok j1 /\ t1 <> j1 /\ bodies (decode default_env a) = [[TextEvent KText [67; 97; 102; 233]; EndOfTrack]] /\
  through_text b = Ok t2 /\ through_json b = Ok j2 /\ t2 <> j2 /\ j2 = b /\ bodies (decode default_env b) = [[SysExMessage (Manufacturer [67] (str "Japanese") (str "Yamaha")) [1; 2] true]].
Proof. exact routes_differ. Qed.
Print Assumptions C94_differ_refuted.

(** A message in packets with a note between them: listing and document agree with each other but not with the encoder. *)
Theorem C94_packets_refuted : exists file x y, through_text file = Ok x /\ through_json file = Ok x /\ again file = Ok y /\ x <> y /\ zlen x <> zlen y.
Proof. exact packets_rewritten. Qed.
Print Assumptions C94_packets_refuted.
