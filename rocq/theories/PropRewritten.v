(** * Manufacturer tables and files written anew: C115, C116.  Theorems only; proofs in RewrittenProofs.v, RewrittenRoutes.v, SameSongProofs.v and RewrittenSamples.v. *)
From Verif Require Import Base Strings Tables Event SpecEvent Track File SpecTrack SpecTable SpecAssemble SpecSurvive SpecRead SpecText SpecJson Disassemble TextAssemble Json Manufacturer Assemble
  NoteProofs SampleProofs ReadSamples ReassembleSamples JsonProofs JsonFileProofs JsonSamples SpecRoutes RoutesSamples JsonText ValidateText Transpose Notes Tsv Cli CliSamples Samples SpecTranspose SpecSameSong SpecRewritten SameSongProofs RewrittenProofs RewrittenRoutes RewrittenSamples.

(** C115: the manufacturer table decides only what a manufacturer is called.  With any table a file is read as with the empty one, and each manufacturer is then
    replaced by the first entry under the ID; with any table it is read or fails alike. *)
Theorem C115_table : forall env r, is_bytes r -> decode env r = do w <- decode (unnamed env) r; Ok (named_file env w).
Proof. exact table_names. Qed.
Print Assumptions C115_table.

Example C115_example : exists w s, is_bytes old_file /\ decode (unnamed default_env) old_file = Ok w /\ decode default_env old_file = Ok s /\ w <> s /\
  map (fun t => map e_body (t_events t)) (skipn 1 (f_tracks w)) = [[NoteOn 1 (Note 60 (str "C4") (str "C4")) 64; NoteOn 1 (Note 60 (str "C4") (str "C4")) 0; SysExMessage (Manufacturer [67] (str "<unknown>") (str "<unknown>")) [1; 2] true; EndOfTrack]] /\
  map (fun t => map e_body (t_events t)) (skipn 1 (f_tracks s)) = [[NoteOn 1 (Note 60 (str "C4") (str "C4")) 64; NoteOn 1 (Note 60 (str "C4") (str "C4")) 0; SysExMessage (Manufacturer [67] (str "Japanese") (str "Yamaha")) [1; 2] true; EndOfTrack]].
Proof. exact named_example. Qed.

(** C116: the header, the delta times and the contents of the events determine all that is read (names, ticks, banks, manufacturers), whatever the table. *)
Theorem C116_contents : forall env r r', is_bytes r -> is_bytes r' -> same_contents env r r' ->
  exists s s', decode env r = Ok s /\ decode env r' = Ok s' /\ same_gist s s'.
Proof. exact contents_read. Qed.
Print Assumptions C116_contents.

(** The file that the program writes is read as the file it has read. *)
Theorem C116_rewritten : forall env r r', is_bytes r -> rewritten env r r' -> exists s s', decode env r = Ok s /\ decode env r' = Ok s' /\ same_gist s s'.
Proof. exact rewritten_read. Qed.
Print Assumptions C116_rewritten.

(** What is made of files read that way is the same, byte for byte. *)
Theorem C116_used : forall s s', same_gist s s' ->
  encode s = encode s' /\ export_text s = export_text s' /\ tsv_export s = tsv_export s' /\ click_lines s = click_lines s' /\ validation_warning s = validation_warning s' /\
  (forall env n, transpose_execute env n s = transpose_execute env n s') /\ (forall env n order, extract env n order s = extract env n order s').
Proof. exact gist_used. Qed.
Print Assumptions C116_used.

(** Every run of a command other than disassemble and assemble ends the same way, prints the same and leaves the same files (but for those written anew before). *)
Theorem C116_runs : forall w d d' n args, disks_rewritten d d' -> In n (map str ["transpose"; "notes"; "click"; "export"; "tsv"; "humanise"]%string) ->
  run_rewritten (run w d (n :: args)) (run w d' (n :: args)).
Proof. exact rewritten_runs. Qed.
Print Assumptions C116_runs.

Example C116_example : is_bytes old_file /\ old_file <> new_file /\ rewritten default_env old_file new_file /\
  disks_rewritten (disk [("a.mid"%string, old_file)]) (disk [("a.mid"%string, new_file)]) /\
  (exists up, r_files (run open_world (disk [("a.mid"%string, old_file)]) (argv ["transpose"; "--semitones=3"; "--out=up.mid"; "a.mid"]%string)) (number (str "up.mid")) = Some up /\
    r_files (run open_world (disk [("a.mid"%string, new_file)]) (argv ["transpose"; "--semitones=3"; "--out=up.mid"; "a.mid"]%string)) (number (str "up.mid")) = Some up).
Proof. exact rewritten_example. Qed.

(** So is the file assembled from its listing, under the conditions of C94 ... *)
Theorem C116_listing : forall env r s text tables r', is_bytes r -> writable env r -> decode env r = Ok s -> middle_octave env = 4 ->
  (forall h, f_mthd s = Some h -> h_smpte h = false) -> Forall (track_readable tables) (f_tracks s) ->
  Forall (fun t => ~ ends_in_message (t_events t) /\ unsplit (t_events t)) (f_tracks s) ->
  disassemble s = Ok text -> ~ long_line text -> assemble_text tables text = Ok r' -> zlen r' < 4294967296 ->
  exists s', decode env r' = Ok s' /\ same_gist s s'.
Proof. exact listing_read. Qed.
Print Assumptions C116_listing.

(** ... and from the document exported. *)
Theorem C116_document : forall c4 conf l r s r', Forall (fun x => wire_id (fst (fst x))) conf -> load_manufacturers conf = Ok l ->
  let env := add_manufacturers (Env c4 manufacturers) l in is_bytes r -> writable env r -> decode env r = Ok s ->
  (forall h, f_mthd s = Some h -> h_smpte h = false) -> Forall json_ready (f_tracks s) ->
  Forall (fun t => unsplit (t_events t)) (f_tracks s) -> assemble_json env (export_json s) = Ok r' -> zlen r' < 4294967296 ->
  exists s', decode env r' = Ok s' /\ same_gist s s'.
Proof. exact document_read. Qed.
Print Assumptions C116_document.

Example C116_routes_example : writable default_env sample_file /\ decode default_env sample_file = Ok sample_smf /\ middle_octave default_env = 4 /\ (forall h, f_mthd sample_smf = Some h -> h_smpte h = false) /\
  Forall (track_readable in_order) (f_tracks sample_smf) /\ Forall json_ready (f_tracks sample_smf) /\
  Forall (fun t => ~ ends_in_message (t_events t) /\ unsplit (t_events t)) (f_tracks sample_smf) /\ disassemble sample_smf = Ok sample_text /\ ~ long_line sample_text /\
  assemble_text in_order sample_text = Ok sample_file /\ assemble_json default_env (export_json sample_smf) = Ok sample_file.
Proof.
  split; [exact sample_writable|]. split; [vm_compute; reflexivity|]. split; [reflexivity|]. split; [intros h [= <-]; reflexivity|]. split; [exact sample_track_readable|]. split; [exact sample_ready|].
  split; [exact sample_quiet|]. split; [apply sample_short|]. split; [apply sample_short|]. split; vm_compute; reflexivity.
Qed.
