(** * The program as it is called: C66 to C70 and C73.  Theorems only; proofs in FlagProofs.v, FlagConverse.v, CliProofs.v, CliTripProofs.v and CliSplitProofs.v. *)
From Verif Require Import Base Strings Tables Event Marshal Track File FileProofs Manufacturer SpecEvent SpecTrack SpecTable SpecAssemble SpecNote SpecSurvive SpecRead SpecDecimal Validate Transpose Notes NotesPrint
  Disassemble Tsv Csv Regex TextEvent TextAssemble Assemble ReassembleProofs Json SpecJson JsonText SpecJsonText
  Flags Paths Cli SpecCli FlagProofs FlagConverse CliProofs CliTripProofs CliSplitProofs Samples SampleProofs ReadSamples ReassembleSamples JsonProofs JsonFileProofs JsonSamples CliSamples.

(** C66: whatever the arguments are, a run changes no file but those named behind -out and, with -split, files called .MThd or .MTrk. *)
Theorem C66_only_outputs : forall w d args i, r_files (run w d args) i <> d i ->
  exists p, w_file w p = i /\ (names_output args p \/ (asks_split args /\ track_file p)).
Proof. exact only_outputs. Qed.
Print Assumptions C66_only_outputs.

Example C66_example : let d := disk [("song.mid"%string, sample_file)] in let r := run open_world d (argv ["transpose"; "--semitones"; "2"; "-out=up.mid"; "song.mid"]%string) in
  r_ending r = Exit 0 /\ r_files r (number (str "up.mid")) <> d (number (str "up.mid")) /\ r_files r (number (str "song.mid")) = Some sample_file.
Proof. vm_compute. repeat split. discriminate. Qed.

(** C67, full statement: a run that does not succeed leaves all files as they were.  False of notes, click, tsv and of disassemble with -split, as shown below. *)
Theorem C67_failure_changes_nothing_partial : forall w d n args, byte_files d -> In n (map str ["assemble"; "transpose"; "export"; "humanise"; "help"; "version"]%string) ->
  r_ending (run w d (n :: args)) <> Exit 0 -> r_files (run w d (n :: args)) = d.
Proof. exact failure_changes_nothing. Qed.
Print Assumptions C67_failure_changes_nothing_partial.

Theorem C67_disassembly_partial : forall w d args, byte_files d -> hd [] args = str "disassemble" \/ ~ In (hd [] args) command_names ->
  ~ asks_split args -> ~ asks_templates args -> r_ending (run w d args) <> Exit 0 -> r_files (run w d args) = d.
Proof. exact disassembly_failure. Qed.
Print Assumptions C67_disassembly_partial.

Example C67_example : let d := disk [("song.mid"%string, [77; 84; 104; 100]); ("old.txt"%string, str "old")] in
  let r := run open_world d (argv ["--out"; "old.txt"; "song.mid"]%string) in r_ending r = Exit 1 /\ r_files r (number (str "old.txt")) = Some (str "old").
Proof. vm_compute. split; reflexivity. Qed.

(** notes: with a division of 0 the program crashes after it has emptied the file. *)
Theorem C67_notes_refuted : exists w d args p, d (w_file w p) = Some (str "old") /\ r_ending (run w d args) = Crashed /\ r_files (run w d args) (w_file w p) = Some [].
Proof.
  exists open_world, (disk [("song.mid"%string, no_division); ("old.txt"%string, str "old")]), (argv ["notes"; "--out"; "old.txt"; "song.mid"]%string), (str "old.txt").
  vm_compute. repeat split.
Qed.
Print Assumptions C67_notes_refuted.

(** click: without tracks the program crashes after it has emptied the file. *)
Theorem C67_click_refuted : exists w d args p, d (w_file w p) = Some (str "old") /\ r_ending (run w d args) = Crashed /\ r_files (run w d args) (w_file w p) = Some [].
Proof.
  exists open_world, (disk [("song.mid"%string, no_tracks); ("old.txt"%string, str "old")]), (argv ["click"; "--out"; "old.txt"; "song.mid"]%string), (str "old.txt").
  vm_compute. repeat split.
Qed.
Print Assumptions C67_click_refuted.

(** tsv: a delimiter that encoding/csv does not take is found out after the file has been emptied. *)
Theorem C67_tsv_refuted : exists w d args p, d (w_file w p) = Some (str "old") /\ r_ending (run w d args) = Exit 1 /\ r_files (run w d args) (w_file w p) = Some [].
Proof.
  exists open_world, (disk [("song.mid"%string, one_note); ("old.tsv"%string, str "old")]), (argv ["tsv"; "--delimiter="""; "--out"; "old.tsv"; "song.mid"]%string), (str "old.tsv").
  vm_compute. repeat split.
Qed.
Print Assumptions C67_tsv_refuted.

(** disassemble -split: the header has been written when the file for the track cannot be. *)
Definition half_world : world := World number (fun p => bytes_eqb p (str "song.MThd")) (fun _ => true) (fun _ => None) [] (@rev nevent) in_order.
Theorem C67_split_refuted : exists w d args p, d (w_file w p) = Some (str "old") /\ r_ending (run w d args) = Exit 1 /\ r_files (run w d args) (w_file w p) <> Some (str "old").
Proof.
  exists half_world, (disk [("song.mid"%string, one_note); ("song.MThd"%string, str "old")]), (argv ["disassemble"; "--split"; "song.mid"]%string), (str "song.MThd").
  vm_compute. repeat split. discriminate.
Qed.
Print Assumptions C67_split_refuted.

(** C68: it makes no difference how options are spelt (-n, --n; value behind = or as the next argument), in which order they are given, or what
    stands behind the file; the last value counts. *)
Theorem C68_same_command : forall w d n formal args args' vs vs' rest rest', In (n, formal) documented -> options formal args vs rest -> options formal args' vs' rest' ->
  same_settings vs vs' -> hd [] rest = hd [] rest' -> run w d (n :: args) = run w d (n :: args').
Proof. exact same_command. Qed.
Print Assumptions C68_same_command.

(** C68: without the name of a command the file is disassembled. *)
Theorem C68_default_command : forall w d args, ~ In (hd [] args) command_names -> run w d args = run w d (str "disassemble" :: args).
Proof. exact default_command. Qed.
Print Assumptions C68_default_command.

(** C68: options that do not exist end the program with exit code 2 before anything happens. *)
Theorem C68_unknown_option : forall w d n formal args, In (n, formal) documented -> misspelt formal args -> run w d (n :: args) = Result (Exit 2) [] d.
Proof. exact unknown_flag. Qed.
Print Assumptions C68_unknown_option.

Example C68_example : exists formal vs vs', In (str "transpose", formal) documented /\
  options formal (argv ["-semitones"; "+0x_0c"; "--C4"; "--out=a.mid"; "song.mid"]%string) vs [str "song.mid"] /\
  options formal (argv ["--semitones=7"; "--out"; "a.mid"; "--semitones=12"; "--C4=TRUE"; "song.mid"; "-x"]%string) vs' [str "song.mid"; str "-x"] /\ same_settings vs vs'.
Proof. exact spelt_two_ways. Qed.

Example C68_misspelt_example : exists formal, In (str "notes", formal) documented /\ misspelt formal (argv ["--out=x"; "-semitones"; "3"; "song.mid"]%string).
Proof. exact misspelt_sample. Qed.

(** C68, the help text of assemble ("--out <file>  Output MIDI file. Default is to use the input file name with a .midi extension"): without --out nothing is
    written at all, and the run still succeeds. *)
Theorem C68_default_output_refuted : exists w d file, r_ending (run w d [str "assemble"; file]) = Exit 0 /\ r_stdout (run w d [str "assemble"; file]) = [] /\
  forall i, r_files (run w d [str "assemble"; file]) i = d i.
Proof. exact assemble_without_out. Qed.
Print Assumptions C68_default_output_refuted.

(** C69, full statement: what one run has exported another run assembles to a file with the same events.  False for the files of C56 and C34; missing: files that
    are excluded there. *)
Theorem C69_text_runs_partial : forall w d file r s text t m,
  let env := Env false manufacturers in
  plain file -> file <> [] -> d (w_file w file) = Some r -> is_bytes r -> decode env r = Ok s -> f_tracks s <> [] ->
  (forall h, f_mthd s = Some h -> h_smpte h = false) -> Forall (track_readable (w_tables w)) (f_tracks s) ->
  Forall (fun t => Forall legal_event (t_events t) /\ chained false (t_events t) /\ faithful_events env (t_events t)) (f_tracks s) ->
  disassemble s = Ok text -> ~ long_line text ->
  plain t -> t <> [] -> m <> [] -> ~ ends_with t (str ".json") -> w_creatable w t = true -> w_creatable w m = true ->
  let r1 := run w d [str "disassemble"; str "--out"; t; file] in
  let r2 := run w (r_files r1) [str "assemble"; str "--out"; m; t] in
  r_ending r1 = Exit 0 /\ r_ending r2 = Exit 0 /\ (forall i, i <> w_file w t -> i <> w_file w m -> r_files r2 i = d i) /\
  exists bs, r_files r2 (w_file w m) = Some bs /\ (zlen bs < 4294967296 ->
    exists s' h h', decode env bs = Ok s' /\ f_mthd s = Some h /\ f_mthd s' = Some h' /\ same_header h h' /\
      map (fun t => map ev_view (t_events t)) (f_tracks s') = map (fun t => map ev_view (t_events t)) (f_tracks s)).
Proof. exact text_runs. Qed.
Print Assumptions C69_text_runs_partial.

Theorem C69_json_runs_partial : forall w d file r s q m,
  let env := Env false manufacturers in let t := q ++ str ".json" in
  plain file -> file <> [] -> d (w_file w file) = Some r -> is_bytes r -> decode env r = Ok s -> f_tracks s <> [] ->
  (forall h, f_mthd s = Some h -> h_smpte h = false) ->
  Forall (fun t => t_events t <> [] /\ Forall (fun e => valid_text (e_body e)) (t_events t)) (f_tracks s) ->
  Forall (fun t => Forall legal_event (t_events t) /\ chained false (t_events t) /\ faithful_events env (t_events t)) (f_tracks s) ->
  plain t -> m <> [] -> w_creatable w t = true -> w_creatable w m = true ->
  let r1 := run w d [str "export"; str "--out"; t; file] in
  let r2 := run w (r_files r1) [str "assemble"; str "--out"; m; t] in
  r_ending r1 = Exit 0 /\ r_ending r2 = Exit 0 /\ (forall i, i <> w_file w t -> i <> w_file w m -> r_files r2 i = d i) /\
  exists bs, r_files r2 (w_file w m) = Some bs /\ (zlen bs < 4294967296 ->
    exists s' h h', decode env bs = Ok s' /\ f_mthd s = Some h /\ f_mthd s' = Some h' /\ same_header h h' /\
      map (fun t => map ev_view (t_events t)) (f_tracks s') = map (fun t => map ev_view (t_events t)) (f_tracks s)).
Proof. exact json_runs. Qed.
Print Assumptions C69_json_runs_partial.

Example C69_example : let d := disk [("song.mid"%string, sample_file)] in
  d (number (str "song.mid")) = Some sample_file /\ decode (Env false manufacturers) sample_file = Ok sample_smf /\ f_tracks sample_smf <> [] /\
  Forall (track_readable (w_tables open_world)) (f_tracks sample_smf) /\ disassemble sample_smf = Ok sample_text /\ ~ long_line sample_text /\
  plain (str "song.txt") /\ ~ ends_with (str "song.txt") (str ".json") /\ Forall json_ready (f_tracks sample_smf).
Proof.
  split; [vm_compute; reflexivity|]. split; [vm_compute; reflexivity|]. split; [discriminate|]. split; [exact sample_track_readable|]. split; [apply sample_short|]. split; [apply sample_short|].
  split; [right; vm_compute; discriminate|]. split; [|exact sample_ready]. intros (q & E). apply (f_equal (@rev Z)) in E. rewrite rev_app_distr in E. vm_compute in E. discriminate.
Qed.

(** With --C4 on both command lines the notes come back an octave away: the text assembler does not know where middle C is. *)
Theorem C69_octave_refuted : exists w d, let r1 := run w d (argv ["disassemble"; "--C4"; "--out"; "a.txt"; "song.mid"]%string) in
  let r2 := run w (r_files r1) (argv ["assemble"; "--C4"; "--out"; "b.mid"; "a.txt"]%string) in
  r_ending r1 = Exit 0 /\ r_ending r2 = Exit 0 /\ exists bs bs' s s', d (w_file w (str "song.mid")) = Some bs /\ r_files r2 (w_file w (str "b.mid")) = Some bs' /\
    decode default_env bs = Ok s /\ decode default_env bs' = Ok s' /\ note_values s = [60; 60] /\ note_values s' = [48; 48].
Proof. exact octave_away. Qed.
Print Assumptions C69_octave_refuted.

(** C70: with -split the files, put together, are the text that is written without it; they are numbered through, are beside the file and have its name;
    the directory of the file may be named with detours ([leads], SpecCli.v). *)
Theorem C70_split : forall w d file r s, plain file -> file <> [] -> d (w_file w file) = Some r -> is_bytes r -> decode (Env false manufacturers) r = Ok s -> f_tracks s <> [] ->
  apart (w_file w) -> (forall p, track_file p -> w_creatable w p = true) ->
  let r1 := run w d [str "disassemble"; file] in
  let r2 := run w d [str "disassemble"; str "--split"; file] in
  r_ending r1 = Exit 0 /\ r_ending r2 = Exit 0 /\
  exists pre names contents, split_names pre 0 names /\ length names = length (f_tracks s) /\
    Forall2 (fun p c => r_files r2 (w_file w p) = Some c) ((pre ++ str ".MThd") :: names) contents /\ concat contents = r_stdout r1 /\
    (forall i, ~ In i (map (w_file w) ((pre ++ str ".MThd") :: names)) -> r_files r2 i = d i) /\
    (forall rooted dirs dirs' stem ext, file = path_name rooted (dirs ++ [stem ++ str "." ++ ext]) -> (rooted = false -> hd (str ".") dirs <> []) -> leads rooted dirs dirs' ->
      ~ In 47 stem -> ~ In 47 ext -> ~ In 46 ext -> pre = path_name rooted (dirs' ++ [stem])).
Proof. exact split_run. Qed.
Print Assumptions C70_split.

(** With a directory for the output they are in that directory and have the directory's name. *)
Theorem C70_split_out : forall w d dir file r s, plain file -> file <> [] -> dir <> [] -> d (w_file w file) = Some r -> is_bytes r -> decode (Env false manufacturers) r = Ok s -> f_tracks s <> [] ->
  apart (w_file w) -> (forall p, track_file p -> w_creatable w p = true) -> w_mkdir w dir = true ->
  let r1 := run w d [str "disassemble"; file] in
  let r2 := run w d [str "disassemble"; str "--split"; str "--out"; dir; file] in
  r_ending r1 = Exit 0 /\ r_ending r2 = Exit 0 /\
  exists pre names contents, split_names pre 0 names /\ length names = length (f_tracks s) /\
    Forall2 (fun p c => r_files r2 (w_file w p) = Some c) ((pre ++ str ".MThd") :: names) contents /\ concat contents = r_stdout r1 /\
    (forall i, ~ In i (map (w_file w) ((pre ++ str ".MThd") :: names)) -> r_files r2 i = d i) /\
    (forall rooted dirs dirs' last, dir = path_name rooted (dirs ++ [last]) -> (rooted = false -> hd (str ".") dirs <> []) -> leads rooted dirs dirs' -> element last -> ~ In 46 last ->
      pre = path_name rooted (dirs' ++ [last; last])).
Proof. exact split_out_run. Qed.
Print Assumptions C70_split_out.

Example C70_example : apart (w_file open_world) /\ let d := disk [("song.mid"%string, sample_file)] in
  let r := run open_world d (argv ["--split"; "song.mid"]%string) in
  r_files r (number (str "song.MThd")) <> None /\ r_files r (number (str "song-0.MTrk")) <> None /\ r_files r (number (str "song-1.MTrk")) <> None /\ r_files r (number (str "song-2.MTrk")) = None.
Proof. split; [exact number_apart|]. vm_compute. repeat split; discriminate. Qed.

Example C70_names_example : str "../tmp/./v1.0//x/../song.1.mid" = path_name false ([str ".."; str "tmp"; str "."; str "v1.0"; []; str "x"; str ".."] ++ [str "song.1" ++ str "." ++ str "mid"]) /\
  leads false [str ".."; str "tmp"; str "."; str "v1.0"; []; str "x"; str ".."] [str ".."; str "tmp"; str "v1.0"] /\
  let d := disk [("../tmp/./v1.0//x/../song.1.mid"%string, sample_file)] in
  let r := run open_world d (argv ["--split"; "../tmp/./v1.0//x/../song.1.mid"]%string) in r_files r (number (str "../tmp/v1.0/song.1-1.MTrk")) <> None.
Proof. split; [reflexivity|]. split; [exact detours|vm_compute; discriminate]. Qed.

Example C70_directory_example : let d := disk [("song.mid"%string, sample_file)] in
  let r := run open_world d (argv ["--split"; "--out"; "x/tracks"; "song.mid"]%string) in
  r_files r (number (str "x/tracks/tracks.MThd")) <> None /\ r_files r (number (str "x/tracks/song.MThd")) = None.
Proof. vm_compute. split; [discriminate|reflexivity]. Qed.

(** C73: a command line has at most one reading ... *)
Theorem C73_one_reading : forall n formal args vs vs' rest rest', In (n, formal) documented -> options formal args vs rest -> options formal args vs' rest' -> vs = vs' /\ rest = rest'.
Proof. exact one_reading. Qed.
Print Assumptions C73_one_reading.

(** ... and one that has none ends the program with exit code 2, or 0 if it asks for help, before anything happens. *)
Theorem C73_no_reading : forall w d n formal args, In (n, formal) documented -> ~ (exists vs rest, options formal args vs rest) ->
  run w d (n :: args) = Result (Exit 2) [] d \/ (asks_help args /\ run w d (n :: args) = Result (Exit 0) [] d).
Proof. exact no_reading. Qed.
Print Assumptions C73_no_reading.

Example C73_example : exists formal, In (str "transpose", formal) documented /\ (exists vs, options formal (argv ["-semitones"; "+0x_0c"; "--C4"; "--out=a.mid"; "song.mid"]%string) vs [str "song.mid"]) /\
  ~ (exists vs rest, options formal (argv ["--semitones"; "08"; "song.mid"]%string) vs rest) /\ ~ (exists vs rest, options formal (argv ["--semitones=1__0"; "song.mid"]%string) vs rest) /\
  ~ (exists vs rest, options formal (argv ["--help"; "--out=a.mid"]%string) vs rest).
Proof. exact readings. Qed.
