(** * From the command line to the files: C86 and C87.  Theorems only; proofs in RunProofs.v, RunCommandProofs.v and RunTemplateProofs.v. *)
From Coq Require Import Permutation.
From Verif Require Import Base Strings Tables Event Track File SpecTrack SpecTranspose SpecSurvive SpecEvent Notes SpecNotes SpecFloat SpecTable SpecText SpecCsv Assemble TextEvent SpecLine NoteProofs SpecSource
  Json JsonText SpecJsonText Disassemble Template SpecTemplate TemplateLoad TemplateProofs TemplateSamples SpecDuration
  Flags Paths Cli SpecCli SpecRun SpecRunTemplate RunProofs RunCommandProofs RunTemplateProofs Samples SampleProofs CliSamples RunSamples LossSamples.

(** C86: every option of a command has one value, given or not. *)
Theorem C86_settings : forall n formal args vs rest opt, In (n, formal) documented -> options formal args vs rest ->
  (In (opt, KString) formal -> exists s, string_setting opt vs s) /\ (In (opt, KInt) formal -> exists k, int_setting opt vs k) /\
  (In (opt, KBool) formal -> exists b, bool_setting opt vs b).
Proof. exact settings_exist. Qed.
Print Assumptions C86_settings.

(** C86: a file that is not there, or not a MIDI file, ends the run before anything is printed or changed. *)
Theorem C86_missing_file : forall w d n args vs file, asked n args vs file -> In n (map str ["assemble"; "disassemble"; "notes"; "click"; "export"; "transpose"; "tsv"; "humanise"]%string) ->
  file = [] \/ d (w_file w file) = None -> untouched d (Exit 1) (run w d (n :: args)).
Proof. exact missing_file. Qed.
Print Assumptions C86_missing_file.

Theorem C86_bad_file : forall w d n args vs file c4 r, asked n args vs file -> In n (map str ["disassemble"; "notes"; "click"; "export"; "transpose"; "tsv"; "humanise"]%string) ->
  bool_setting (str "C4") vs c4 -> holds w d file r ->
  match decode (Env c4 manufacturers) r with
  | Ok _ => True
  | Err | Eof => untouched d (Exit 1) (run w d (n :: args))
  | Panic => untouched d Crashed (run w d (n :: args))
  | Loop => untouched d Hung (run w d (n :: args))
  end.
Proof. exact bad_file. Qed.
Print Assumptions C86_bad_file.

(** C86: disassemble prints, or puts into the file, what the template of the program writes (C83). *)
Theorem C86_disassemble : forall w d args vs file c4 out r s, asked (str "disassemble") args vs file -> bool_setting (str "C4") vs c4 -> string_setting (str "out") vs out ->
  string_setting (str "templates") vs [] -> bool_setting (str "split") vs false ->
  holds w d file r -> is_bytes r -> decode (Env c4 manufacturers) r = Ok s -> f_tracks s <> [] ->
  exists ts text, new_disassemble = Some ts /\ print ts (str "document") (smf_data s) = (text, Done) /\ delivered w d out text (run w d (str "disassemble" :: args)).
Proof. exact disassemble_run. Qed.
Print Assumptions C86_disassemble.

(** With a template file it is the listing of C84 ... *)
Theorem C86_templates : forall w d args vs file c4 out r s tmpl b us ts0 ts text, asked (str "disassemble") args vs file -> bool_setting (str "C4") vs c4 ->
  string_setting (str "out") vs out -> string_setting (str "templates") vs tmpl -> bool_setting (str "split") vs false -> knows_templates w ->
  holds w d file r -> is_bytes r -> decode (Env c4 manufacturers) r = Ok s -> f_tracks s <> [] ->
  holds w d tmpl b -> read_templates b = Ok us -> plain_templates us -> new_disassemble = Some ts0 -> load_templates ts0 us = Some ts ->
  file_written (shown_for us ts) s = (text, Done) -> delivered w d out text (run w d (str "disassemble" :: args)).
Proof. exact templates_run. Qed.
Print Assumptions C86_templates.

(** ... and if that cannot be read, nothing. *)
Theorem C86_no_templates : forall w d args vs file c4 r s tmpl b, asked (str "disassemble") args vs file -> bool_setting (str "C4") vs c4 ->
  string_setting (str "templates") vs tmpl -> knows_templates w ->
  holds w d file r -> decode (Env c4 manufacturers) r = Ok s -> f_tracks s <> [] ->
  tmpl <> [] -> d (w_file w tmpl) = None \/ (d (w_file w tmpl) = Some b /\ forall us, read_templates b <> Ok us) -> untouched d (Exit 1) (run w d (str "disassemble" :: args)).
Proof. exact no_templates_run. Qed.
Print Assumptions C86_no_templates.

(** C86: export delivers a JSON text for the document of the file (C33, C34, C62). *)
Theorem C86_export : forall w d args vs file c4 out r s, asked (str "export") args vs file -> bool_setting (str "C4") vs c4 -> string_setting (str "out") vs out ->
  holds w d file r -> is_bytes r -> decode (Env c4 manufacturers) r = Ok s -> f_tracks s <> [] ->
  exists text, json_text (export_json s) text /\ delivered w d out text (run w d (str "export" :: args)).
Proof. exact export_run. Qed.
Print Assumptions C86_export.

(** C86: notes delivers the notes that sound in the tracks after the first one, moved by the semitones asked for (C39), as lines (C65) or JSON (C71). *)
Theorem C86_notes : forall w d args vs file c4 out steps json r s h, asked (str "notes") args vs file -> bool_setting (str "C4") vs c4 -> string_setting (str "out") vs out ->
  int_setting (str "transpose") vs steps -> reasonable steps -> bool_setting (str "json") vs json -> (forall l, Permutation l (w_order w l)) ->
  let env := Env c4 manufacturers in
  holds w d file r -> is_bytes r -> decode env r = Ok s -> f_tracks s <> [] -> f_mthd s = Some h -> h_ppqn h <> 0 ->
  exists notes text, file_notes env steps s notes /\ (if json then notes_document (map SpecDuration.shown notes) text else SpecDuration.listing (map SpecDuration.shown notes) text) /\
    delivered w d out text (run w d (str "notes" :: args)).
Proof. exact notes_run. Qed.
Print Assumptions C86_notes.

(** C86: tsv delivers the table of C43, in columns on the terminal and with -tabular (C44), separated by the delimiter asked for otherwise (C64, with the titles twice, C55). *)
Theorem C86_tsv : forall w d args vs file c4 out delim tabular r s, asked (str "tsv") args vs file -> bool_setting (str "C4") vs c4 -> string_setting (str "out") vs out ->
  string_setting (str "delimiter") vs delim -> bool_setting (str "tabular") vs tabular ->
  holds w d file r -> is_bytes r -> decode (Env c4 manufacturers) r = Ok s -> f_tracks s <> [] ->
  out = [] \/ tabular = true \/ (is_bytes delim /\ exists x, delimiter delim x /\ separator x) ->
  exists t text, file_table s t /\
    match out, tabular with
    | [], _ | _, true => aligned_text t text
    | _, _ => exists x, delimiter delim x /\ table_text x (titles :: t) text
    end /\ delivered w d out text (run w d (str "tsv" :: args)).
Proof. exact tsv_run. Qed.
Print Assumptions C86_tsv.

(** C86: click delivers an empty text (C42) and prints three line feeds wherever that goes, humanise fails, help and version change nothing. *)
Theorem C86_click : forall w d args vs file c4 out r s, asked (str "click") args vs file -> bool_setting (str "C4") vs c4 -> string_setting (str "out") vs out ->
  holds w d file r -> decode (Env c4 manufacturers) r = Ok s -> f_tracks s <> [] -> delivered_beside w d out [] [10; 10; 10] (run w d (str "click" :: args)).
Proof. exact click_run. Qed.
Print Assumptions C86_click.

Theorem C86_humanise : forall w d args vs file c4 r s, asked (str "humanise") args vs file -> bool_setting (str "C4") vs c4 ->
  holds w d file r -> decode (Env c4 manufacturers) r = Ok s -> f_tracks s <> [] -> untouched d (Exit 1) (run w d (str "humanise" :: args)).
Proof. exact humanise_run. Qed.
Print Assumptions C86_humanise.

Theorem C86_help : forall w d n args vs file, asked n args vs file -> In n [str "help"; str "version"] ->
  r_ending (run w d (n :: args)) = Exit 0 /\ forall i, r_files (run w d (n :: args)) i = d i.
Proof. exact help_run. Qed.
Print Assumptions C86_help.

(** A command line of each kind, and the sample file, meet the hypotheses. *)
Example C86_lines : exists vs1 vs2 vs3,
  asked (str "disassemble") (argv ["-C4"; "--templates=t.json"; "--out"; "a.txt"; "song.mid"]%string) vs1 (str "song.mid") /\
  bool_setting (str "C4") vs1 true /\ string_setting (str "out") vs1 (str "a.txt") /\ string_setting (str "templates") vs1 (str "t.json") /\ bool_setting (str "split") vs1 false /\
  asked (str "notes") (argv ["--transpose"; "-0x0c"; "--json"; "song.mid"]%string) vs2 (str "song.mid") /\
  int_setting (str "transpose") vs2 (-12) /\ bool_setting (str "json") vs2 true /\ string_setting (str "out") vs2 [] /\
  asked (str "tsv") (argv ["--delimiter=;"; "--out=t.tsv"; "song.mid"]%string) vs3 (str "song.mid") /\
  string_setting (str "delimiter") vs3 (str ";") /\ bool_setting (str "tabular") vs3 false.
Proof. exact sample_lines. Qed.

Example C86_file : let d := disk [("song.mid"%string, sample_file); ("t.json"%string, loaded_template)] in knows_templates template_world /\
  holds template_world d (str "song.mid") sample_file /\ decode (Env false manufacturers) sample_file = Ok sample_smf /\ f_tracks sample_smf <> [] /\
  (exists h, f_mthd sample_smf = Some h /\ h_ppqn h = 480) /\ holds template_world d (str "t.json") loaded_template /\
  exists text, r_ending (run template_world d (argv ["--templates=t.json"; "--out"; "a.txt"; "song.mid"]%string)) = Exit 0 /\
    r_files (run template_world d (argv ["--templates=t.json"; "--out"; "a.txt"; "song.mid"]%string)) (number (str "a.txt")) = Some text /\ contains text (str ">>> T") = true.
Proof. exact sample_runs. Qed.

(** C87, full statement: transpose puts a file with the events moved by the semitones asked for into the output file.  Proved for files whose events can be written (C08-C16), as C24. *)
Theorem C87_transpose_partial : forall w d args vs file c4 out n r s, asked (str "transpose") args vs file -> bool_setting (str "C4") vs c4 -> string_setting (str "out") vs out ->
  int_setting (str "semitones") vs n -> reasonable n ->
  let env := Env c4 manufacturers in
  holds w d file r -> is_bytes r -> decode env r = Ok s -> f_tracks s <> [] -> legal_smf s -> Forall (fun t => faithful_events env (t_events t)) (f_tracks s) ->
  exists bs, saved w d out bs (run w d (str "transpose" :: args)) /\
    (zlen bs < 4294967296 -> exists s2 h h2, decode env bs = Ok s2 /\ f_mthd s = Some h /\ f_mthd s2 = Some h2 /\ same_header h h2 /\
       moved_contents n (smf_contents s) (smf_contents s2)).
Proof. exact transpose_run. Qed.
Print Assumptions C87_transpose_partial.

(** C87, full statement: assemble puts the file that the source says into the output file: a JSON document if the source is called .json, assembly text otherwise.  If it fails, nothing
    has changed.  What the file decodes to is proved for events that can be written, as C81 and C82. *)
Theorem C87_json_partial : forall w d args vs file c4 out src, asked (str "assemble") args vs file -> bool_setting (str "C4") vs c4 -> string_setting (str "out") vs out ->
  let env := Env c4 manufacturers in
  holds w d file src -> is_bytes src -> ends_with file (str ".json") ->
  (exists e, e <> Exit 0 /\ untouched d e (run w d (str "assemble" :: args))) \/
  (exists bs before t after v f x ess ess', src = before ++ t ++ after /\ white before /\ json_in lax_chars v t /\
     json_file manufacturers (middle_octave env) v f x ess /\ Forall2 closes ess ess' /\ saved w d out bs (run w d (str "assemble" :: args)) /\
     (Forall legal_events ess' -> Forall (faithful_events env) ess' -> zlen bs < 4294967296 ->
      exists s h, decode env bs = Ok s /\ f_mthd s = Some h /\ h_format h = f /\ h_division h = x /\ h_tracks h = zlen ess /\
        map (fun t => map ev_view (t_events t)) (f_tracks s) = map contents ess')).
Proof. exact assemble_json_run. Qed.
Print Assumptions C87_json_partial.

Theorem C87_text_partial : forall w d args vs file c4 out src env, asked (str "assemble") args vs file -> bool_setting (str "C4") vs c4 -> string_setting (str "out") vs out ->
  holds w d file src -> is_bytes src -> ~ ends_with file (str ".json") ->
  (exists e, e <> Exit 0 /\ untouched d e (run w d (str "assemble" :: args))) \/
  (exists bs f x ess ess', text_file (fun l e => exists j i, line_says (w_tables w j i) l e) src f x ess /\ Forall2 closes ess ess' /\
     saved w d out bs (run w d (str "assemble" :: args)) /\
     (Forall legal_events ess' -> Forall (faithful_events env) ess' -> zlen bs < 4294967296 ->
      exists s h, decode env bs = Ok s /\ f_mthd s = Some h /\ h_format h = f /\ h_division h = x /\ h_tracks h = zlen ess /\
        map (fun t => map ev_view (t_events t)) (f_tracks s) = map contents ess')).
Proof. exact assemble_text_run. Qed.
Print Assumptions C87_text_partial.

Example C87_lines : exists vs1 vs2,
  asked (str "transpose") (argv ["--semitones=-3"; "-out"; "a.mid"; "song.mid"]%string) vs1 (str "song.mid") /\ int_setting (str "semitones") vs1 (-3) /\ string_setting (str "out") vs1 (str "a.mid") /\
  asked (str "assemble") (argv ["--out"; "a.mid"; "song.json"]%string) vs2 (str "song.json") /\ ends_with (str "song.json") (str ".json") /\
  legal_smf sample_smf /\ Forall (fun t => faithful_events (Env false manufacturers) (t_events t)) (f_tracks sample_smf).
Proof. exact sample_writers. Qed.

(** The run with the sample file has written something that decodes, three semitones lower; an exported file is assembled. *)
Example C87_runs : let d := disk [("song.mid"%string, sample_file)] in
  let r1 := run open_world d (argv ["transpose"; "--semitones=-3"; "-out"; "a.mid"; "song.mid"]%string) in
  let r2 := run open_world d (argv ["export"; "--out"; "song.json"; "song.mid"]%string) in
  let r3 := run open_world (r_files r2) (argv ["assemble"; "--out"; "b.mid"; "song.json"]%string) in
  (exists bs s, r_files r1 (number (str "a.mid")) = Some bs /\ decode default_env bs = Ok s /\ note_values sample_smf = map (Z.add 3) (note_values s)) /\
  (exists bs s, r_ending r3 = Exit 0 /\ r_files r3 (number (str "b.mid")) = Some bs /\ decode default_env bs = Ok s /\ note_values s = note_values sample_smf).
Proof. exact sample_written. Qed.

(** Finding: transposing by nothing changes the pitch bends, and turns a long text into notes (C09, C10, C14). *)
Theorem C87_transpose_refuted : exists d, d = disk [("bend.mid"%string, bend_file); ("text.mid"%string, loud_file)] /\
  let r1 := run open_world d (argv ["transpose"; "--semitones=0"; "-out"; "a.mid"; "bend.mid"]%string) in
  let r2 := run open_world d (argv ["transpose"; "--semitones=0"; "-out"; "a.mid"; "text.mid"]%string) in
  (exists s bs s', decode default_env bend_file = Ok s /\ smf_contents s = [[(0, CBend 0 8192); (0, CEndOfTrack)]] /\
     r_ending r1 = Exit 0 /\ r_files r1 (number (str "a.mid")) = Some bs /\ decode default_env bs = Ok s' /\ smf_contents s' = [[(0, CBend 0 4096); (0, CEndOfTrack)]]) /\
  (exists s bs s', decode default_env loud_file = Ok s /\ smf_contents s = [[(0, CText KText loud_text); (0, CEndOfTrack)]] /\
     r_ending r2 = Exit 0 /\ r_files r2 (number (str "a.mid")) = Some bs /\ decode default_env bs = Ok s' /\
     smf_contents s' = [(0, CText KText []) :: repeat (0, CNoteOn 0 60 64) 64 ++ [(0, CEndOfTrack)]]).
Proof. eexists. split; [reflexivity|]. split; witness. Qed.
Print Assumptions C87_transpose_refuted.
