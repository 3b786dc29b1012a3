(** * Cli: cmd/midiasm/main.go and the commands (commands/*.go) with their effects on files.

    Simplifications: what is printed besides the result of a command (usage, warnings, error messages, logs) is left out;
    reading and writing an open file never fails; no other program changes files during a run. *)
From Verif Require Import Base Strings Tables Event Track File Validate Transpose Notes NotesPrint Disassemble Tsv Csv TextAssemble Json JsonText NotesJson Flags Paths Help.

(** ops/disassemble/disassemble.go:65-72 [Print] for the three templates used *)
Record templates := Templates { t_document : smf -> outcome bytes; t_mthd : option mthd -> outcome bytes; t_mtrk : mtrk -> outcome bytes }.

(** ops/disassemble/disassemble.go:22-37 [NewDisassemble]: the templates of the program.  A nil MThd is an error of Execute. *)
Definition standard_templates : templates :=
  Templates disassemble (fun h => match h with Some h => Ok (mthd_line h) | None => Err end) mtrk_text.

(** Files by identity: their contents, [None] for what cannot be read. *)
Definition files := Z -> option bytes.

(** What a run depends on besides the files and the command line: the file a path leads to; whether it can be opened for writing;
    whether a directory can be made; the templates that the contents of a template file define (ops/disassemble/disassemble.go:39-63
    [LoadTemplates]; Template.v and TemplateLoad.v model which ones, here they are arbitrary); what a failing Print has written before; the orders in which maps are iterated. *)
Record world := World {
  w_file : bytes -> Z; w_creatable : bytes -> bool; w_mkdir : bytes -> bool;
  w_templates : bytes -> option templates; w_partial : bytes;
  w_order : list nevent -> list nevent; w_tables : nat -> nat -> list (bytes * manufacturer) }.

(** How a run ends *)
Inductive ending := Exit (code : Z) | Crashed | Hung.
Record result := Result { r_ending : ending; r_stdout : bytes; r_files : files }.

(** os.Open and ReadAll, os.ReadFile *)
Definition read_file (w : world) (d : files) (p : bytes) : option bytes := if bytes_eqb p [] then None else d (w_file w p).

(** The files after a file has been created (or truncated) and written *)
Definition put (w : world) (d : files) (p : bytes) (bs : bytes) : files := fun i => if i =? w_file w p then Some bs else d i.

(** main.go:80-86: an error ends the program with exit code 1. *)
Definition stopped {A} (x : outcome A) : ending := match x with Ok _ => Exit 0 | Err | Eof => Exit 1 | Panic => Crashed | Loop => Hung end.
Definition ends (e : ending) (d : files) : result := Result e [] d.

(** commands/command.go:21-50 [decode] and the validation that starts all commands but assemble (e.g. commands/notes.go:51-63); validation errors
    are warnings. *)
Definition loaded (w : world) (d : files) (env : env) (file : bytes) (k : smf -> result) : result :=
  match read_file w d file with
  | None => ends (Exit 1) d
  | Some b =>
      match decode env b with
      | Ok s => match validate s with Ok _ => k s | x => ends (stopped x) d end
      | x => ends (stopped x) d
      end
  end.

(** os.Create before the operation (commands/notes.go:68-87, commands/click.go:64-79, commands/export.go:74-90,
    commands/disassemble.go:94-109); [partial] is what a failing operation has written. *)
Definition created (w : world) (d : files) (out : bytes) (op : outcome bytes) (partial : bytes) : result :=
  if bytes_eqb out [] then match op with Ok bs => Result (Exit 0) bs d | x => Result (stopped x) partial d end
  else if w_creatable w out then ends (stopped op) (put w d out (match op with Ok bs => bs | _ => partial end))
  else ends (Exit 1) d.

(** commands/assemble.go:46-78 [Execute]; commands/transpose.go:67-89 writes its result the same way. *)
Definition written (w : world) (d : files) (out : bytes) (op : outcome bytes) : result :=
  match op with
  | Ok bs => if bytes_eqb out [] then ends (Exit 0) d else if w_creatable w out then ends (Exit 0) (put w d out bs) else ends (Exit 1) d
  | x => ends (stopped x) d
  end.
Definition run_assemble (w : world) (d : files) (env : env) (out file : bytes) : result :=
  match read_file w d file with
  | None => ends (Exit 1) d
  | Some b => written w d out (if bytes_eqb (path_ext file) (str ".json") then assemble_json_text env b else assemble_text (w_tables w) b)
  end.

(** commands/transpose.go:47-89 [Execute], [execute] *)
Definition run_transpose (w : world) (d : files) (env : env) (out file : bytes) (semitones : Z) : result :=
  loaded w d env file (fun s => written w d out (transpose_execute env semitones s)).

(** commands/notes.go:48-87 and ops/notes/notes.go:47-59 [Execute] *)
Definition run_notes (w : world) (d : files) (env : env) (out file : bytes) (steps : Z) (json : bool) : result :=
  loaded w d env file (fun s => created w d out (do ns <- extract env steps (w_order w) s; Ok (if json then notes_json ns else print_notes ns)) []).

(** ops/click/click.go:149, 176, 180: an operation that gets that far prints three line feeds to stdout, whatever its writer is.  They stand before,
    between and behind the lines, of which there never is one (see [click_lines]). *)
Definition with_feeds (r : result) : result :=
  match r_ending r with
  | Exit c => if c =? 0 then Result (Exit c) (r_stdout r ++ [10; 10; 10]) (r_files r) else r
  | _ => r
  end.

(** commands/click.go:44-79; the text of the lines of [click_lines] is not modelled. *)
Definition run_click (w : world) (d : files) (env : env) (out file : bytes) : result :=
  loaded w d env file (fun s => with_feeds (created w d out (do n <- click_lines s; Ok (repeat 10 n)) [])).

(** commands/export.go:45-90 *)
Definition run_export (w : world) (d : files) (env : env) (out file : bytes) : result :=
  loaded w d env file (fun s => created w d out (Ok (export_text s)) []).

(** commands/tsv.go:59-87 [Execute]: the file is created after the export and before writing. *)
Definition run_tsv (w : world) (d : files) (env : env) (out file delimiter : bytes) (tabular : bool) : result :=
  loaded w d env file (fun s =>
    match tsv_export s with
    | Ok records =>
        if bytes_eqb out [] then Result (Exit 0) (write_table records) d
        else created w d out (if tabular then Ok (write_table records) else write_tsv (tsv_delimiter delimiter) records) []
    | x => ends (stopped x) d
    end).

(** commands/humanise.go:47-71: always an error *)
Definition run_humanise (w : world) (d : files) (env : env) (file : bytes) : result := loaded w d env file (fun _ => ends (Exit 1) d).

(** commands/disassemble.go:137-150: one file per track *)
Fixpoint split_tracks (w : world) (d : files) (ts : templates) (dir base : bytes) (tracks : list mtrk) : result :=
  match tracks with
  | [] => ends (Exit 0) d
  | t :: r =>
      let p := path_join dir (base ++ str "-" ++ dec (t_number t) ++ str ".MTrk") in
      if w_creatable w p then
        match t_mtrk ts t with
        | Ok bs => split_tracks w (put w d p bs) ts dir base r
        | Err | Eof => split_tracks w (put w d p (w_partial w)) ts dir base r
        | x => ends (stopped x) (put w d p (w_partial w))
        end
      else ends (Exit 1) d
  end.

(** commands/disassemble.go:111-153 [separate]; errors of Print are only reported. *)
Definition separate (w : world) (d : files) (ts : templates) (s : smf) (out file : bytes) : result :=
  let base := trim_suffix (path_base file) (path_ext file) in
  let dir := if bytes_eqb out [] then path_dir file else out in
  if negb (bytes_eqb out []) && negb (w_mkdir w dir) then ends (Exit 1) d
  else
    let p := path_join dir (base ++ str ".MThd") in
    if w_creatable w p then
      match t_mthd ts (f_mthd s) with
      | Ok bs => split_tracks w (put w d p bs) ts dir base (f_tracks s)
      | Err | Eof => split_tracks w (put w d p (w_partial w)) ts dir base (f_tracks s)
      | x => ends (stopped x) (put w d p (w_partial w))
      end
    else ends (Exit 1) d.

(** commands/disassemble.go:51-109 [Execute], [write] *)
Definition run_disassemble (w : world) (d : files) (env : env) (out file tmpl : bytes) (split : bool) : result :=
  loaded w d env file (fun s =>
    let k ts :=
      if split then separate w d ts s out (if bytes_eqb out [] then file else out)
      else created w d out (t_document ts s) (w_partial w) in
    if bytes_eqb tmpl [] then k standard_templates
    else match read_file w d tmpl with
         | None => ends (Exit 1) d
         | Some b => match w_templates w b with Some ts => k ts | None => ends (Exit 1) d end
         end).

(** cmd/midiasm/main.go:14-28: the commands *)
Inductive command := Disassemble_ | Assemble_ | Notes_ | Click_ | Export_ | Transpose_ | Tsv_ | Humanise_ | Help_ | Version_.
Definition cli : list (bytes * command) :=
  [(str "disassemble", Disassemble_); (str "assemble", Assemble_); (str "notes", Notes_); (str "click", Click_); (str "export", Export_);
   (str "transpose", Transpose_); (str "tsv", Tsv_); (str "humanise", Humanise_); (str "help", Help_); (str "version", Version_)].

(** The flags: cmd/midiasm/main.go:93-95 and the Flagset methods of the commands *)
Definition flagset (c : command) : list (bytes * kind) :=
  [(str "C4", KBool); (str "verbose", KBool); (str "debug", KBool)] ++
  match c with
  | Disassemble_ => [(str "out", KString); (str "split", KBool); (str "templates", KString)]
  | Assemble_ | Click_ | Export_ | Humanise_ => [(str "out", KString)]
  | Notes_ => [(str "out", KString); (str "transpose", KInt); (str "json", KBool)]
  | Transpose_ => [(str "out", KString); (str "semitones", KInt)]
  | Tsv_ => [(str "out", KString); (str "delimiter", KString); (str "tabular", KBool)]
  | Help_ | Version_ => []
  end.

(** cmd/midiasm/main.go:90-117 [parse], the choice of the command; [args] is os.Args[1:]. *)
Definition choose (args : list bytes) : command * list bytes :=
  match args with
  | [] => (Disassemble_, [])
  | a :: r => match assocb a cli with Some c => (c, r) | None => (Disassemble_, args) end
  end.

(** The Help methods of the commands; those of help and version (cmd/midiasm/help.go:17-18, cmd/midiasm/version.go:17-18) print nothing. *)
Definition command_help (c : command) : bytes :=
  match c with
  | Disassemble_ => disassemble_help | Assemble_ => assemble_help | Notes_ => notes_help | Click_ => click_help | Export_ => export_help
  | Transpose_ => transpose_help | Tsv_ => tsv_help | Humanise_ => humanise_help | Help_ | Version_ => []
  end.

(** cmd/midiasm/help.go:20-31 [Execute] of help; [arg] is flagset.Arg(0). *)
Definition help_text (arg : bytes) : bytes :=
  match assocb arg cli with Some c => command_help c | None => usage_help (map fst cli) end.

(** The Execute methods with the values of the flags *)
Definition execute (w : world) (d : files) (c : command) (vs : list (bytes * value)) (rest : list bytes) : result :=
  let env := Env (bool_flag (str "C4") vs) manufacturers in
  let out := string_flag (str "out") vs in
  let file := hd [] rest in
  match c with
  | Disassemble_ => run_disassemble w d env out file (string_flag (str "templates") vs) (bool_flag (str "split") vs)
  | Assemble_ => run_assemble w d env out file
  | Notes_ => run_notes w d env out file (int_flag (str "transpose") vs) (bool_flag (str "json") vs)
  | Click_ => run_click w d env out file
  | Export_ => run_export w d env out file
  | Transpose_ => run_transpose w d env out file (int_flag (str "semitones") vs)
  | Tsv_ => run_tsv w d env out file (string_flag (str "delimiter") vs) (bool_flag (str "tabular") vs)
  | Humanise_ => run_humanise w d env file
  | Help_ => Result (Exit 0) (help_text file) d
  | Version_ => Result (Exit 0) version_text d
  end.

(** cmd/midiasm/main.go:39-88 [main].  options.conf (47-65) is never set. *)
Definition run (w : world) (d : files) (args : list bytes) : result :=
  let (c, r) := choose args in
  match parse_flags (flagset c) r with
  | Quit code => ends (Exit code) d
  | Parsed vs rest => execute w d c vs rest
  end.
