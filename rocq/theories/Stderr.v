(** * Stderr: what a run writes to stderr (cmd/midiasm/main.go, commands/*.go, log/log.go).

    Left out are the messages of the flag package and the trace of a crash.  Errors of commands are printed to stdout (main.go:81-84). *)
From Verif Require Import Base Strings Tables Event Track File Validate ValidateText Notes Log NotesLog Flags Cli.

(** commands/command.go:21-50 [decode], then the validation (see [loaded] of Cli.v); [k] is what the operation writes. *)
Definition loaded_stderr (w : world) (d : files) (env : env) (file : bytes) (k : smf -> bytes) : bytes :=
  match read_file w d file with
  | None => []
  | Some b =>
      match decode env b with
      | Ok s => match validate s with Ok errs => validation_report errs ++ k s | _ => [] end
      | _ => []
      end
  end.

(** The Execute methods.  commands/notes.go:68-87: the output file is created before the notes are listed; commands/assemble.go, cmd/midiasm/help.go
    and cmd/midiasm/version.go write nothing; of the other operations only ops/click/click.go:103, 113, 125 logs, which is never reached (C42). *)
Definition execute_stderr (w : world) (d : files) (c : command) (vs : list (bytes * value)) (rest : list bytes) : bytes :=
  let env := Env (bool_flag (str "C4") vs) manufacturers in
  let out := string_flag (str "out") vs in
  let file := hd [] rest in
  match c with
  | Assemble_ | Help_ | Version_ => []
  | Notes_ => loaded_stderr w d env file (fun s =>
      if bytes_eqb out [] || w_creatable w out
      then notes_stderr (log_setting (bool_flag (str "debug") vs) (bool_flag (str "verbose") vs)) (extract_log (w_order w) s)
      else [])
  | _ => loaded_stderr w d env file (fun _ => [])
  end.

(** cmd/midiasm/main.go:39-88 [main] *)
Definition run_stderr (w : world) (d : files) (args : list bytes) : bytes :=
  let (c, r) := choose args in
  match parse_flags (flagset c) r with
  | Quit _ => []
  | Parsed vs rest => execute_stderr w d c vs rest
  end.
