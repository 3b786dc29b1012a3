(** * Stdout: what a run prints to standard output, with the report of an error. *)
From Verif Require Import Base Strings Flags Cli.

(** cmd/midiasm/main.go:82-84; the message of the error is arbitrary. *)
Definition error_report (message : bytes) : bytes := [10] ++ str "   *** ERROR: " ++ message ++ [10] ++ [10].

(** cmd/midiasm/main.go:81-87: the exit status is 1 after an error of the command only (a command line that cannot be parsed gives 2, from the flag package, whose
    messages go to stderr).  The lines of commands/disassemble.go:133, 146 about a template that fails for the header or a track are left out; that needs a template of the user. *)
Definition run_stdout (w : world) (d : files) (args : list bytes) (message : bytes) : bytes :=
  let r := run w d args in
  r_stdout r ++ match r_ending r with Exit c => if c =? 1 then error_report message else [] | _ => [] end.
