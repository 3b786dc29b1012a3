(** * SpecHelpOwn: command lines in help texts. *)
From Verif Require Import Base Strings SpecCli.

(** The command line behind "midiasm " is one for the command [c]; disassemble need not be named. *)
Definition for_command (c x : bytes) : Prop :=
  (exists r, x = c ++ [32] ++ r) \/ (c = str "disassemble" /\ forall n r, In n command_names -> x <> n ++ [32] ++ r).

(** The commands with a help text *)
Definition explained_commands : list bytes := map str ["disassemble"; "assemble"; "notes"; "click"; "export"; "transpose"; "tsv"; "humanise"]%string.
