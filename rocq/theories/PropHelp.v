(** * The help texts: C93.  Theorems only; proofs in HelpProofs.v and HelpSamples.v. *)
From Verif Require Import Base Strings Flags Help Cli SpecCli SpecRun SpecHelp HelpProofs SpecHelpOwn HelpOwnProofs HelpSamples CliSamples RunSamples.

(** C93, full statement: help, given a command, explains exactly the options of that command, with examples that can be used; given anything else, it lists the commands.  False as shown
    below; missing: that all options are explained, and the example for humanise. *)
Theorem C93_options_partial : forall w d args vs c formal n, asked (str "help") args vs c -> In (c, formal) documented -> explains (r_stdout (run w d (str "help" :: args))) n -> exists k, In (n, k) formal.
Proof. exact help_options. Qed.
Print Assumptions C93_options_partial.

Theorem C93_commands : forall w d args vs x n, asked (str "help") args vs x -> ~ In x command_names -> (is_line (r_stdout (run w d (str "help" :: args))) (str "    " ++ n) <-> In n command_names).
Proof. exact help_commands. Qed.
Print Assumptions C93_commands.

Theorem C93_examples_partial : forall w d args vs c x ws, asked (str "help") args vs c -> In c (map str ["disassemble"; "assemble"; "notes"; "click"; "export"; "transpose"; "tsv"]%string) ->
  is_line (r_stdout (run w d (str "help" :: args))) (str "      midiasm " ++ x) -> in_words x ws -> usable ws.
Proof. exact help_examples. Qed.
Print Assumptions C93_examples_partial.

(** C93: the usage and the example in the help of a command are for that command. *)
Theorem C93_own : forall w d args vs c, asked (str "help") args vs c -> In c explained_commands ->
  let out := r_stdout (run w d (str "help" :: args)) in
  forall p, In p [str "    midiasm "; str "      midiasm "] -> (exists x, is_line out (p ++ x)) /\ forall x, is_line out (p ++ x) -> for_command c x.
Proof. exact help_own. Qed.
Print Assumptions C93_own.

Example C93_example : asked (str "help") [str "notes"] [] (str "notes") /\ help_text (str "notes") = notes_help /\ explains notes_help (str "out") /\
  is_line notes_help (str "      midiasm " ++ str "notes --debug --verbose --out one-time.notes one-time.mid") /\ asked (str "help") [] [] [] /\ ~ In [] command_names.
Proof.
  split; [apply asks_about; right; discriminate|]. split; [reflexivity|]. split; [exact explained|]. split; [apply in_line; vm_compute; tauto|].
  split; [exists common, []; split; [cbn; auto 12|]; split; [constructor|reflexivity]|]. vm_compute. intuition discriminate.
Qed.

(** Findings: options that no help text explains. *)
Theorem C93_unexplained_refuted : exists l, l = [(str "notes", str "json"); (str "notes", str "transpose"); (str "disassemble", str "templates")] /\
  forall w d c n, In (c, n) l -> (exists formal k, In (c, formal) documented /\ In (n, k) formal) /\ ~ explains (r_stdout (run w d [str "help"; c])) n.
Proof. exact unexplained. Qed.
Print Assumptions C93_unexplained_refuted.

(** Finding: the example for humanise has no file: what should be the file is the value of the option in front of it. *)
Theorem C93_humanise_refuted : exists x ws, (forall w d, is_line (r_stdout (run w d [str "help"; str "humanise"])) (str "      midiasm " ++ x)) /\ in_words x ws /\ ~ usable ws.
Proof. exact humanise_no_file. Qed.
Print Assumptions C93_humanise_refuted.

(** Finding: nothing is printed about help and version. *)
Theorem C93_silent_refuted : exists l, l = [str "help"; str "version"] /\ forall w d c, In c l -> In c command_names /\ r_stdout (run w d [str "help"; c]) = [].
Proof. exact silent. Qed.
Print Assumptions C93_silent_refuted.
