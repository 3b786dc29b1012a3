(** * From the command line to standard output: C119.  Theorems only; proofs in StdoutProofs.v. *)
From Verif Require Import Base Strings Flags Cli SpecCli SpecRun Stderr Stdout SpecStdout StdoutProofs CliSamples Samples.

(** C119: standard output has what the command printed if the run succeeds, the report of the error and nothing else if it fails, and nothing if it crashes, hangs or is not understood. *)
Theorem C119_apart : forall w d args message, byte_files d -> ~ asks_templates args ->
  (r_ending (run w d args) = Exit 0 /\ run_stdout w d args message = r_stdout (run w d args)) \/
  (r_ending (run w d args) = Exit 1 /\ reports_error message (run_stdout w d args message)) \/
  (r_ending (run w d args) <> Exit 0 /\ r_ending (run w d args) <> Exit 1 /\ run_stdout w d args message = []).
Proof. exact apart. Qed.
Print Assumptions C119_apart.

(** C119: nothing of the result is printed if a file is named for it. *)
Theorem C119_named : forall w d n args vs file out, asked n args vs file -> In n writers -> string_setting (str "out") vs out -> out <> [] ->
  (n = str "disassemble" -> string_setting (str "templates") vs []) -> r_stdout (run w d (n :: args)) = [].
Proof. exact named_quiet. Qed.
Print Assumptions C119_named.

(** Runs of each kind.  An error is reported on stdout, and there only. *)
Example C119_example : let d := disk [("song.mid"%string, one_note); ("bare.mid"%string, no_tracks)] in
  byte_files d /\ ~ asks_templates (argv ["click"; "--out"; "c.txt"; "song.mid"]%string) /\
  run_stdout open_world d (argv ["click"; "--out"; "c.txt"; "song.mid"]%string) (str "x") = [10; 10; 10] /\
  run_stdout open_world d (argv ["export"; "none.mid"]%string) (str "open none.mid: no such file or directory") = [10] ++ str "   *** ERROR: open none.mid: no such file or directory" ++ [10; 10] /\
  run_stderr open_world d (argv ["export"; "none.mid"]%string) = [] /\
  r_ending (run open_world d (argv ["click"; "bare.mid"]%string)) = Crashed /\ run_stdout open_world d (argv ["click"; "bare.mid"]%string) (str "x") = [] /\
  r_ending (run open_world d (argv ["tsv"; "--nosuch"; "song.mid"]%string)) = Exit 2 /\ run_stdout open_world d (argv ["tsv"; "--nosuch"; "song.mid"]%string) (str "x") = [] /\
  exists vs, asked (str "tsv") (argv ["--out=t.tsv"; "song.mid"]%string) vs (str "song.mid") /\ string_setting (str "out") vs (str "t.tsv").
Proof.
  cbv zeta. split; [|split].
  - intros i b H. unfold disk in H. destruct (find _ _) as [x|] eqn:F; [|discriminate]. apply find_some in F as [F _]. apply (f_equal (fun o => match o with Some y => y | None => [] end)) in H.
    cbv beta iota in H. subst b. destruct F as [<-|[<-|[]]]; cbn [snd]; repeat constructor; lia.
  - intros (x & y & [-> | ->] & H); cbn [argv map In app] in H; repeat (destruct H as [H|H]; [vm_compute in H; discriminate|]); exact H.
  - repeat (split; [vm_compute; reflexivity|]). exists [(str "out", VString (str "t.tsv"))]. split; [|left; reflexivity].
    exists (common ++ [(str "out", KString); (str "delimiter", KString); (str "tabular", KBool)]), [str "song.mid"]. split; [cbn; auto 12|]. split; [|reflexivity].
    apply (op_equals _ (str "--") (str "out") KString (str "t.tsv") (VString (str "t.tsv"))); [right; reflexivity|cbn; auto 12|constructor|]. apply op_rest. right. vm_compute. discriminate.
Qed.
