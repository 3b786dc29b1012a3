(** * From the command line to stderr: C105.  Theorems only; proofs in StderrProofs.v. *)
From Coq Require Import Permutation.
From Verif Require Import Base Strings Tables Event Track File SpecTranspose SpecHistory Notes SpecNotes Log NotesLog SpecNotesLog Flags Cli SpecCli SpecRun SpecValidate ValidateText SpecValidateText
  Stderr SpecStderr StderrProofs Samples NotesLogSamples CliSamples RunSamples.

(** C105: a command that reads a file writes the report of C104 to stderr, whatever its options; nothing exactly if the file is valid. *)
Theorem C105_report : forall w d n args vs file c4 r s h, asked n args vs file -> In n plain_commands -> bool_setting (str "C4") vs c4 ->
  holds w d file r -> decode (Env c4 manufacturers) r = Ok s -> f_tracks s <> [] -> f_mthd s = Some h ->
  reports_file h (f_tracks s) (run_stderr w d (n :: args)) /\ (run_stderr w d (n :: args) = [] <-> valid_file s).
Proof. exact stderr_report. Qed.
Print Assumptions C105_report.

(** C105: notes writes the report, then for each track after the first one the lines of C101. *)
Theorem C105_notes : forall w d args vs file c4 out steps verbose r s h, asked (str "notes") args vs file -> bool_setting (str "C4") vs c4 -> string_setting (str "out") vs out ->
  int_setting (str "transpose") vs steps -> reasonable steps -> bool_setting (str "debug") vs false -> bool_setting (str "verbose") vs verbose -> (forall l, Permutation l (w_order w l)) ->
  let env := Env c4 manufacturers in
  holds w d file r -> is_bytes r -> decode env r = Ok s -> f_tracks s <> [] -> f_mthd s = Some h -> h_ppqn h <> 0 ->
  out = [] \/ w_creatable w out = true ->
  exists report texts, run_stderr w d (str "notes" :: args) = report ++ concat (map (fun x => fst x ++ snd x) texts) /\
    reports_file h (f_tracks s) report /\ Forall2 (track_warnings s) (tl (f_tracks s)) texts.
Proof. exact stderr_notes. Qed.
Print Assumptions C105_notes.

(** C105: if the output file of notes cannot be created, only the report. *)
Theorem C105_uncreated : forall w d args vs file c4 out r s h, asked (str "notes") args vs file -> bool_setting (str "C4") vs c4 -> string_setting (str "out") vs out ->
  holds w d file r -> decode (Env c4 manufacturers) r = Ok s -> f_tracks s <> [] -> f_mthd s = Some h -> out <> [] -> w_creatable w out = false ->
  reports_file h (f_tracks s) (run_stderr w d (str "notes" :: args)).
Proof. exact stderr_uncreated. Qed.
Print Assumptions C105_uncreated.

(** C105: assemble, help, version and commands without a file that can be decoded write nothing. *)
Theorem C105_nothing : forall w d n args vs file, asked n args vs file ->
  In n (map str ["assemble"; "help"; "version"]%string) \/ file = [] \/ d (w_file w file) = None \/
  (exists c4 r, bool_setting (str "C4") vs c4 /\ holds w d file r /\ forall s, decode (Env c4 manufacturers) r <> Ok s) ->
  run_stderr w d (n :: args) = [].
Proof. exact stderr_nothing. Qed.
Print Assumptions C105_nothing.

(** A file with a fault and unpaired notes; its report and the lines about its notes. *)
Definition odd_report : bytes :=
  [10] ++ str "WARNING: there are validation errors:" ++ [10] ++ str "         ** Track 1: EndOfTrack @6 (EndOfTrack) is not last event" ++ [10; 10].

Example C105_example : let d := disk [("song.mid"%string, odd_notes)] in exists s h vs1 vs2,
  asked (str "tsv") (argv ["--delimiter=;"; "--out=t.tsv"; "song.mid"]%string) vs1 (str "song.mid") /\ bool_setting (str "C4") vs1 false /\
  asked (str "notes") (argv ["--verbose"; "--transpose"; "-0x0c"; "song.mid"]%string) vs2 (str "song.mid") /\
  int_setting (str "transpose") vs2 (-12) /\ bool_setting (str "debug") vs2 false /\ bool_setting (str "verbose") vs2 true /\ string_setting (str "out") vs2 [] /\
  holds template_world d (str "song.mid") odd_notes /\ decode (Env false manufacturers) odd_notes = Ok s /\ f_tracks s <> [] /\ f_mthd s = Some h /\ h_ppqn h = 480 /\
  run_stderr template_world d (argv ["tsv"; "--delimiter=;"; "--out=t.tsv"; "song.mid"]%string) = odd_report /\
  run_stderr template_world d (argv ["notes"; "--verbose"; "--transpose"; "-0x0c"; "song.mid"]%string) = odd_report ++ odd_text.
Proof.
  cbv zeta. destruct (decode (Env false manufacturers) odd_notes) as [s| | | |] eqn:D; try (vm_compute in D; discriminate).
  destruct (f_mthd s) as [h|] eqn:H; [|vm_compute in D; apply Ok_inj in D; subst s; discriminate].
  exists s, h, [(str "delimiter", VString (str ";")); (str "out", VString (str "t.tsv"))], [(str "verbose", VBool true); (str "transpose", VInt (-12))].
  split; [line [(str "delimiter", VString (str ";")); (str "out", VString (str "t.tsv"))] Tsv_|]. split; [right; split; reflexivity|].
  split; [line [(str "verbose", VBool true); (str "transpose", VInt (-12))] Notes_|]. split; [left; reflexivity|]. split; [right; split; reflexivity|]. split; [left; reflexivity|].
  split; [right; split; reflexivity|]. split; [split; [discriminate|vm_compute; reflexivity]|]. split; [reflexivity|].
  split; [vm_compute in D; apply Ok_inj in D; subst s; discriminate|]. split; [exact H|]. split; [vm_compute in D; apply Ok_inj in D; subst s; cbn in H; injection H as <-; reflexivity|].
  split; vm_compute; reflexivity.
Qed.

Example C105_example_nothing : exists vs1 vs2, asked (str "assemble") (argv ["--out"; "b.mid"; "a.json"]%string) vs1 (str "a.json") /\
  asked (str "export") (argv ["gone.mid"]%string) vs2 (str "gone.mid") /\ disk [("song.mid"%string, odd_notes)] (w_file template_world (str "gone.mid")) = None.
Proof.
  exists [(str "out", VString (str "b.mid"))], []. split; [line [(str "out", VString (str "b.mid"))] Assemble_|]. split; [line (@nil (bytes * value)) Export_|]. vm_compute. reflexivity.
Qed.
