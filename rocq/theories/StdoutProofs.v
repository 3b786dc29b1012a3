(** * Proofs about Stdout.v *)
From Verif Require Import Base Strings Tables Event Track File Validate Transpose Notes Disassemble DisassembleProofs Tsv Flags Cli SpecCli CliProofs SpecRun RunProofs RunCommandProofs Stdout SpecStdout.

Lemma written_quiet : forall w d out op, r_stdout (written w d out op) = [].
Proof. intros w d out op. unfold written. destruct op; try reflexivity. destruct (bytes_eqb out []); [reflexivity|]. destruct (w_creatable w out); reflexivity. Qed.

Lemma created_quiet : forall w d out op, r_ending (created w d out op []) <> Exit 0 -> r_stdout (created w d out op []) = [].
Proof.
  intros w d out op. unfold created. destruct (bytes_eqb out []); [destruct op; cbn; congruence|]. destruct (w_creatable w out); reflexivity.
Qed.
Lemma created_ok_quiet : forall w d out text partial, r_ending (created w d out (Ok text) partial) <> Exit 0 -> r_stdout (created w d out (Ok text) partial) = [].
Proof. intros w d out text partial. unfold created. destruct (bytes_eqb out []); [cbn; congruence|]. destruct (w_creatable w out); reflexivity. Qed.
Lemma created_named : forall w d out op partial, out <> [] -> r_stdout (created w d out op partial) = [].
Proof. intros w d out op partial N. unfold created. destruct out as [|c out]; [congruence|]. cbn [bytes_eqb]. destruct (w_creatable w (c :: out)); reflexivity. Qed.

Lemma feeds_quiet : forall r, (r_ending r <> Exit 0 -> r_stdout r = []) -> r_ending (with_feeds r) <> Exit 0 -> r_stdout (with_feeds r) = [].
Proof.
  intros [[c| |] o f] H; unfold with_feeds; cbn [r_ending r_stdout] in *; auto. destruct (c =? 0) eqn:E; cbn [r_ending r_stdout]; [|exact H]. intro N. destruct N. f_equal. lia.
Qed.

Lemma loaded_quiet : forall w d env file k, byte_files d ->
  (forall s b, is_bytes b -> decode env b = Ok s -> r_ending (k s) <> Exit 0 -> r_stdout (k s) = []) -> r_ending (loaded w d env file k) <> Exit 0 -> r_stdout (loaded w d env file k) = [].
Proof.
  intros w d env file k B K. unfold loaded. destruct (read_file w d file) as [b|] eqn:R; [|reflexivity]. destruct (decode env b) as [s| | | |] eqn:D; try reflexivity.
  destruct (validate s); try reflexivity. apply (K s b); [|exact D]. unfold read_file in R. destruct (bytes_eqb file []); [discriminate|]. eapply B. exact R.
Qed.
Lemma loaded_named : forall w d env file k, (forall s, r_stdout (k s) = []) -> r_stdout (loaded w d env file k) = [].
Proof.
  intros w d env file k K. unfold loaded. destruct (read_file w d file) as [b|]; [|reflexivity]. destruct (decode env b) as [s| | | |]; try reflexivity.
  destruct (validate s); try reflexivity. apply K.
Qed.

Lemma tracks_quiet : forall ts w d t dir base, r_stdout (split_tracks w d t dir base ts) = [].
Proof.
  induction ts as [|t0 r IH]; intros w d t dir base; cbn [split_tracks]; [reflexivity|]. destruct (w_creatable w _); [|reflexivity].
  destruct (t_mtrk t t0); try apply IH; reflexivity.
Qed.
Lemma separate_quiet : forall w d ts s out file, r_stdout (separate w d ts s out file) = [].
Proof.
  intros w d ts s out file. unfold separate. destruct (_ && _); [reflexivity|]. destruct (w_creatable w _); [|reflexivity]. destruct (t_mthd ts (f_mthd s)); try apply tracks_quiet; reflexivity.
Qed.

Theorem failing_quiet : forall w d args, byte_files d -> ~ asks_templates args -> r_ending (run w d args) <> Exit 0 -> r_stdout (run w d args) = [].
Proof.
  intros w d args B NT. unfold run. destruct (choose args) as [c r] eqn:C. destruct (parse_flags (flagset c) r) as [vs rest|q] eqn:P; [|reflexivity].
  unfold execute. destruct c; cbn [r_ending]; try congruence.
  - unfold run_disassemble. apply loaded_quiet; [exact B|]. intros s b Bb D. cbv zeta. destruct (bytes_eqb (string_flag (str "templates") vs) []) eqn:T.
    + destruct (bool_flag (str "split") vs); [intros _; apply separate_quiet|]. cbn [standard_templates t_document].
      destruct (decoded_disassembles _ b s Bb D) as (text & E). rewrite E. apply created_ok_quiet.
    + exfalso. apply NT. assert (N : string_flag (str "templates") vs <> []) by (intro E; rewrite E in T; discriminate).
      unfold string_flag in N. destruct (last_value (str "templates") vs) as [[|s0|]|] eqn:L; try congruence. apply last_in in L.
      destruct (value_named (flagset Disassemble_) (length r) r vs rest (le_n _) P _ _ L) as [(x & y & Dx & A) _]. exists x, y. split; [exact Dx|].
      apply choose_args in C as [<-|(n & ->)]; [exact A|right; exact A].
  - intros _. unfold run_assemble. destruct (read_file w d (hd [] rest)); [|reflexivity]. apply written_quiet.
  - apply loaded_quiet; [exact B|]. intros s b _ _. apply created_quiet.
  - apply loaded_quiet; [exact B|]. intros s b _ _. apply feeds_quiet, created_quiet.
  - apply loaded_quiet; [exact B|]. intros s b _ _. apply created_quiet.
  - apply loaded_quiet; [exact B|]. intros s b _ _ _. apply written_quiet.
  - apply loaded_quiet; [exact B|]. intros s b _ _. destruct (tsv_export s); cbn [ends r_stdout]; try reflexivity. destruct (bytes_eqb _ []); [cbn; congruence|apply created_quiet].
  - apply loaded_quiet; [exact B|]. intros s b _ _ _. reflexivity.
Qed.

Theorem apart : forall w d args m, byte_files d -> ~ asks_templates args ->
  (r_ending (run w d args) = Exit 0 /\ run_stdout w d args m = r_stdout (run w d args)) \/
  (r_ending (run w d args) = Exit 1 /\ reports_error m (run_stdout w d args m)) \/
  (r_ending (run w d args) <> Exit 0 /\ r_ending (run w d args) <> Exit 1 /\ run_stdout w d args m = []).
Proof.
  intros w d args m B NT. pose proof (failing_quiet w d args B NT) as Q. unfold run_stdout. cbv zeta. destruct (r_ending (run w d args)) as [c| |] eqn:E.
  - destruct (Z.eq_dec c 0) as [->|N0]; [left; split; [reflexivity|]; apply app_nil_r|]. right. rewrite Q by congruence. cbn [app].
    destruct (Z.eq_dec c 1) as [->|N1]; [left|right].
    + split; [reflexivity|]. cbn [Z.eqb]. change (1 =? 1) with true. cbv iota. exists [], (str "   *** ERROR: " ++ m), []. split; [|auto]. unfold error_report. cbn [app]. rewrite <- app_assoc. reflexivity.
    + replace (c =? 1) with false by lia. repeat split; congruence.
  - right. right. rewrite Q by discriminate. repeat split; discriminate.
  - right. right. rewrite Q by discriminate. repeat split; discriminate.
Qed.

Theorem named_quiet : forall w d n args vs file out, asked n args vs file -> In n writers -> string_setting (str "out") vs out -> out <> [] ->
  (n = str "disassemble" -> string_setting (str "templates") vs []) -> r_stdout (run w d (n :: args)) = [].
Proof.
  intros w d n args vs file out A I So N _.
  assert (G : forall c, In (n, c) cli -> exists rest, run w d (n :: args) = execute w d c vs rest /\ string_flag (str "out") vs = out).
  { intros c Ic. destruct (asked_run w d n c args vs file A Ic) as (rest & _ & R). exists rest. split; [exact R|]. apply string_setting_flag, So. }
  unfold writers in I. cbn [map In] in I. destruct I as [<-|[<-|[<-|[<-|[<-|[<-|[<-|[]]]]]]]].
  - destruct (G Disassemble_) as (rest & -> & Eo); [cbn; auto 12|]. unfold execute. rewrite Eo. apply loaded_named. intro s. cbv zeta.
    assert (K : forall ts, r_stdout (if bool_flag (str "split") vs then separate w d ts s out (if bytes_eqb out [] then hd [] rest else out) else created w d out (t_document ts s) (w_partial w)) = []).
    { intro ts. destruct (bool_flag (str "split") vs); [apply separate_quiet|apply created_named, N]. }
    destruct (bytes_eqb (string_flag (str "templates") vs) []); [apply K|]. destruct (read_file w d _) as [b|]; [|reflexivity]. destruct (w_templates w b); [apply K|reflexivity].
  - destruct (G Assemble_) as (rest & -> & Eo); [cbn; auto 12|]. unfold execute, run_assemble. destruct (read_file w d _); [apply written_quiet|reflexivity].
  - destruct (G Notes_) as (rest & -> & Eo); [cbn; auto 12|]. unfold execute. rewrite Eo. apply loaded_named. intro s. apply created_named, N.
  - destruct (G Export_) as (rest & -> & Eo); [cbn; auto 12|]. unfold execute. rewrite Eo. apply loaded_named. intro s. apply created_named, N.
  - destruct (G Transpose_) as (rest & -> & Eo); [cbn; auto 12|]. unfold execute. apply loaded_named. intro s. apply written_quiet.
  - destruct (G Tsv_) as (rest & -> & Eo); [cbn; auto 12|]. unfold execute. rewrite Eo. apply loaded_named. intro s. destruct (tsv_export s); try reflexivity.
    destruct out as [|c out]; [congruence|]. cbn [bytes_eqb]. apply created_named. discriminate.
  - destruct (G Humanise_) as (rest & -> & Eo); [cbn; auto 12|]. unfold execute. apply loaded_named. intro s. reflexivity.
Qed.
