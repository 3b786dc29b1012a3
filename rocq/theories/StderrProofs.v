(** * StderrProofs: what a run writes to stderr (C105). *)
From Coq Require Import Permutation.
From Verif Require Import Base Strings Tables Event Track File Validate SpecTranspose ValidateProofs ValidateText SpecHistory Notes SpecNotes NotesProofs NotesTimeProofs Log NotesLog SpecNotesLog
  NotesLogProofs Flags Cli SpecCli SpecRun FlagProofs CliProofs RunProofs RunCommandProofs SpecValidate SpecValidateText ValidateTextProofs Stderr SpecStderr.

Lemma asked_stderr : forall w d n c args vs file, asked n args vs file -> In (n, c) cli -> exists rest, hd [] rest = file /\ run_stderr w d (n :: args) = execute_stderr w d c vs rest.
Proof.
  intros w d n c args vs file (formal & rest & Id & O & H) Ic. exists rest. split; [exact H|].
  destruct (documented_flagset n formal Id) as (c' & Ic' & <-).
  assert (c' = c) as ->.
  { pose proof (choose_named n c [] Ic) as E1. pose proof (choose_named n c' [] Ic') as E2. rewrite E1 in E2. injection E2 as ->. reflexivity. }
  unfold run_stderr. rewrite (choose_named n c args Ic), (options_parsed _ _ _ _ (flagset_good c) O). reflexivity.
Qed.

Lemma plain_stderr : forall w d n args vs file c4, asked n args vs file -> In n plain_commands -> bool_setting (str "C4") vs c4 ->
  run_stderr w d (n :: args) = loaded_stderr w d (Env c4 manufacturers) file (fun _ => []).
Proof.
  intros w d n args vs file c4 A I S4. apply bool_setting_flag in S4. unfold plain_commands in I. cbn [map In] in I.
  assert (X : exists c, In (n, c) cli /\ (c = Disassemble_ \/ c = Click_ \/ c = Export_ \/ c = Transpose_ \/ c = Tsv_ \/ c = Humanise_)).
  { repeat match goal with H : _ \/ _ |- _ => destruct H end; try contradiction; subst n; eexists; (split; [|]); cbn; auto 20. }
  destruct X as (c & Ic & K). destruct (asked_stderr w d n c args vs file A Ic) as (rest & E & R). rewrite R. unfold execute_stderr. rewrite E, S4.
  repeat match goal with H : _ \/ _ |- _ => destruct H end; try contradiction; subst c; reflexivity.
Qed.

Lemma loaded_text : forall w d env file k r s, holds w d file r -> decode env r = Ok s -> f_tracks s <> [] ->
  exists report, validation_warning s = Ok report /\ loaded_stderr w d env file k = report ++ k s.
Proof.
  intros w d env file k r s (N & R) D T. destruct (decoded_validates env r s D) as (h & Hh & [(_ & _ & P)|(_ & errs & E)]).
  - exfalso. unfold validate in P. rewrite Hh in P. unfold validate_format1 in P. destruct (f_tracks s); [contradiction|]. destruct (h_format h =? 1); discriminate.
  - exists (validation_report errs). unfold validation_warning, loaded_stderr, read_file. rewrite E, bytes_eqb_false, R, D, E by exact N. split; reflexivity.
Qed.

Theorem stderr_report : forall w d n args vs file c4 r s h, asked n args vs file -> In n plain_commands -> bool_setting (str "C4") vs c4 ->
  holds w d file r -> decode (Env c4 manufacturers) r = Ok s -> f_tracks s <> [] -> f_mthd s = Some h ->
  reports_file h (f_tracks s) (run_stderr w d (n :: args)) /\ (run_stderr w d (n :: args) = [] <-> valid_file s).
Proof.
  intros w d n args vs file c4 r s h A I S4 H D T Hh. rewrite (plain_stderr w d n args vs file c4 A I S4).
  destruct (loaded_text w d _ file (fun _ => []) r s H D T) as (report & V & ->). rewrite app_nil_r. split; [eapply report_file; eassumption|].
  rewrite <- report_silent, V. split; [intros ->; reflexivity|apply Ok_inj].
Qed.

Theorem stderr_notes : forall w d args vs file c4 out steps verbose r s h, asked (str "notes") args vs file -> bool_setting (str "C4") vs c4 -> string_setting (str "out") vs out ->
  int_setting (str "transpose") vs steps -> reasonable steps -> bool_setting (str "debug") vs false -> bool_setting (str "verbose") vs verbose -> (forall l, Permutation l (w_order w l)) ->
  let env := Env c4 manufacturers in
  holds w d file r -> is_bytes r -> decode env r = Ok s -> f_tracks s <> [] -> f_mthd s = Some h -> h_ppqn h <> 0 ->
  out = [] \/ w_creatable w out = true ->
  exists report texts, run_stderr w d (str "notes" :: args) = report ++ concat (map (fun x => fst x ++ snd x) texts) /\
    reports_file h (f_tracks s) report /\ Forall2 (track_warnings s) (tl (f_tracks s)) texts.
Proof.
  intros w d args vs file c4 out steps verbose r s h A S4 So Ss Rs Sd Sv Ho env H B D T Hh P C.
  destruct (asked_stderr w d (str "notes") Notes_ args vs file A) as (rest & E & R); [cbn; auto 10|]. rewrite R. unfold execute_stderr.
  rewrite E, (bool_setting_flag _ _ _ S4), (bool_setting_flag _ _ _ Sd), (bool_setting_flag _ _ _ Sv), (string_setting_flag _ _ _ So). fold env.
  destruct (loaded_text w d env file (fun s0 => if bytes_eqb out [] || w_creatable w out then notes_stderr (log_setting false verbose) (extract_log (w_order w) s0) else []) r s H D T) as (report & V & ->).
  assert (X : exists notes, extract env steps (w_order w) s = Ok notes).
  { pose proof (extract_outcome env steps (w_order w) r s h Ho Rs B D Hh) as X. destruct (f_tracks s) as [|t0 [|t1 ts]]; [congruence|eauto|].
    replace (h_ppqn h =? 0) with false in X by lia. exact X. }
  destruct X as (notes & X).
  replace (bytes_eqb out [] || w_creatable w out) with true by (destruct C as [-> |C]; [reflexivity|rewrite C, orb_true_r; reflexivity]).
  destruct (file_complaints env steps (w_order w) (log_setting false verbose) r s notes (match verbose with true => or_intror eq_refl | false => or_introl eq_refl end) Ho B D X) as (texts & Et & F).
  exists report, texts. split; [rewrite Et; reflexivity|]. split; [eapply report_file; eassumption|exact F].
Qed.

Theorem stderr_uncreated : forall w d args vs file c4 out r s h, asked (str "notes") args vs file -> bool_setting (str "C4") vs c4 -> string_setting (str "out") vs out ->
  holds w d file r -> decode (Env c4 manufacturers) r = Ok s -> f_tracks s <> [] -> f_mthd s = Some h -> out <> [] -> w_creatable w out = false ->
  reports_file h (f_tracks s) (run_stderr w d (str "notes" :: args)).
Proof.
  intros w d args vs file c4 out r s h A S4 So H D T Hh N C.
  destruct (asked_stderr w d (str "notes") Notes_ args vs file A) as (rest & E & R); [cbn; auto 10|]. rewrite R. unfold execute_stderr.
  rewrite E, (bool_setting_flag _ _ _ S4), (string_setting_flag _ _ _ So), C, bytes_eqb_false by exact N. cbn [orb].
  destruct (loaded_text w d (Env c4 manufacturers) file (fun _ => []) r s H D T) as (report & V & ->). rewrite app_nil_r. eapply report_file; eassumption.
Qed.

Theorem stderr_nothing : forall w d n args vs file, asked n args vs file ->
  In n (map str ["assemble"; "help"; "version"]%string) \/ file = [] \/ d (w_file w file) = None \/
  (exists c4 r, bool_setting (str "C4") vs c4 /\ holds w d file r /\ forall s, decode (Env c4 manufacturers) r <> Ok s) ->
  run_stderr w d (n :: args) = [].
Proof.
  intros w d n args vs file A M. assert (Hc : exists c, In (n, c) cli).
  { destruct A as (formal & rest & Id & _). destruct (documented_flagset n formal Id) as (c & Ic & _). eauto. }
  destruct Hc as (c & Ic). destruct (asked_stderr w d n c args vs file A Ic) as (rest & E & R). rewrite R. unfold execute_stderr. rewrite E.
  assert (U : forall a b (x : command), In (a, b) cli -> In (a, x) cli -> b = x).
  { intros a b x I1 I2. pose proof (choose_named a b [] I1) as E1. pose proof (choose_named a x [] I2) as E2. rewrite E1 in E2. injection E2 as ->. reflexivity. }
  destruct M as [M|M].
  - cbn [map In] in M. destruct M as [<-|[<-|[<-|[]]]].
    + rewrite (U _ _ Assemble_ Ic) by (cbn; auto 10). reflexivity.
    + rewrite (U _ _ Help_ Ic) by (cbn; auto 12). reflexivity.
    + rewrite (U _ _ Version_ Ic) by (cbn; auto 12). reflexivity.
  - assert (L : forall k, loaded_stderr w d (Env (bool_flag (str "C4") vs) manufacturers) file k = []).
    { intro k. unfold loaded_stderr, read_file. destruct M as [-> |[M|(c4 & r & S4 & (N & Hr) & Z)]].
      - reflexivity.
      - destruct (bytes_eqb file []); [reflexivity|]. rewrite M. reflexivity.
      - rewrite bytes_eqb_false by exact N. rewrite Hr, (bool_setting_flag _ _ _ S4). destruct (decode _ r) eqn:Q; try reflexivity. exfalso. exact (Z _ eq_refl). }
    destruct c; try reflexivity; apply L.
Qed.
