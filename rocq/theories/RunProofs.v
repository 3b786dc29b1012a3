(** * RunProofs: from the command line to the files (C86). *)
From Verif Require Import Base Strings Tables Event Track File Validate Flags Paths Cli SpecCli SpecRun FlagProofs CliProofs CliTripProofs.

(** ** Settings *)

Lemma string_setting_flag : forall n vs s, string_setting n vs s -> string_flag n vs = s.
Proof.
  intros n vs s H. unfold string_setting in H. rewrite lasting_last in H. unfold string_flag. destruct (last_value n vs) as [v|].
  - destruct H as [H|[H _]]; [injection H as ->; reflexivity|discriminate].
  - destruct H as [H|[_ ->]]; [discriminate|reflexivity].
Qed.
Lemma int_setting_flag : forall n vs k, int_setting n vs k -> int_flag n vs = k.
Proof.
  intros n vs s H. unfold int_setting in H. rewrite lasting_last in H. unfold int_flag. destruct (last_value n vs) as [v|].
  - destruct H as [H|[H _]]; [injection H as ->; reflexivity|discriminate].
  - destruct H as [H|[_ ->]]; [discriminate|reflexivity].
Qed.
Lemma bool_setting_flag : forall n vs b, bool_setting n vs b -> bool_flag n vs = b.
Proof.
  intros n vs s H. unfold bool_setting in H. rewrite lasting_last in H. unfold bool_flag. destruct (last_value n vs) as [v|].
  - destruct H as [H|[H _]]; [injection H as ->; reflexivity|discriminate].
  - destruct H as [H|[_ ->]]; [discriminate|reflexivity].
Qed.

(** The kind of a value *)
Definition kind_of (v : value) : kind := match v with VBool _ => KBool | VString _ => KString | VInt _ => KInt end.

Lemma options_kinds : forall formal args vs rest, options formal args vs rest -> Forall (fun x => In (fst x, kind_of (snd x)) formal) vs.
Proof.
  intros formal args vs rest H. induction H as [|a r P|r|x n r vs rest X I O IH|x n k s v r vs rest X I E O IH|x n k s v r vs rest X I K E O IH]; try constructor; auto; cbn [fst snd];
    inversion E; subst; assumption.
Qed.

Lemma nodup_kind : forall (formal : list (bytes * kind)) n k k', NoDup (map fst formal) -> In (n, k) formal -> In (n, k') formal -> k = k'.
Proof.
  induction formal as [|[m x] formal IH]; intros n k k' D I I'; [destruct I|]. inversion D as [|? ? N D']; subst. cbn [fst map] in *.
  destruct I as [E|I], I' as [E'|I'].
  - congruence.
  - exfalso. apply N. injection E as -> ->. exact (in_map fst _ _ I').
  - exfalso. apply N. injection E' as -> ->. exact (in_map fst _ _ I).
  - exact (IH n k k' D' I I').
Qed.

Theorem settings_exist : forall n formal args vs rest opt, In (n, formal) documented -> options formal args vs rest ->
  (In (opt, KString) formal -> exists s, string_setting opt vs s) /\ (In (opt, KInt) formal -> exists k, int_setting opt vs k) /\
  (In (opt, KBool) formal -> exists b, bool_setting opt vs b).
Proof.
  intros n formal args vs rest opt Id O. destruct (documented_flagset n formal Id) as (c & _ & E). pose proof (proj2 (flagset_good c)) as D. rewrite E in D. clear E c Id n.
  pose proof (options_kinds _ _ _ _ O) as K. rewrite Forall_forall in K. unfold string_setting, int_setting, bool_setting. rewrite lasting_last.
  destruct (last_value opt vs) as [v|] eqn:L.
  - pose proof (K _ (last_in _ _ _ L)) as Kv. cbn [fst snd] in Kv.
    split; [|split]; intro I; pose proof (nodup_kind _ _ _ _ D I Kv) as E; destruct v; try discriminate; eexists; left; reflexivity.
  - split; [|split]; intro I; eexists; right; split; reflexivity.
Qed.

(** ** Runs *)

(** A command by its name *)
Lemma asked_run : forall w d n c args vs file, asked n args vs file -> In (n, c) cli ->
  exists rest, hd [] rest = file /\ run w d (n :: args) = execute w d c vs rest.
Proof.
  intros w d n c args vs file (formal & rest & Id & O & H) Ic. exists rest. split; [exact H|].
  destruct (documented_flagset n formal Id) as (c' & Ic' & <-).
  assert (c' = c) as ->.
  { pose proof (choose_named n c [] Ic) as E1. pose proof (choose_named n c' [] Ic') as E2. rewrite E1 in E2. injection E2 as ->. reflexivity. }
  exact (run_options w d n c args vs rest Ic O).
Qed.

Lemma in_file_put : forall w d out text, w_creatable w out = true -> in_file w d out text (ends (Exit 0) (put w d out text)).
Proof.
  intros w d out text C. unfold in_file. rewrite C. cbn [r_ending r_stdout r_files ends]. split; [reflexivity|]. split; [reflexivity|]. split; [apply put_same|].
  intros i N. unfold put. destruct (Z.eqb_spec i (w_file w out)); [contradiction|reflexivity].
Qed.
Lemma in_file_not : forall w d out text, w_creatable w out = false -> in_file w d out text (ends (Exit 1) d).
Proof. intros w d out text C. unfold in_file, untouched. rewrite C. cbn. auto. Qed.

Lemma created_delivered : forall w d out text partial, delivered w d out text (created w d out (Ok text) partial).
Proof.
  intros w d out text partial. unfold delivered, created. destruct out as [|c out]; [cbn; auto|]. cbn [bytes_eqb].
  destruct (w_creatable w (c :: out)) eqn:C; [apply in_file_put|apply in_file_not]; exact C.
Qed.
Lemma feeds_delivered : forall w d out partial, delivered_beside w d out [] [10; 10; 10] (with_feeds (created w d out (Ok []) partial)).
Proof.
  intros w d out partial. unfold delivered_beside, created. destruct out as [|c out]; [cbn; auto|]. cbn [bytes_eqb].
  destruct (w_creatable w (c :: out)) eqn:C.
  - cbn. split; [reflexivity|]. split; [reflexivity|]. split; [apply put_same|]. intros i N. unfold put. destruct (i =? w_file w (c :: out)) eqn:E; [|reflexivity]. apply Z.eqb_eq in E. contradiction.
  - cbn. unfold untouched. auto.
Qed.
Lemma written_saved : forall w d out text, saved w d out text (written w d out (Ok text)).
Proof.
  intros w d out text. unfold saved, written. destruct out as [|c out]; [cbn; unfold untouched; auto|]. cbn [bytes_eqb].
  destruct (w_creatable w (c :: out)) eqn:C; [apply in_file_put|apply in_file_not]; exact C.
Qed.

Lemma loaded_holds : forall w d env file k r s, holds w d file r -> decode env r = Ok s -> f_tracks s <> [] -> loaded w d env file k = k s.
Proof. intros w d env file k r s [N R]. apply loaded_ok; assumption. Qed.
