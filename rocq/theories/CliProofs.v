(** * CliProofs: runs of the program. *)
From Verif Require Import Base Strings Tables Event Track File FileProofs Validate Transpose Notes NotesPrint Disassemble DisassembleProofs Tsv Csv TextAssemble Json JsonText
  Flags Paths Cli SpecCli FlagProofs FlagConverse.

Lemma flagset_good : forall c, good_names (flagset c).
Proof.
  intro c. split.
  - assert (A : forallb (fun x : bytes * kind => negb (bytes_eqb (fst x) []) && negb (hd 0 (fst x) =? 45) && negb (existsb (Z.eqb 61) (fst x))) (flagset c) = true) by (destruct c; vm_compute; reflexivity).
    rewrite forallb_forall in A. apply Forall_forall. intros x Hx. apply A in Hx. repeat rewrite andb_true_iff in Hx. destruct Hx as [[H1 H2] H3]. repeat split.
    + intros E. rewrite E in H1. discriminate.
    + intros E. rewrite E in H2. discriminate.
    + intros I. apply negb_true_iff in H3. assert (existsb (Z.eqb 61) (fst x) = true) by (apply existsb_exists; exists 61; auto). congruence.
  - destruct c; cbn [flagset app map fst]; repeat (constructor; [cbn [In]; intro H; repeat (destruct H as [H|H]; [vm_compute in H; discriminate|]); exact H|]); constructor.
Qed.

(** ** The command *)

Lemma choose_named : forall n c r, In (n, c) cli -> choose (n :: r) = (c, r).
Proof. intros n c r H. cbn [cli In] in H. repeat (destruct H as [H|H]; [apply pair_equal_spec in H as [<- <-]; reflexivity|]). destruct H. Qed.

Lemma choose_default : forall args, ~ In (hd [] args) command_names -> choose args = (Disassemble_, args).
Proof.
  intros args H. destruct args as [|a r]; [reflexivity|]. cbn [hd] in H. cbn [choose].
  replace (assocb a cli) with (@None command); [reflexivity|]. symmetry. cbn [cli assocb]. unfold command_names in H. cbn [map In] in H.
  repeat (rewrite bytes_eqb_false by (intro E; apply H; rewrite E; tauto)). reflexivity.
Qed.

Theorem default_command : forall w d args, ~ In (hd [] args) command_names -> run w d args = run w d (str "disassemble" :: args).
Proof. intros w d args H. unfold run. rewrite (choose_default args H), (choose_named (str "disassemble") Disassemble_ args (or_introl eq_refl)). reflexivity. Qed.

Lemma run_options : forall w d n c args vs rest, In (n, c) cli -> options (flagset c) args vs rest -> run w d (n :: args) = execute w d c vs rest.
Proof. intros w d n c args vs rest I O. unfold run. rewrite (choose_named n c args I), (options_parsed _ _ _ _ (flagset_good c) O). reflexivity. Qed.

Lemma execute_settings : forall w d c vs vs' rest rest', same_settings vs vs' -> hd [] rest = hd [] rest' -> execute w d c vs rest = execute w d c vs' rest'.
Proof.
  intros w d c vs vs' rest rest' S H. pose proof (settings_last _ _ S) as L.
  assert (B : forall n, bool_flag n vs = bool_flag n vs') by (intro n; unfold bool_flag; rewrite L; reflexivity).
  assert (T : forall n, string_flag n vs = string_flag n vs') by (intro n; unfold string_flag; rewrite L; reflexivity).
  assert (I : forall n, int_flag n vs = int_flag n vs') by (intro n; unfold int_flag; rewrite L; reflexivity).
  unfold execute. rewrite H, !B, !T, !I. reflexivity.
Qed.

Theorem same_run : forall w d n c args args' vs vs' rest rest', In (n, c) cli -> options (flagset c) args vs rest -> options (flagset c) args' vs' rest' ->
  same_settings vs vs' -> hd [] rest = hd [] rest' -> run w d (n :: args) = run w d (n :: args').
Proof.
  intros w d n c args args' vs vs' rest rest' I O O' S H. rewrite (run_options w d n c args vs rest I O), (run_options w d n c args' vs' rest' I O').
  apply execute_settings; assumption.
Qed.

Lemma documented_flagset : forall n formal, In (n, formal) documented -> exists c, In (n, c) cli /\ flagset c = formal.
Proof.
  intros n formal H. cbn [documented In] in H.
  repeat (destruct H as [H|H]; [apply pair_equal_spec in H as [<- <-]; eexists; split; [cbn [cli In]; repeat (first [left; reflexivity|right]); fail|reflexivity]|]). destruct H.
Qed.

Theorem same_command : forall w d n formal args args' vs vs' rest rest', In (n, formal) documented -> options formal args vs rest -> options formal args' vs' rest' ->
  same_settings vs vs' -> hd [] rest = hd [] rest' -> run w d (n :: args) = run w d (n :: args').
Proof. intros w d n formal args args' vs vs' rest rest' I O O' S H. destruct (documented_flagset n formal I) as (c & Ic & <-). eapply same_run; eassumption. Qed.

Theorem one_reading : forall n formal args vs vs' rest rest', In (n, formal) documented -> options formal args vs rest -> options formal args vs' rest' -> vs = vs' /\ rest = rest'.
Proof.
  intros n formal args vs vs' rest rest' I O O'. destruct (documented_flagset n formal I) as (c & _ & <-).
  apply (options_parsed _ _ _ _ (flagset_good c)) in O. apply (options_parsed _ _ _ _ (flagset_good c)) in O'. rewrite O in O'. injection O' as <- <-. auto.
Qed.

Theorem no_reading : forall w d n formal args, In (n, formal) documented -> ~ (exists vs rest, options formal args vs rest) ->
  run w d (n :: args) = Result (Exit 2) [] d \/ (asks_help args /\ run w d (n :: args) = Result (Exit 0) [] d).
Proof.
  intros w d n formal args I N. destruct (documented_flagset n formal I) as (c & Ic & <-). unfold run. rewrite (choose_named n c args Ic).
  pose proof (parsed_only (flagset c) args) as P. destruct (parse_flags (flagset c) args) as [vs rest|q]; [exfalso; apply N; eauto|].
  destruct P as [-> |[-> H]]; [left; reflexivity|right; split; [exact H|reflexivity]].
Qed.

Theorem unknown_flag : forall w d n formal args, In (n, formal) documented -> misspelt formal args -> run w d (n :: args) = Result (Exit 2) [] d.
Proof.
  intros w d n formal args I M. destruct (documented_flagset n formal I) as (c & Ic & <-). unfold run. rewrite (choose_named n c args Ic), (misspelt_refused _ _ (flagset_good c) M). reflexivity.
Qed.

(** ** From values back to the command line *)

Lemma cut_inv : forall s n v, cut_equals s = (n, v) -> s = n ++ match v with Some x => 61 :: x | None => [] end.
Proof.
  induction s as [|c s IH]; intros n v H; cbn [cut_equals] in H; [injection H as <- <-; reflexivity|].
  destruct (c =? 61) eqn:E; [injection H as <- <-; apply Z.eqb_eq in E; subst c; reflexivity|].
  destruct (cut_equals s) as [m u] eqn:C. injection H as <- <-. rewrite (IH m u eq_refl) at 1. reflexivity.
Qed.
Lemma name_value_inv : forall s n v, name_value s = (n, v) -> s = n ++ match v with Some x => 61 :: x | None => [] end.
Proof.
  intros [|c s] n v H; cbn [name_value] in H; [injection H as <- <-; reflexivity|]. destruct (cut_equals s) as [m u] eqn:C. injection H as <- <-.
  rewrite (cut_inv s m u C) at 1. reflexivity.
Qed.

Lemma set_string : forall k x p, set_value k x = Ok (VString p) -> x = p.
Proof.
  intros k x p H. destruct k; cbn [set_value] in H.
  - destruct (parse_bool x); discriminate.
  - congruence.
  - destruct (parse_int0 x); discriminate.
Qed.

Lemma in_args_cons : forall (a : bytes) args n p,
  (exists x, dashes x /\ (In (x ++ n ++ str "=" ++ p) args \/ exists b c, args = b ++ (x ++ n) :: p :: c)) ->
  exists x, dashes x /\ (In (x ++ n ++ str "=" ++ p) (a :: args) \/ exists b c, a :: args = b ++ (x ++ n) :: p :: c).
Proof.
  intros a args n p (x & D & [I|(b & c & ->)]); exists x; (split; [exact D|]); [left; right; exact I|right; exists (a :: b), c; reflexivity].
Qed.

Lemma value_named : forall formal k args vs rest, (length args <= k)%nat -> parse_flags formal args = Parsed vs rest -> forall n v, In (n, v) vs ->
  (exists x y, dashes x /\ In (x ++ n ++ y) args) /\
  (forall p, v = VString p -> exists x, dashes x /\ (In (x ++ n ++ str "=" ++ p) args \/ exists a b, args = a ++ (x ++ n) :: p :: b)).
Proof.
  intros formal. induction k as [|k IH]; intros args vs rest L H n v I; (destruct args as [|s r]; [injection H as <- <-; destruct I|]); [cbn [length] in L; lia|].
  cbn [length] in L.
  assert (Step : forall vs0, (parse_flags formal r = Parsed vs0 rest) -> In (n, v) vs0 ->
    (exists x y, dashes x /\ In (x ++ n ++ y) (s :: r)) /\
    (forall p, v = VString p -> exists x, dashes x /\ (In (x ++ n ++ str "=" ++ p) (s :: r) \/ exists a b, s :: r = a ++ (x ++ n) :: p :: b))).
  { intros vs0 E I0. destruct (IH r vs0 rest ltac:(lia) E n v I0) as [(x & y & D & A) B]. split; [exists x, y; split; [exact D|right; exact A]|].
    intros p P. apply in_args_cons. apply B. exact P. }
  destruct s as [|dash [|c s']]; [injection H as <- <-; destruct I|injection H as <- <-; destruct I|]. cbn [parse_flags] in H.
  destruct (Z.eqb_spec dash 45) as [-> |]; cbn [negb] in H; [|injection H as <- <-; destruct I].
  destruct ((c =? 45) && bytes_eqb s' []) eqn:Edd; [injection H as <- <-; destruct I|].
  set (name := if c =? 45 then s' else c :: s') in *.
  assert (Nm : exists x, dashes x /\ 45 :: c :: s' = x ++ name).
  { unfold name. destruct (Z.eqb_spec c 45) as [-> |]; [exists (str "--")|exists (str "-")]; (split; [|reflexivity]); [right|left]; reflexivity. }
  destruct (match name with [] => true | x :: _ => (x =? 45) || (x =? 61) end); [discriminate|].
  destruct (name_value name) as [m u] eqn:V. apply name_value_inv in V.
  destruct Nm as (x & D & Nm).
  assert (Here : forall kd t, set_value kd t = Ok v -> n = m ->
     (u = Some t \/ (u = None /\ (v <> VBool true -> exists r', r = t :: r'))) ->
    (exists x y, dashes x /\ In (x ++ n ++ y) ((45 :: c :: s') :: r)) /\
    (forall p, v = VString p -> exists x, dashes x /\ (In (x ++ n ++ str "=" ++ p) ((45 :: c :: s') :: r) \/ exists a b, (45 :: c :: s') :: r = a ++ (x ++ n) :: p :: b))).
  { intros kd t S -> U. split.
    - exists x, (match u with Some y => 61 :: y | None => [] end). split; [exact D|]. left. rewrite Nm, V at 1. reflexivity.
    - intros p ->. exists x. split; [exact D|]. apply set_string in S. subst t. destruct U as [-> |[-> R]].
      + left. left. rewrite Nm, V at 1. reflexivity.
      + right. destruct R as (r' & ->); [discriminate|]. exists [], r'. rewrite Nm, V at 1. cbn [app]. rewrite app_nil_r. reflexivity. }
  destruct (assocb m formal) as [[| |]|]; [| | |destruct (bytes_eqb m (str "help") || bytes_eqb m (str "h")); discriminate].
  - destruct (set_value KBool match u with Some y => y | None => str "true" end) as [z| | | |] eqn:S; try discriminate.
    destruct (parse_flags formal r) as [vs0 a|] eqn:E; [|discriminate]. injection H as <- <-. destruct I as [I|I]; [|apply (Step vs0 eq_refl I)].
    injection I as <- <-. destruct u as [y|]; [apply (Here KBool y); auto|]. apply (Here KBool (str "true")); auto. right. split; [reflexivity|].
    injection S as <-. congruence.
  - destruct u as [y|].
    + destruct (set_value KString y) as [z| | | |] eqn:S; try discriminate. destruct (parse_flags formal r) as [vs0 a|] eqn:E; [|discriminate]. injection H as <- <-.
      destruct I as [I|I]; [|apply (Step vs0 eq_refl I)]. injection I as <- <-. apply (Here KString y); auto.
    + destruct r as [|y r']; [discriminate|]. destruct (set_value KString y) as [z| | | |] eqn:S; try discriminate.
      destruct (parse_flags formal r') as [vs0 a|] eqn:E; [|discriminate]. injection H as <- <-. destruct I as [I|I].
      * injection I as <- <-. apply (Here KString y); auto. right. split; [reflexivity|]. intros _. exists r'. reflexivity.
      * cbn [length] in L. destruct (IH r' vs0 _ ltac:(lia) E n v I) as [(x0 & y0 & D0 & A) B]. split; [exists x0, y0; split; [exact D0|right; right; exact A]|].
        intros p P. apply in_args_cons, in_args_cons. apply B. exact P.
  - destruct u as [y|].
    + destruct (set_value KInt y) as [z| | | |] eqn:S; try discriminate. destruct (parse_flags formal r) as [vs0 a|] eqn:E; [|discriminate]. injection H as <- <-.
      destruct I as [I|I]; [|apply (Step vs0 eq_refl I)]. injection I as <- <-. apply (Here KInt y); auto.
    + destruct r as [|y r']; [discriminate|]. destruct (set_value KInt y) as [z| | | |] eqn:S; try discriminate.
      destruct (parse_flags formal r') as [vs0 a|] eqn:E; [|discriminate]. injection H as <- <-. destruct I as [I|I].
      * injection I as <- <-. apply (Here KInt y); auto. right. split; [reflexivity|]. intros _. exists r'. reflexivity.
      * cbn [length] in L. destruct (IH r' vs0 _ ltac:(lia) E n v I) as [(x0 & y0 & D0 & A) B]. split; [exists x0, y0; split; [exact D0|right; right; exact A]|].
        intros p P. apply in_args_cons, in_args_cons. apply B. exact P.
Qed.

Lemma last_in : forall n vs v, last_value n vs = Some v -> In (n, v) vs.
Proof.
  induction vs as [|[m x] vs IH]; intros v H; [discriminate|]. cbn [last_value] in H. destruct (last_value n vs) as [y|] eqn:E; [right; apply IH; congruence|].
  destruct (bytes_eqb n m) eqn:B; [|discriminate]. apply bytes_eqb_true in B. left. congruence.
Qed.

Lemma string_flag_named : forall c args vs rest n, parse_flags (flagset c) args = Parsed vs rest -> string_flag n vs <> [] ->
  exists x, dashes x /\ (In (x ++ n ++ str "=" ++ string_flag n vs) args \/ exists a b, args = a ++ (x ++ n) :: string_flag n vs :: b).
Proof.
  intros c args vs rest n H N. unfold string_flag in *. destruct (last_value n vs) as [[b|s|z]|] eqn:L; try congruence.
  apply last_in in L. destruct (value_named (flagset c) (length args) args vs rest (le_n _) H n _ L) as [_ B]. apply B. reflexivity.
Qed.

Lemma bool_flag_named : forall c args vs rest n, parse_flags (flagset c) args = Parsed vs rest -> bool_flag n vs = true -> exists x y, dashes x /\ In (x ++ n ++ y) args.
Proof.
  intros c args vs rest n H N. unfold bool_flag in *. destruct (last_value n vs) as [[b|s|z]|] eqn:L; try congruence.
  apply last_in in L. destruct (value_named (flagset c) (length args) args vs rest (le_n _) H n _ L) as [A _]. exact A.
Qed.

Lemma choose_args : forall args c r, choose args = (c, r) -> r = args \/ exists n, args = n :: r.
Proof.
  intros [|a args] c r H; cbn [choose] in H; [injection H as <- <-; auto|]. destruct (assocb a cli); injection H as <- <-; eauto.
Qed.

Lemma out_named : forall args c r vs rest, choose args = (c, r) -> parse_flags (flagset c) r = Parsed vs rest -> string_flag (str "out") vs <> [] ->
  names_output args (string_flag (str "out") vs).
Proof.
  intros args c r vs rest C P N. destruct (string_flag_named c r vs rest (str "out") P N) as (x & D & H). exists x. split; [exact D|].
  change (str "out=") with (str "out" ++ str "="). rewrite <- app_assoc. apply choose_args in C as [<-|(n & ->)]; [exact H|].
  destruct H as [H|(a & b & H)]; [left; right; exact H|right]. exists (n :: a), b. cbn [app]. congruence.
Qed.

Lemma split_named : forall args c r vs rest, choose args = (c, r) -> parse_flags (flagset c) r = Parsed vs rest -> bool_flag (str "split") vs = true -> asks_split args.
Proof.
  intros args c r vs rest C P N. destruct (bool_flag_named c r vs rest (str "split") P N) as (x & y & D & H). exists x, y. split; [exact D|].
  apply choose_args in C as [<-|(n & ->)]; [exact H|right; exact H].
Qed.

(** ** Names of files for tracks *)

Lemma parts_app : forall a b, parts (a ++ 47 :: b) = parts a ++ parts b.
Proof.
  induction a as [|c a IH]; intro b; [reflexivity|]. cbn [app parts]. rewrite IH. destruct (c =? 47); [reflexivity|].
  destruct (parts a) as [|x xs] eqn:E; [|reflexivity]. exfalso. destruct a as [|y a]; [discriminate|]. cbn [parts] in E. destruct (y =? 47); [discriminate|]. destruct (parts a); discriminate.
Qed.

Lemma parts_suffix : forall x suf, ~ In 47 suf -> exists init y, parts (x ++ suf) = init ++ [y ++ suf].
Proof.
  induction x as [|c x IH]; intros suf N.
  - exists [], []. cbn [app]. induction suf as [|c s IH]; [reflexivity|]. cbn [parts]. replace (c =? 47) with false by (symmetry; apply Z.eqb_neq; intros ->; apply N; left; reflexivity).
    rewrite IH; [reflexivity|]. intro I. apply N. right. exact I.
  - destruct (IH suf N) as (init & y & E). cbn [app parts]. rewrite E. destruct (c =? 47); [exists ([] :: init), y; reflexivity|].
    destruct init as [|z init]; cbn [app]; [exists [], (c :: y); reflexivity|exists ((c :: z) :: init), y; reflexivity].
Qed.

Lemma join_suffix : forall dir x suf, ~ In 47 suf -> (2 < length suf)%nat -> ends_with (path_join dir (x ++ suf)) suf.
Proof.
  intros dir x suf N L. unfold path_join, path_clean. destruct (parts_suffix x suf N) as (init & y & E). change (dir ++ [47] ++ x ++ suf) with (dir ++ 47 :: (x ++ suf)). rewrite parts_app, E.
  set (rooted := match dir ++ 47 :: x ++ suf with c :: _ => c =? 47 | [] => false end). rewrite app_assoc, fold_left_app. cbn [fold_left].
  generalize (fold_left (clean_step rooted) (parts dir ++ init) []). intro out.
  assert (S : clean_step rooted out (y ++ suf) = (y ++ suf) :: out).
  { unfold clean_step. assert (Len : (2 < length (y ++ suf))%nat) by (rewrite app_length; lia). rewrite !bytes_eqb_false; [reflexivity| | |]; intro H; rewrite H in Len; cbn in Len; lia. }
  rewrite S. cbn [rev].
  assert (G : exists q, concat (match rev out ++ [y ++ suf] with [] => [] | x0 :: r => x0 :: map (cons 47) r end) = q ++ suf).
  { destruct (rev out) as [|z zs]; cbn [app].
    - exists y. cbn [map concat]. apply app_nil_r.
    - rewrite map_app. cbn [map concat]. exists (z ++ concat (map (cons 47) zs) ++ 47 :: y). rewrite concat_app. cbn [concat]. rewrite app_nil_r, <- !app_assoc. reflexivity. }
  destruct G as (q & G). rewrite G. destruct rooted; [exists (47 :: q); reflexivity|]. destruct (q ++ suf) eqn:Eq; [|exists q; congruence].
  exfalso. apply app_eq_nil in Eq as [_ ->]. cbn in L. lia.
Qed.

(** ** What changes *)

Lemma put_changed : forall w d p bs i, put w d p bs i <> d i -> w_file w p = i.
Proof. intros w d p bs i H. unfold put in H. destruct (Z.eqb_spec i (w_file w p)); [auto|congruence]. Qed.

Lemma put_or_same : forall w d p bs i x, put w d p bs i <> x -> d i <> x \/ w_file w p = i.
Proof. intros w d p bs i x H. unfold put in H. destruct (Z.eqb_spec i (w_file w p)); auto. Qed.

Lemma put_same : forall w d p bs, put w d p bs (w_file w p) = Some bs.
Proof. intros. unfold put. rewrite Z.eqb_refl. reflexivity. Qed.

Lemma feeds_files : forall r, r_files (with_feeds r) = r_files r.
Proof. intros [[c| |] o f]; unfold with_feeds; cbn [r_ending r_files r_stdout]; [destruct (c =? 0)| |]; reflexivity. Qed.
Lemma feeds_ending : forall r, r_ending (with_feeds r) = r_ending r.
Proof. intros [[c| |] o f]; unfold with_feeds; cbn [r_ending r_files r_stdout]; [destruct (c =? 0)| |]; reflexivity. Qed.
Lemma created_files : forall w d out op partial, r_files (created w d out op partial) = d \/
  (out <> [] /\ exists bs, r_files (created w d out op partial) = put w d out bs).
Proof.
  intros w d out op partial. unfold created. destruct (bytes_eqb out []) eqn:E; [left; destruct op; reflexivity|].
  destruct (w_creatable w out); [|left; reflexivity]. right. split; [intros ->; discriminate|]. eexists. reflexivity.
Qed.
Lemma written_files : forall w d out op, r_files (written w d out op) = d \/ (out <> [] /\ exists bs, r_files (written w d out op) = put w d out bs).
Proof.
  intros w d out op. unfold written. destruct op; try (left; reflexivity). destruct (bytes_eqb out []) eqn:E; [left; reflexivity|].
  destruct (w_creatable w out); [|left; reflexivity]. right. split; [intros ->; discriminate|]. eexists. reflexivity.
Qed.
Lemma loaded_files : forall w d env file k (P : files -> Prop), P d -> (forall s, P (r_files (k s))) -> P (r_files (loaded w d env file k)).
Proof.
  intros w d env file k P D K. unfold loaded. destruct (read_file w d file) as [b|]; [|exact D]. destruct (decode env b); try exact D. destruct (validate a); try exact D. apply K.
Qed.

Lemma split_tracks_files : forall w ts dir base tracks d d0 i, r_files (split_tracks w d ts dir base tracks) i <> d0 i ->
  d i <> d0 i \/ exists p, w_file w p = i /\ track_file p.
Proof.
  intros w ts dir base. induction tracks as [|t tracks IH]; intros d d0 i H; cbn [split_tracks] in H; [left; exact H|].
  set (p := path_join dir (base ++ str "-" ++ dec (t_number t) ++ str ".MTrk")) in *.
  assert (T : track_file p). { right. unfold p. rewrite !app_assoc. apply join_suffix; [intro I; cbn in I; lia|cbn; lia]. }
  destruct (w_creatable w p); [|left; exact H].
  assert (G : forall bs, put w d p bs i <> d0 i -> d i <> d0 i \/ exists p, w_file w p = i /\ track_file p).
  { intros bs X. apply put_or_same in X as [X|X]; [left; exact X|right; exists p; auto]. }
  destruct (t_mtrk ts t); try (apply IH in H as [H|H]; [eapply G; exact H|right; exact H]); eapply G; exact H.
Qed.

Lemma separate_files : forall w d ts s out file i, r_files (separate w d ts s out file) i <> d i -> exists p, w_file w p = i /\ track_file p.
Proof.
  intros w d ts s out file i H. unfold separate in H. set (base := trim_suffix (path_base file) (path_ext file)) in *. set (dir := if bytes_eqb out [] then path_dir file else out) in *.
  destruct (negb (bytes_eqb out []) && negb (w_mkdir w dir)); [cbn in H; congruence|]. set (p := path_join dir (base ++ str ".MThd")) in *.
  assert (T : track_file p). { left. unfold p. apply join_suffix; [intro I; cbn in I; lia|cbn; lia]. }
  destruct (w_creatable w p); [|cbn in H; congruence].
  assert (G : forall bs, put w d p bs i <> d i -> exists p, w_file w p = i /\ track_file p) by (intros bs X; apply put_changed in X; exists p; auto).
  destruct (t_mthd ts (f_mthd s)); try (apply split_tracks_files in H as [H|H]; [eapply G; exact H|exact H]); eapply G; exact H.
Qed.

Theorem only_outputs : forall w d args i, r_files (run w d args) i <> d i ->
  exists p, w_file w p = i /\ (names_output args p \/ (asks_split args /\ track_file p)).
Proof.
  intros w d args i. unfold run. destruct (choose args) as [c r] eqn:C. destruct (parse_flags (flagset c) r) as [vs rest|q] eqn:P; [|cbn; congruence].
  set (out := string_flag (str "out") vs).
  assert (Out : forall f, f = d \/ (out <> [] /\ exists bs, f = put w d out bs) -> f i <> d i -> exists p, w_file w p = i /\ (names_output args p \/ (asks_split args /\ track_file p))).
  { intros f [-> |(N & bs & ->)] H; [congruence|]. exists out. split; [eapply put_changed; exact H|]. left. eapply out_named; eassumption. }
  unfold execute. fold out. destruct c; cbn [r_files ends]; try congruence.
  - unfold run_disassemble. apply loaded_files; [congruence|]. intro s. cbv zeta.
    assert (K : forall ts, r_files (if bool_flag (str "split") vs then separate w d ts s out (if bytes_eqb out [] then hd [] rest else out) else created w d out (t_document ts s) (w_partial w)) i <> d i ->
      exists p, w_file w p = i /\ (names_output args p \/ (asks_split args /\ track_file p))).
    { intro ts. destruct (bool_flag (str "split") vs) eqn:S.
      - intro H. apply separate_files in H as (p & E & T). exists p. split; [exact E|]. right. split; [eapply split_named; eassumption|exact T].
      - apply Out. apply created_files. }
    destruct (bytes_eqb (string_flag (str "templates") vs) []); [apply K|]. destruct (read_file w d (string_flag (str "templates") vs)); [|cbn; congruence].
    destruct (w_templates w l); [apply K|cbn; congruence].
  - unfold run_assemble. destruct (read_file w d (hd [] rest)); [|cbn; congruence]. apply Out. apply written_files.
  - unfold run_notes. apply loaded_files; [congruence|]. intro s. apply Out. apply created_files.
  - unfold run_click. apply loaded_files; [congruence|]. intro s. rewrite feeds_files. apply Out. apply created_files.
  - unfold run_export. apply loaded_files; [congruence|]. intro s. apply Out. apply created_files.
  - unfold run_transpose. apply loaded_files; [congruence|]. intro s. apply Out. apply written_files.
  - unfold run_tsv. apply loaded_files; [congruence|]. intro s. destruct (tsv_export s); cbn [r_files ends]; try congruence.
    destruct (bytes_eqb out []); [cbn; congruence|]. apply Out. apply created_files.
  - unfold run_humanise. apply loaded_files; [congruence|]. intro s. cbn. congruence.
Qed.

(** ** Failures *)

Lemma written_failed : forall w d out op, r_ending (written w d out op) <> Exit 0 -> r_files (written w d out op) = d.
Proof.
  intros w d out op. unfold written. destruct op; try reflexivity. destruct (bytes_eqb out []); [reflexivity|]. destruct (w_creatable w out); [cbn; congruence|reflexivity].
Qed.
Lemma created_failed : forall w d out bs partial, r_ending (created w d out (Ok bs) partial) <> Exit 0 -> r_files (created w d out (Ok bs) partial) = d.
Proof.
  intros w d out bs partial. unfold created. destruct (bytes_eqb out []); [reflexivity|]. destruct (w_creatable w out); [cbn; congruence|reflexivity].
Qed.
Lemma loaded_failed : forall w d env file k, byte_files d ->
  (forall s b, is_bytes b -> decode env b = Ok s -> r_ending (k s) <> Exit 0 -> r_files (k s) = d) -> r_ending (loaded w d env file k) <> Exit 0 -> r_files (loaded w d env file k) = d.
Proof.
  intros w d env file k B K. unfold loaded. destruct (read_file w d file) as [b|] eqn:R; [|reflexivity]. destruct (decode env b) as [s| | | |] eqn:D; try reflexivity.
  destruct (validate s); try reflexivity. apply (K s b); [|exact D]. unfold read_file in R. destruct (bytes_eqb file []); [discriminate|]. eapply B. exact R.
Qed.

Theorem failure_changes_nothing : forall w d n args, byte_files d -> In n (map str ["assemble"; "transpose"; "export"; "humanise"; "help"; "version"]%string) ->
  r_ending (run w d (n :: args)) <> Exit 0 -> r_files (run w d (n :: args)) = d.
Proof.
  intros w d n args B I. unfold run.
  assert (C : exists c, choose (n :: args) = (c, args) /\ In c [Assemble_; Transpose_; Export_; Humanise_; Help_; Version_]).
  { cbn [map In] in I. repeat (destruct I as [<-|I]; [eexists; split; [reflexivity|cbn [In]; tauto]|]). destruct I. }
  destruct C as (c & C & Ic). rewrite C. destruct (parse_flags (flagset c) args) as [vs rest|q]; [|reflexivity].
  cbn [In] in Ic. unfold execute. destruct Ic as [<-|[<-|[<-|[<-|[<-|[<-|[]]]]]]]; cbn [r_files ends]; try reflexivity.
  - unfold run_assemble. destruct (read_file w d (hd [] rest)); [|reflexivity]. apply written_failed.
  - unfold run_transpose. apply loaded_failed; [exact B|]. intros s b _ _. apply written_failed.
  - unfold run_export. apply loaded_failed; [exact B|]. intros s b _ _. apply created_failed.
  - unfold run_humanise. apply loaded_failed; [exact B|]. intros s b _ _. reflexivity.
Qed.

Theorem disassembly_failure : forall w d args, byte_files d -> hd [] args = str "disassemble" \/ ~ In (hd [] args) command_names ->
  ~ asks_split args -> ~ asks_templates args -> r_ending (run w d args) <> Exit 0 -> r_files (run w d args) = d.
Proof.
  intros w d args B H NS NT. assert (C : exists r, choose args = (Disassemble_, r)).
  { destruct H as [H|H]; [|exists args; apply choose_default; exact H]. destruct args as [|a r]; [discriminate|]. cbn [hd] in H. subst a. exists r. reflexivity. }
  destruct C as (r & C). unfold run. rewrite C. destruct (parse_flags (flagset Disassemble_) r) as [vs rest|q] eqn:P; [|reflexivity].
  unfold execute, run_disassemble. apply loaded_failed; [exact B|]. intros s b Bb D. cbv zeta.
  destruct (bool_flag (str "split") vs) eqn:S; [exfalso; apply NS; eapply split_named; eassumption|].
  destruct (bytes_eqb (string_flag (str "templates") vs) []) eqn:T.
  - cbn [standard_templates t_document]. destruct (decoded_disassembles _ b s Bb D) as (text & E). rewrite E. apply created_failed.
  - exfalso. apply NT. assert (N : string_flag (str "templates") vs <> []) by (intro E; rewrite E in T; discriminate).
    unfold string_flag in N. destruct (last_value (str "templates") vs) as [[|s0|]|] eqn:L; try congruence. apply last_in in L.
    destruct (value_named (flagset Disassemble_) (length r) r vs rest (le_n _) P _ _ L) as [(x & y & Dx & A) _]. exists x, y. split; [exact Dx|].
    apply choose_args in C as [<-|(n & ->)]; [exact A|right; exact A].
Qed.
