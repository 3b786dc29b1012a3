(** * ExitProofs: how a run ends (C106). *)
From Coq Require Import Permutation.
From Verif Require Import Base Strings Tables Event Marshal Track File Validate ValidateProofs SpecDecoded DecodedProofs EventProofs Transpose SpecTranspose TransposeFileProofs Notes SpecNotes NotesTimeProofs
  SpecText Tsv TsvProofs Csv SpecCsv CsvProofs Disassemble DisassembleProofs DecimalProofs CrashProofs
  Flags Paths Cli SpecCli SpecRun FlagProofs CliProofs CliTripProofs CliSplitProofs RunProofs RunCommandProofs SpecExit.

(** ** A transposed file can be written *)

(** No time signature that cannot be written *)
Definition writes (e : event) : Prop := match e_body e with TimeSignature _ d _ _ => 0 <= d <= 128 | _ => True end.

Lemma writes_marshal : forall e, writes e -> exists b, marshal e = Ok b.
Proof.
  intros e H. unfold writes in H. unfold marshal. destruct (e_body e) as [| | | | | | | |k ?| | | | | |? d ? ?| | | | |]; try (eexists; reflexivity).
  - destruct k; eexists; reflexivity.
  - unfold marshal_time_signature. destruct (proj1 (log2_spec d ltac:(lia)) ltac:(lia)) as (x & -> & _). eexists. reflexivity.
Qed.

Lemma moved_writes : forall n e e', moved n e e' -> writes e -> writes e'.
Proof. intros n e e' M W. destruct M; try exact I. exact W. Qed.

Lemma decoded_writes : forall env b, decoded_body env b -> match b with TimeSignature _ d _ _ => 0 <= d <= 128 | _ => True end.
Proof.
  intros env b H. destruct b; try exact I. cbn [decoded_body] in H. destruct H as (_ & [->|(j & J & ->)] & _); [lia|].
  assert (2 ^ j <= 2 ^ 7) by (apply Z.pow_le_mono_r; lia). assert (0 <= 2 ^ j) by (apply Z.pow_nonneg; lia). change (2 ^ 7) with 128 in *. lia.
Qed.

Lemma marshal_all : forall es, Forall writes es -> exists cs, marshal_events es = Ok cs.
Proof.
  intros es H. induction H as [|e es W H (cs & IH)]; [eexists; reflexivity|]. cbn [marshal_events]. destruct (writes_marshal e W) as [b ->]. cbn [bind]. rewrite IH. eexists. reflexivity.
Qed.

Theorem transposed_encodes : forall env n r s, is_bytes r -> decode env r = Ok s -> reasonable n -> exists bs, transpose_execute env n s = Ok bs.
Proof.
  intros env n r s Hr D Hn. destruct (transpose_decoded env n r s Hr D Hn) as (s' & E & Mh & Mt). unfold transpose_execute. rewrite E. cbn [bind]. unfold encode.
  destruct (decoded_header env r s D) as (h & Hh & Hc). rewrite Mh, Hh.
  assert (L : length (f_tracks s') = length (f_tracks s)) by (clear - Mt; induction Mt; cbn [length]; congruence).
  replace (negb (h_tracks h =? zlen (f_tracks s'))) with false by (unfold zlen in *; rewrite L; lia).
  assert (T : exists tb, encode_tracks (f_tracks s') = Ok tb).
  { pose proof (decoded_file env r s Hr D) as F. clear - Mt F. induction Mt as [|t t' ts ts' (_ & _ & M) Mt IH]; [eexists; reflexivity|].
    inversion F as [|? ? (_ & _ & Ft) F']; subst. destruct (IH F') as [tb E]. cbn [encode_tracks]. unfold encode_mtrk.
    assert (W : Forall writes (t_events t')).
    { clear - M Ft. induction M as [|e e' es es' Me M IH]; [constructor|]. inversion Ft as [|? ? (_ & _ & B) Ft']; subst. constructor; [|exact (IH Ft')].
      apply (moved_writes n e e' Me). exact (decoded_writes _ _ B). }
    destruct (marshal_all _ W) as [cs ->]. cbn [bind]. rewrite E. cbn [bind]. eexists. reflexivity. }
  destruct T as [tb ->]. cbn [bind]. eexists. reflexivity.
Qed.

(** ** Endings *)

Lemma can_write_cases : forall w out, (can_write w out /\ (bytes_eqb out [] || w_creatable w out) = true) \/ (~ can_write w out /\ (bytes_eqb out [] || w_creatable w out) = false).
Proof.
  intros w out. unfold can_write. destruct out as [|c out]; [left; cbn; auto|]. cbn [bytes_eqb orb]. destruct (w_creatable w (c :: out)); [left; auto|right; split; [|reflexivity]].
  intros [X|X]; discriminate.
Qed.

Lemma created_ending : forall w d out op p, r_ending (created w d out op p) = if bytes_eqb out [] || w_creatable w out then stopped op else Exit 1.
Proof. intros w d out op p. unfold created. destruct (bytes_eqb out []); [destruct op; reflexivity|]. cbn [orb]. destruct (w_creatable w out); reflexivity. Qed.
Lemma written_ending : forall w d out bs, r_ending (written w d out (Ok bs)) = if bytes_eqb out [] || w_creatable w out then Exit 0 else Exit 1.
Proof. intros w d out bs. unfold written. destruct (bytes_eqb out []); [reflexivity|]. cbn [orb]. destruct (w_creatable w out); reflexivity. Qed.

(** What the theorem says about an ending *)
Definition judged (e : ending) (H W C R : Prop) : Prop :=
  (e = Crashed <-> H \/ (W /\ C)) /\ (e = Exit 0 <-> ~ H /\ W /\ ~ C /\ ~ R) /\ (e = Crashed \/ e = Exit 0 \/ e = Exit 1).

Lemma judge_crashed : forall (H W C R : Prop), H \/ (W /\ C) -> judged Crashed H W C R.
Proof. intros H W C R X. unfold judged. split; [tauto|]. split; [|auto]. split; [discriminate|tauto]. Qed.
Lemma judge_ok : forall (H W C R : Prop), ~ H -> W -> ~ C -> ~ R -> judged (Exit 0) H W C R.
Proof. intros H W C R X. unfold judged. split; [|split; [tauto|auto]]. split; [discriminate|tauto]. Qed.
Lemma judge_failed : forall (H W C R : Prop), ~ H -> ~ (W /\ C) -> ~ W \/ R -> judged (Exit 1) H W C R.
Proof. intros H W C R X Y Z. unfold judged. split; [split; [discriminate|tauto]|]. split; [|auto]. split; [discriminate|tauto]. Qed.

Lemma loaded_decoded : forall w d env file k r s h, holds w d file r -> decode env r = Ok s -> f_mthd s = Some h ->
  (hollow s h /\ r_ending (loaded w d env file k) = Crashed) \/ (~ hollow s h /\ loaded w d env file k = k s).
Proof.
  intros w d env file k r s h (N & R) D Hh. unfold loaded, read_file. rewrite bytes_eqb_false, R, D by exact N.
  destruct (decoded_header env r s D) as (h0 & Hh0 & Hc). assert (h0 = h) by congruence. subst h0.
  assert (T : h_tracks h = 0 <-> f_tracks s = []) by (rewrite <- Hc; unfold zlen; destruct (f_tracks s); cbn [length]; split; intro; try discriminate; try reflexivity; lia).
  destruct (decoded_validates env r s D) as (h1 & Hh1 & V). assert (h1 = h) by congruence. subst h1. unfold hollow. destruct V as [(F & Z0 & ->)|(V & errs & ->)].
  - left. split; [tauto|reflexivity].
  - right. split; [tauto|reflexivity].
Qed.

Lemma existsb_tempo : forall es, existsb (fun e => match e_body e with Tempo _ => true | _ => false end) es = true <-> exists e x, In e es /\ e_body e = Tempo x.
Proof.
  intro es. rewrite existsb_exists. split.
  - intros (e & I & E). destruct (e_body e) eqn:B; try discriminate. eauto.
  - intros (e & x & I & E). exists e. rewrite E. auto.
Qed.
Lemma existsb_event : forall ts, existsb (fun t => negb (zlen (t_events t) =? 0)) ts = true <-> exists t (e : event), In t ts /\ In e (t_events t).
Proof.
  intro ts. rewrite existsb_exists. split.
  - intros (t & I & E). destruct (t_events t) as [|e es] eqn:B; [discriminate|]. exists t, e. rewrite B. split; [exact I|left; reflexivity].
  - intros (t & e & I & E). exists t. split; [exact I|]. destruct (t_events t); [destruct E|]. unfold zlen. cbn [length]. lia.
Qed.

Lemma extract_ending : forall env steps order r s h, (forall l, Permutation l (order l)) -> reasonable steps -> is_bytes r -> decode env r = Ok s -> f_mthd s = Some h ->
  ((f_tracks s = [] \/ timeless s h) /\ extract env steps order s = Panic) \/ (~ (f_tracks s = [] \/ timeless s h) /\ exists ns, extract env steps order s = Ok ns).
Proof.
  intros env steps order r s h P St B D Hh. pose proof (extract_outcome env steps order r s h P St B D Hh) as X. unfold timeless.
  destruct (f_tracks s) as [|t0 [|t1 ts]]; [left; auto| |].
  - right. split; [|eauto]. intros [X1|(_ & a & b & E & N & _)]; [discriminate|]. injection E as <- <-. congruence.
  - destruct ((h_ppqn h =? 0) && _) eqn:Q.
    + left. split; [|exact X]. right. apply andb_true_iff in Q as [Q1 Q2]. split; [lia|]. exists t0, (t1 :: ts). split; [reflexivity|]. split; [discriminate|].
      apply orb_true_iff in Q2. rewrite existsb_tempo, existsb_event in Q2. exact Q2.
    + right. split; [|exact X]. intros [X1|(Z0 & a & b & E & N & Y)]; [discriminate|]. injection E as <- <-.
      assert ((h_ppqn h =? 0) = true) as Z1 by lia. rewrite Z1 in Q. cbn [andb] in Q. apply orb_false_iff in Q as [Q1 Q2].
      rewrite <- existsb_tempo, <- existsb_event in Y. destruct Y; congruence.
Qed.

Ltac other := intros HH; try unfold crashes in HH; try unfold refused in HH; repeat match type of HH with _ \/ _ => destruct HH as [HH|HH] | _ /\ _ => let X := fresh in destruct HH as [HH X] end; vm_compute in HH; discriminate.

Theorem reader_ends : forall w d n args vs file c4 out k1 k2 delim tabular r s h, asked n args vs file -> In n readers ->
  bool_setting (str "C4") vs c4 -> string_setting (str "out") vs out -> string_setting (str "templates") vs [] -> bool_setting (str "split") vs false ->
  int_setting (str "transpose") vs k1 -> reasonable k1 -> int_setting (str "semitones") vs k2 -> reasonable k2 ->
  string_setting (str "delimiter") vs delim -> is_bytes delim -> bool_setting (str "tabular") vs tabular -> (forall l, Permutation l (w_order w l)) ->
  holds w d file r -> is_bytes r -> decode (Env c4 manufacturers) r = Ok s -> f_mthd s = Some h ->
  judged (r_ending (run w d (n :: args))) (hollow s h) (can_write w out) (crashes n s h) (refused n out delim tabular).
Proof.
  intros w d n args vs file c4 out k1 k2 delim tabular r s h A I S4 So Sm Ss S1 R1 S2 R2 Sd Bd St P H B D Hh.
  assert (G : forall c, In (n, c) cli -> exists rest, hd [] rest = file /\ run w d (n :: args) = execute w d c vs rest /\ bool_flag (str "C4") vs = c4 /\ string_flag (str "out") vs = out)
    by (intros c Ic; exact (same_files w d c args vs file n A Ic c4 out S4 So)).
  unfold readers in I. cbn [map In] in I.
  destruct I as [<-|[<-|[<-|[<-|[<-|[<-|[<-|[]]]]]]]].
  - destruct (G Disassemble_) as (rest & E & -> & E4 & Eo); [cbn; auto 10|]. unfold execute. rewrite E, E4, Eo, (string_setting_flag _ _ _ Sm), (bool_setting_flag _ _ _ Ss). unfold run_disassemble.
    match goal with |- context [loaded w d ?env file ?k] => destruct (loaded_decoded w d env file k r s h H D Hh) as [[Ho ->]|[Ho ->]] end; [apply judge_crashed; auto|].
    cbv zeta. cbn [bytes_eqb standard_templates t_document]. destruct (decoded_disassembles _ r s B D) as (text & ->). rewrite created_ending.
    destruct (can_write_cases w out) as [[W ->]|[W ->]]; cbn [stopped]; [apply judge_ok; auto; other|apply judge_failed; auto; tauto].
  - destruct (G Notes_) as (rest & E & -> & E4 & Eo); [cbn; auto 10|]. unfold execute. rewrite E, E4, Eo, (int_setting_flag _ _ _ S1). unfold run_notes.
    match goal with |- context [loaded w d ?env file ?k] => destruct (loaded_decoded w d env file k r s h H D Hh) as [[Ho ->]|[Ho ->]] end; [apply judge_crashed; auto|].
    rewrite created_ending. destruct (can_write_cases w out) as [[W ->]|[W ->]]; [|apply judge_failed; auto; tauto].
    destruct (extract_ending _ k1 (w_order w) r s h P R1 B D Hh) as [[X ->]|[X (ns & ->)]]; cbn [bind stopped].
    + apply judge_crashed. right. split; [exact W|]. right. split; [reflexivity|exact X].
    + apply judge_ok; auto; [|other]. intros [[Y _]|[_ Y]]; [vm_compute in Y; discriminate|contradiction].
  - destruct (G Click_) as (rest & E & -> & E4 & Eo); [cbn; auto 10|]. unfold execute. rewrite E, E4, Eo. unfold run_click.
    match goal with |- context [loaded w d ?env file ?k] => destruct (loaded_decoded w d env file k r s h H D Hh) as [[Ho ->]|[Ho ->]] end; [apply judge_crashed; auto|].
    rewrite feeds_ending, created_ending. destruct (can_write_cases w out) as [[W ->]|[W ->]]; [|apply judge_failed; auto; tauto].
    rewrite (click_empty _ r s D). destruct (f_tracks s) eqn:Et; cbn [bind stopped].
    + apply judge_crashed. right. split; [exact W|]. left. split; [reflexivity|exact Et].
    + apply judge_ok; auto; [|other]. intros [[_ Y]|[Y _]]; [congruence|vm_compute in Y; discriminate].
  - destruct (G Export_) as (rest & E & -> & E4 & Eo); [cbn; auto 10|]. unfold execute. rewrite E, E4, Eo. unfold run_export.
    match goal with |- context [loaded w d ?env file ?k] => destruct (loaded_decoded w d env file k r s h H D Hh) as [[Ho ->]|[Ho ->]] end; [apply judge_crashed; auto|].
    rewrite created_ending. destruct (can_write_cases w out) as [[W ->]|[W ->]]; cbn [stopped]; [apply judge_ok; auto; other|apply judge_failed; auto; tauto].
  - destruct (G Transpose_) as (rest & E & -> & E4 & Eo); [cbn; auto 10|]. unfold execute. rewrite E, E4, Eo, (int_setting_flag _ _ _ S2). unfold run_transpose.
    match goal with |- context [loaded w d ?env file ?k] => destruct (loaded_decoded w d env file k r s h H D Hh) as [[Ho ->]|[Ho ->]] end; [apply judge_crashed; auto|].
    destruct (transposed_encodes _ k2 r s B D R2) as [bs ->]. rewrite written_ending.
    destruct (can_write_cases w out) as [[W ->]|[W ->]]; [apply judge_ok; auto; other|apply judge_failed; auto; tauto].
  - destruct (G Tsv_) as (rest & E & -> & E4 & Eo); [cbn; auto 10|]. unfold execute. rewrite E, E4, Eo, (string_setting_flag _ _ _ Sd), (bool_setting_flag _ _ _ St). unfold run_tsv.
    match goal with |- context [loaded w d ?env file ?k] => destruct (loaded_decoded w d env file k r s h H D Hh) as [[Ho ->]|[Ho ->]] end; [apply judge_crashed; auto|].
    destruct (table_of c4 r s B D) as (t & -> & _). clear Eo.
    assert (NC : ~ crashes (str "tsv") s h) by other.
    destruct (bytes_eqb out []) eqn:Z0.
    { apply bytes_eqb_eq in Z0. subst out. cbn [r_ending]. apply judge_ok; auto; [left; reflexivity|]. intros [Y|(_ & Y & _)]; [vm_compute in Y; discriminate|congruence]. }
    assert (NO : out <> []) by (intros ->; discriminate).
    rewrite created_ending. destruct (can_write_cases w out) as [[W ->]|[W ->]]; [|apply judge_failed; auto; tauto].
    destruct tabular; [cbn [stopped]; apply judge_ok; auto; intros [Y|(_ & _ & Y & _)]; [vm_compute in Y|]; discriminate|].
    destruct (delimiter_total delim Bd) as [x Dx]. destruct (delimiter_spec delim x Bd Dx) as [Ex [cp U]]. unfold write_tsv. rewrite Ex. destruct (valid_delim x) eqn:V; cbn [stopped].
    + apply judge_ok; auto. intros [Y|(_ & _ & _ & y & Dy & Ny)]; [vm_compute in Y; discriminate|]. destruct (delimiter_spec delim y Bd Dy) as [Ey _]. apply Ny.
      replace y with x by congruence. exact (valid_separator x cp U V).
    + apply judge_failed; auto; [tauto|]. right. right. split; [reflexivity|]. split; [exact NO|]. split; [reflexivity|]. exists x. split; [exact Dx|].
      intro Sx. rewrite (separator_valid x Sx) in V. discriminate.
  - destruct (G Humanise_) as (rest & E & -> & E4 & Eo); [cbn; auto 10|]. unfold execute. rewrite E, E4. unfold run_humanise.
    match goal with |- context [loaded w d ?env file ?k] => destruct (loaded_decoded w d env file k r s h H D Hh) as [[Ho ->]|[Ho ->]] end; [apply judge_crashed; auto|].
    cbn [ends r_ending]. apply judge_failed; auto; [|right; left; reflexivity]. intros [_ X]. revert X. other.
Qed.

(** Files that cannot be decoded *)
Theorem undecodable_ends : forall w d n args vs file c4 r, asked n args vs file -> In n readers -> bool_setting (str "C4") vs c4 -> holds w d file r -> is_bytes r ->
  (forall s, decode (Env c4 manufacturers) r <> Ok s) ->
  (untouched d (Exit 1) (run w d (n :: args)) \/ untouched d Crashed (run w d (n :: args))) /\
  (untouched d Crashed (run w d (n :: args)) <-> decode (Env c4 manufacturers) r = Panic).
Proof.
  intros w d n args vs file c4 r A I S4 H B N. pose proof (bad_file w d n args vs file c4 r A I S4 H) as X.
  destruct (proj1 (file_outcome (Env c4 manufacturers) r B)) as [[s D]|[D|D]]; [exfalso; exact (N s D)| |]; rewrite D in X; rewrite D.
  - split; [left; exact X|]. split; [|discriminate]. intros [Y _]. destruct X as [X _]. congruence.
  - split; [right; exact X|]. split; auto.
Qed.

(** ** Split files *)

Lemma split_ending : forall w dir base pre, (forall suf, ~ In 47 suf -> (2 < length suf)%nat -> path_join dir (base ++ suf) = pre ++ suf) ->
  forall ts n d text, numbered n ts -> mtrks_text ts = Ok text ->
  exists names, split_names pre n names /\ length names = length ts /\
    r_ending (split_tracks w d standard_templates dir base ts) = if forallb (w_creatable w) names then Exit 0 else Exit 1.
Proof.
  intros w dir base pre J ts. induction ts as [|t ts IH]; intros n d text N T.
  - exists []. repeat split. constructor.
  - destruct N as [Nt N]. cbn [mtrks_text] in T. destruct (mtrk_text t) as [a| | | |] eqn:Ea; try discriminate. cbn [bind] in T.
    destruct (mtrks_text ts) as [b| | | |] eqn:Eb; try discriminate.
    set (p := pre ++ str "-" ++ dec n ++ str ".MTrk"). destruct (IH (n + 1) (put w d p a) b N eq_refl) as (names & S0 & L & R).
    exists (p :: names). split; [apply sn_track; [apply dec_decimal|exact S0]|]. split; [cbn [length]; rewrite L; reflexivity|].
    cbn [split_tracks forallb]. destruct (track_suffix (t_number t)) as [S1 S2]. rewrite (J _ S1 S2), Nt. fold p.
    destruct (w_creatable w p); [|reflexivity]. cbn [standard_templates t_mtrk andb]. rewrite Ea. exact R.
Qed.

Theorem split_ends : forall w d args vs file c4 out r s h, asked (str "disassemble") args vs file -> bool_setting (str "C4") vs c4 -> string_setting (str "out") vs out ->
  string_setting (str "templates") vs [] -> bool_setting (str "split") vs true -> holds w d file r -> is_bytes r -> decode (Env c4 manufacturers) r = Ok s -> f_mthd s = Some h ->
  let e := r_ending (run w d (str "disassemble" :: args)) in
  (hollow s h -> e = Crashed) /\
  (~ hollow s h -> exists pre names, split_names pre 0 names /\ length names = length (f_tracks s) /\ (e = Exit 0 \/ e = Exit 1) /\
     (e = Exit 0 <-> (out <> [] -> w_mkdir w out = true) /\ Forall (fun p => w_creatable w p = true) ((pre ++ str ".MThd") :: names))).
Proof.
  intros w d args vs file c4 out r s h A S4 So Sm Ss H B D Hh e. subst e.
  destruct (same_files w d Disassemble_ args vs file _ A) with (c4 := c4) (out := out) as (rest & E & R & E4 & Eo); [cbn; auto 10|assumption|assumption|]. rewrite R.
  unfold execute. rewrite E, E4, Eo, (string_setting_flag _ _ _ Sm), (bool_setting_flag _ _ _ Ss). unfold run_disassemble.
  match goal with |- context [loaded w d ?env file ?k] => destruct (loaded_decoded w d env file k r s h H D Hh) as [[Ho ->]|[Ho ->]] end; [split; [auto|contradiction]|].
  split; [contradiction|]. intros _. cbv zeta. cbn [bytes_eqb].
  destruct (decoded_disassembles _ r s B D) as (text & T). unfold disassemble in T. rewrite Hh in T. destruct (mtrks_text (f_tracks s)) as [b| | | |] eqn:Eb; try discriminate.
  set (src := if bytes_eqb out [] then file else out). unfold separate. cbv zeta. set (dir := if bytes_eqb out [] then path_dir src else out).
  set (base := trim_suffix (path_base src) (path_ext src)). destruct (join_prefix dir base) as (pre & J). destruct header_suffix as [H1 H2]. rewrite (J _ H1 H2).
  set (d' := put w d (pre ++ str ".MThd") (mthd_line h)).
  destruct (split_ending w dir base pre J (f_tracks s) 0 d' b (decode_numbered _ _ _ D) Eb) as (names & S0 & L & Re).
  exists pre, names. split; [exact S0|]. split; [exact L|].
  assert (FF : forallb (w_creatable w) names = true <-> Forall (fun p => w_creatable w p = true) names) by (rewrite forallb_forall, Forall_forall; reflexivity).
  assert (MM : (negb (bytes_eqb out []) && negb (w_mkdir w dir)) = false <-> (out <> [] -> w_mkdir w out = true)).
  { subst dir. destruct (bytes_eqb out []) eqn:Z0; cbn [negb andb].
    - apply bytes_eqb_eq in Z0. split; [intros _ X; congruence|reflexivity].
    - assert (NO : out <> []) by (intros ->; discriminate). destruct (w_mkdir w out); cbn [negb]; split; intro Q; try discriminate; auto. discriminate (Q NO). }
  destruct (negb (bytes_eqb out []) && negb (w_mkdir w dir)).
  - cbn [ends r_ending]. split; [auto|]. split; [discriminate|]. intros [X _]. apply MM in X. discriminate.
  - assert (M : out <> [] -> w_mkdir w out = true) by (apply MM; reflexivity). destruct (w_creatable w (pre ++ str ".MThd")) eqn:C.
    + cbn [standard_templates t_mthd]. rewrite Hh. fold d'. change (Templates _ _ mtrk_text) with standard_templates. rewrite Re. destruct (forallb (w_creatable w) names).
      * split; [auto|]. split; [|reflexivity]. intros _. split; [exact M|]. constructor; [exact C|]. apply FF. reflexivity.
      * split; [auto|]. split; [discriminate|]. intros [_ X]. inversion X as [|? ? _ X']; subst. apply FF in X'. discriminate.
    + cbn [ends r_ending]. split; [auto|]. split; [discriminate|]. intros [_ X]. inversion X; subst. congruence.
Qed.
