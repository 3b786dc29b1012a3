(** * CliSplitProofs: one file per track. *)
From Verif Require Import Base Strings Tables Event Marshal Track File FileProofs Manufacturer SpecEvent SpecTrack SpecDecimal DecimalProofs DurationProofs Validate Transpose Notes NotesPrint NotesPrintProofs
  Disassemble DisassembleProofs Flags Paths Cli SpecCli FlagProofs CliProofs CliTripProofs.

(** ** Names *)

Lemma parts_prefix : forall x, exists init y, forall suf, ~ In 47 suf -> parts (x ++ suf) = init ++ [y ++ suf].
Proof.
  induction x as [|c x (init & y & E)].
  - exists [], []. cbn [app]. induction suf as [|c s IH]; intro N; [reflexivity|]. cbn [parts].
    replace (c =? 47) with false by (symmetry; apply Z.eqb_neq; intros ->; apply N; left; reflexivity). rewrite IH; [reflexivity|]. intro I. apply N. right. exact I.
  - destruct (c =? 47) eqn:C.
    + exists ([] :: init), y. intros suf N. cbn [app parts]. rewrite (E suf N), C. reflexivity.
    + destruct init as [|z init]; [exists [], (c :: y)|exists ((c :: z) :: init), y]; intros suf N; cbn [app parts]; rewrite (E suf N), C; reflexivity.
Qed.

Lemma join_prefix : forall dir x, exists q, forall suf, ~ In 47 suf -> (2 < length suf)%nat -> path_join dir (x ++ suf) = q ++ suf.
Proof.
  intros dir x. destruct (parts_prefix x) as (init & y & E).
  set (rooted := match dir with c :: _ => c =? 47 | [] => true end).
  set (out := fold_left (clean_step rooted) (parts dir ++ init) []).
  exists ((if rooted then [47] else []) ++ match rev out with [] => y | z :: zs => z ++ concat (map (cons 47) zs) ++ 47 :: y end).
  intros suf N L. unfold path_join, path_clean. change (dir ++ [47] ++ x ++ suf) with (dir ++ 47 :: (x ++ suf)). rewrite parts_app, (E suf N).
  replace (match dir ++ 47 :: x ++ suf with c :: _ => c =? 47 | [] => false end) with rooted by (unfold rooted; destruct dir; reflexivity).
  rewrite app_assoc, fold_left_app. cbn [fold_left]. fold out.
  assert (S : clean_step rooted out (y ++ suf) = (y ++ suf) :: out).
  { unfold clean_step. assert (Len : (2 < length (y ++ suf))%nat) by (rewrite app_length; lia). rewrite !bytes_eqb_false; [reflexivity| | |]; intro H; rewrite H in Len; cbn in Len; lia. }
  rewrite S. cbn [rev].
  assert (G : concat (match rev out ++ [y ++ suf] with [] => [] | x0 :: r => x0 :: map (cons 47) r end) =
    match rev out with [] => y | z :: zs => z ++ concat (map (cons 47) zs) ++ 47 :: y end ++ suf).
  { destruct (rev out) as [|z zs]; cbn [app]; [cbn [map concat]; apply app_nil_r|].
    rewrite map_app. cbn [map concat]. rewrite concat_app. cbn [concat]. rewrite app_nil_r, <- !app_assoc. reflexivity. }
  rewrite G. destruct rooted; [reflexivity|]. cbn [app]. set (q := match rev out with [] => y | z :: zs => z ++ concat (map (cons 47) zs) ++ 47 :: y end).
  destruct (q ++ suf) eqn:Eq; [|reflexivity]. apply app_eq_nil in Eq as [_ ->]. cbn in L. lia.
Qed.

Lemma header_suffix : ~ In 47 (str ".MThd") /\ (2 < length (str ".MThd"))%nat.
Proof. split; [vm_compute; intuition discriminate|vm_compute; lia]. Qed.
Lemma track_suffix : forall n, ~ In 47 (str "-" ++ dec n ++ str ".MTrk") /\ (2 < length (str "-" ++ dec n ++ str ".MTrk"))%nat.
Proof.
  intro n. split.
  - intro I. apply in_app_or in I as [I|I]; [revert I; vm_compute; intuition discriminate|]. apply in_app_or in I as [I|I]; [|revert I; vm_compute; intuition discriminate].
    revert I. apply dec_no_char; unfold is_digit; lia.
  - rewrite !app_length. change (length (str ".MTrk")) with 5%nat. lia.
Qed.

Lemma same_end : forall (a b x y : bytes), length x = length y -> a ++ x = b ++ y -> a = b /\ x = y.
Proof.
  intros a b x y L H. assert (La : length a = length b) by (apply (f_equal (@length Z)) in H; rewrite !app_length in H; lia).
  revert b La H. induction a as [|u a IH]; intros [|v b] La H; try discriminate; [auto|].
  cbn [app] in H. assert (u = v) by (apply (f_equal (hd 0)) in H; exact H). subst v. apply (f_equal (@tl Z)) in H. cbn [tl] in H.
  cbn [length] in La. destruct (IH b ltac:(lia) H) as [-> ->]. auto.
Qed.

Lemma dec_inj : forall n m, 0 <= n -> 0 <= m -> dec n = dec m -> n = m.
Proof. intros n m Hn Hm E. destruct (dec_nonneg n Hn) as (_ & _ & <-). destruct (dec_nonneg m Hm) as (_ & _ & <-). rewrite E. reflexivity. Qed.

Lemma track_names_differ : forall pre n m, 0 <= n -> 0 <= m -> pre ++ str "-" ++ dec n ++ str ".MTrk" = pre ++ str "-" ++ dec m ++ str ".MTrk" -> n = m.
Proof. intros pre n m Hn Hm E. apply app_inv_head in E. apply app_inv_head in E. apply same_end in E as [E _]; [|reflexivity]. apply dec_inj; assumption. Qed.
Lemma header_differs : forall pre n, pre ++ str ".MThd" <> pre ++ str "-" ++ dec n ++ str ".MTrk".
Proof.
  intros pre n E. rewrite !app_assoc in E. apply same_end in E as [_ E]; [|reflexivity]. discriminate E.
Qed.

(** ** Numbers of tracks *)

Fixpoint numbered (n : Z) (ts : list mtrk) : Prop := match ts with [] => True | t :: r => t_number t = n /\ numbered (n + 1) r end.

Lemma decode_tracks_numbered : forall env ws n ts, decode_tracks env n ws = Ok ts -> numbered n ts.
Proof.
  intros env ws. induction ws as [|w ws IH]; intros n ts H; [apply Ok_inj in H; subst ts; exact I|]. cbn [decode_tracks] in H.
  destruct (bytes_eqb (firstn 4 w) (str "MTrk")); [|apply IH; exact H].
  destruct (unmarshal_mtrk env n new_context w) as [t| | | |] eqn:Et; try discriminate. cbn [bind] in H.
  destruct (decode_tracks env (n + 1) ws) as [ts'| | | |] eqn:Ets; try discriminate. cbn [bind] in H. apply Ok_inj in H. subst ts.
  split; [|apply IH; exact Ets]. destruct (unmarshal_mtrk_number _ _ n _ _ _ Et) as (t' & _ & _ & E & _). exact E.
Qed.
Lemma decode_numbered : forall env r s, decode env r = Ok s -> numbered 0 (f_tracks s).
Proof.
  intros env r s D. unfold decode in D. destruct (chunks r) as [[|c cs]| | | |]; try discriminate. cbn [bind] in D.
  destruct (unmarshal_mthd c) as [h'| | | |]; try discriminate. cbn [bind] in D.
  destruct (decode_tracks env 0 cs) as [ts'| | | |] eqn:E; try discriminate. cbn [bind] in D. destruct (zlen ts' =? h_tracks h'); [|discriminate].
  apply Ok_inj in D. subst s. exact (decode_tracks_numbered _ _ _ _ E).
Qed.

(** ** The files *)

Lemma put_other : forall w d p bs i, i <> w_file w p -> put w d p bs i = d i.
Proof. intros w d p bs i N. unfold put. destruct (Z.eqb_spec i (w_file w p)); [contradiction|reflexivity]. Qed.

Lemma split_tracks_done : forall w dir base pre, apart (w_file w) -> (forall p, track_file p -> w_creatable w p = true) ->
  (forall suf, ~ In 47 suf -> (2 < length suf)%nat -> path_join dir (base ++ suf) = pre ++ suf) ->
  forall ts n d text, 0 <= n -> numbered n ts -> mtrks_text ts = Ok text ->
  exists d' names contents, split_tracks w d standard_templates dir base ts = ends (Exit 0) d' /\ split_names pre n names /\ length names = length ts /\
    Forall2 (fun p c => d' (w_file w p) = Some c) names contents /\ concat contents = text /\ (forall i, ~ In i (map (w_file w) names) -> d' i = d i) /\
    (forall q, In q names -> exists m, n <= m /\ q = pre ++ str "-" ++ dec m ++ str ".MTrk").
Proof.
  intros w dir base pre A C J ts. induction ts as [|t ts IH]; intros n d text Hn N T.
  - apply Ok_inj in T. subst text. exists d, [], []. repeat split; auto; try constructor. intros q [].
  - destruct N as [Nt N]. cbn [mtrks_text] in T. destruct (mtrk_text t) as [a| | | |] eqn:Ea; try discriminate. cbn [bind] in T.
    destruct (mtrks_text ts) as [b| | | |] eqn:Eb; try discriminate. cbn [bind] in T. apply Ok_inj in T. subst text.
    set (p := pre ++ str "-" ++ dec n ++ str ".MTrk"). destruct (IH (n + 1) (put w d p a) b ltac:(lia) N eq_refl) as (d' & names & contents & R & S & L & F & Cc & O & Nm).
    assert (Pn : ~ In p names) by (intro I; destruct (Nm p I) as (m & Hm & E); apply track_names_differ in E; lia).
    exists d', (p :: names), (a :: contents). cbn [split_tracks]. destruct (track_suffix (t_number t)) as [S1 S2]. rewrite (J _ S1 S2), Nt. fold p.
    rewrite C by (right; exists (pre ++ str "-" ++ dec n); unfold p; rewrite <- !app_assoc; reflexivity). cbn [standard_templates t_mtrk]. rewrite Ea, R.
    split; [reflexivity|]. split; [apply sn_track; [apply dec_decimal|exact S]|]. split; [cbn [length]; rewrite L; reflexivity|].
    split; [constructor; [|exact F]|].
    { rewrite O; [apply put_same|]. intro I. apply in_map_iff in I as (q & E & I). apply A in E. subst q. contradiction. }
    split; [cbn [concat]; rewrite Cc; reflexivity|]. split.
    { intros i I. cbn [map] in I. rewrite O by (intro X; apply I; right; exact X). apply put_other. intros ->. apply I. left. reflexivity. }
    { intros q [<-|I]; [exists n; split; [lia|reflexivity]|]. destruct (Nm q I) as (m & Hm & E). exists m. split; [lia|exact E]. }
Qed.

Lemma separate_done : forall w d s out file env r, apart (w_file w) -> (forall p, track_file p -> w_creatable w p = true) -> (out <> [] -> w_mkdir w out = true) ->
  decode env r = Ok s -> forall text, disassemble s = Ok text ->
  exists pre d' names contents, separate w d standard_templates s out file = ends (Exit 0) d' /\ split_names pre 0 names /\ length names = length (f_tracks s) /\
    Forall2 (fun p c => d' (w_file w p) = Some c) ((pre ++ str ".MThd") :: names) contents /\ concat contents = text /\
    (forall i, ~ In i (map (w_file w) ((pre ++ str ".MThd") :: names)) -> d' i = d i) /\
    (forall suf, ~ In 47 suf -> (2 < length suf)%nat ->
      path_join (if bytes_eqb out [] then path_dir file else out) (trim_suffix (path_base file) (path_ext file) ++ suf) = pre ++ suf).
Proof.
  intros w d s out file env r A C M D text T. unfold separate. cbv zeta. set (dir := if bytes_eqb out [] then path_dir file else out).
  set (base := trim_suffix (path_base file) (path_ext file)). destruct (join_prefix dir base) as (pre & J).
  replace (negb (bytes_eqb out []) && negb (w_mkdir w dir)) with false.
  2:{ unfold dir. destruct (bytes_eqb out []) eqn:E; [reflexivity|]. rewrite M; [reflexivity|]. intros ->. discriminate. }
  destruct header_suffix as [H1 H2]. rewrite (J _ H1 H2). rewrite C by (left; exists pre; reflexivity).
  unfold disassemble in T. destruct (f_mthd s) as [h|] eqn:Eh; [|discriminate]. destruct (mtrks_text (f_tracks s)) as [b| | | |] eqn:Eb; try discriminate. cbn [bind] in T. apply Ok_inj in T. subst text.
  cbn [standard_templates t_mthd].
  destruct (split_tracks_done w dir base pre A C J (f_tracks s) 0 (put w d (pre ++ str ".MThd") (mthd_line h)) b (Z.le_refl 0) (decode_numbered _ _ _ D) Eb)
    as (d' & names & contents & R & S & L & F & Cc & O & Nm).
  exists pre, d', names, (mthd_line h :: contents). rewrite R. split; [reflexivity|]. split; [exact S|]. split; [exact L|]. split; [constructor; [|exact F]|].
  { rewrite O; [apply put_same|]. intro I. apply in_map_iff in I as (q & E & I). apply A in E. subst q. destruct (Nm _ I) as (m & _ & E). exact (header_differs _ _ E). }
  split; [cbn [concat]; rewrite Cc; reflexivity|]. split; [|exact J].
  intros i I. cbn [map] in I. rewrite O by (intro X; apply I; right; exact X). apply put_other. intros ->. apply I. left. reflexivity.
Qed.

(** ** File names in the current directory *)

Lemma parts_plain : forall p, ~ In 47 p -> parts p = [p].
Proof. induction p as [|c p IH]; intro N; [reflexivity|]. cbn [parts]. replace (c =? 47) with false by (symmetry; apply Z.eqb_neq; intros ->; apply N; left; reflexivity). rewrite IH; [reflexivity|]. intro I. apply N. right. exact I. Qed.

Lemma dir_part_plain : forall p, ~ In 47 p -> dir_part p = [].
Proof.
  intros [|c p] N; [reflexivity|]. cbn [dir_part]. replace (existsb (Z.eqb 47) (c :: p)) with false; [reflexivity|].
  symmetry. apply not_true_is_false. intro E. apply existsb_exists in E as (x & I & E). apply Z.eqb_eq in E. subst x. contradiction.
Qed.

Lemma ext_plain : forall ext seen, ~ In 46 ext -> ~ In 47 ext -> ext_from seen ext = seen.
Proof.
  induction ext as [|c ext IH]; intros seen N M; [reflexivity|]. cbn [ext_from].
  replace (c =? 47) with false by (symmetry; apply Z.eqb_neq; intros ->; apply M; left; reflexivity).
  replace (c =? 46) with false by (symmetry; apply Z.eqb_neq; intros ->; apply N; left; reflexivity).
  apply IH; intro I; [apply N|apply M]; right; exact I.
Qed.

Lemma slashed_snoc : forall xs x, slashed (xs ++ [x]) = match xs with [] => x | _ => slashed xs ++ 47 :: x end.
Proof.
  induction xs as [|y xs IH]; intro x; [reflexivity|]. cbn [app]. destruct xs as [|z xs]; [reflexivity|].
  change (slashed (y :: (z :: xs) ++ [x])) with (y ++ 47 :: slashed ((z :: xs) ++ [x])). rewrite IH. change (slashed (y :: z :: xs)) with (y ++ 47 :: slashed (z :: xs)).
  rewrite <- app_assoc. reflexivity.
Qed.

Lemma slashed_concat : forall xs, slashed xs = concat (match xs with [] => [] | x :: r => x :: map (cons 47) r end).
Proof.
  induction xs as [|x xs IH]; [reflexivity|]. destruct xs as [|y xs]; [cbn; symmetry; apply app_nil_r|].
  change (slashed (x :: y :: xs)) with (x ++ 47 :: slashed (y :: xs)). rewrite IH. reflexivity.
Qed.

Lemma parts_slashed : forall xs, xs <> [] -> Forall (fun x => ~ In 47 x) xs -> parts (slashed xs) = xs.
Proof.
  intros xs N F. induction F as [|x xs X F IH]; [contradiction|]. destruct xs as [|y xs]; [apply parts_plain, X|].
  change (slashed (x :: y :: xs)) with (x ++ 47 :: slashed (y :: xs)). rewrite parts_app, parts_plain by exact X. rewrite IH by discriminate. reflexivity.
Qed.

Lemma parts_name : forall rooted xs, xs <> [] -> Forall (fun x => ~ In 47 x) xs -> parts (path_name rooted xs) = (if rooted then [[]] else []) ++ xs.
Proof. intros rooted xs N F. unfold path_name. destruct rooted; [change (str "/" ++ slashed xs) with (47 :: slashed xs); cbn [parts]; change (47 =? 47) with true; cbn iota|cbn [app]]; rewrite parts_slashed by assumption; reflexivity. Qed.

(** The directory with the slash behind it. *)
Definition dir_name (rooted : bool) (xs : list bytes) : bytes := path_name rooted xs ++ match xs with [] => [] | _ => [47] end.

Lemma path_name_snoc : forall rooted xs x, path_name rooted (xs ++ [x]) = dir_name rooted xs ++ x.
Proof.
  intros rooted xs x. unfold dir_name, path_name. rewrite slashed_snoc. destruct xs as [|y xs]; [destruct rooted; reflexivity|]. rewrite <- !app_assoc. reflexivity.
Qed.

Lemma path_name_append : forall rooted xs x suf, path_name rooted (xs ++ [x ++ suf]) = path_name rooted (xs ++ [x]) ++ suf.
Proof. intros. rewrite !path_name_snoc. apply app_assoc. Qed.

Lemma ext_slash : forall p x seen, ext_from seen (p ++ 47 :: x) = ext_from [] x.
Proof. induction p as [|c p IH]; intros x seen; cbn [app ext_from]; [reflexivity|]. destruct (c =? 47); [apply IH|]. destruct (c =? 46); apply IH. Qed.

Lemma dir_name_end : forall rooted xs, dir_name rooted xs = [] \/ exists p, dir_name rooted xs = p ++ [47].
Proof.
  intros rooted xs. unfold dir_name, path_name. destruct xs as [|x xs]; [destruct rooted; [right; exists []; reflexivity|left; reflexivity]|]. right. eexists. reflexivity.
Qed.

Lemma ext_name : forall rooted xs x, path_ext (path_name rooted (xs ++ [x])) = path_ext x.
Proof.
  intros rooted xs x. unfold path_ext. rewrite path_name_snoc. destruct (dir_name_end rooted xs) as [-> | (p & ->)]; [reflexivity|]. rewrite <- app_assoc. apply ext_slash.
Qed.

Lemma dir_part_slash : forall p x, ~ In 47 x -> dir_part (p ++ 47 :: x) = p ++ [47].
Proof.
  intros p x N. induction p as [|c p IH]; cbn [app dir_part].
  - change (existsb (Z.eqb 47) (47 :: x)) with true. cbn iota. rewrite dir_part_plain by exact N. reflexivity.
  - replace (existsb (Z.eqb 47) (c :: p ++ 47 :: x)) with true; [rewrite IH; reflexivity|]. symmetry. apply existsb_exists. exists 47. split; [right; apply in_or_app; right; left; reflexivity|reflexivity].
Qed.

Lemma dir_part_name : forall rooted xs x, ~ In 47 x -> dir_part (path_name rooted (xs ++ [x])) = dir_name rooted xs.
Proof.
  intros rooted xs x N. rewrite path_name_snoc. destruct (dir_name_end rooted xs) as [-> | (p & ->)]; [apply dir_part_plain, N|]. rewrite <- app_assoc. apply dir_part_slash, N.
Qed.

(** Cleaning a path gives the elements it leads to. *)
Lemma clean_leads : forall rooted xs ys, leads rooted xs ys -> fold_left (clean_step rooted) xs [] = rev ys.
Proof.
  intros rooted xs ys H. induction H as [|xs ys x H IH (X1 & X2 & X3 & X4)|xs ys x H IH X|xs ys y H IH (Y1 & Y2 & Y3 & Y4)|xs H IH R|xs ys H IH R F]; [reflexivity|..]; rewrite fold_left_app, IH; cbn [fold_left]; unfold clean_step.
  - rewrite !bytes_eqb_false by assumption. cbn [orb]. rewrite rev_app_distr. reflexivity.
  - destruct X as [-> | ->]; reflexivity.
  - change (bytes_eqb (str "..") [] || bytes_eqb (str "..") (str ".")) with false. rewrite bytes_eqb_same, rev_app_distr. cbn [rev app]. rewrite bytes_eqb_false by assumption. reflexivity.
  - subst rooted. reflexivity.
  - subst rooted. change (bytes_eqb (str "..") [] || bytes_eqb (str "..") (str ".")) with false. rewrite bytes_eqb_same, rev_app_distr. cbn [rev app].
    destruct (rev ys) as [|y r] eqn:E; [reflexivity|]. assert (I : In y ys) by (apply in_rev; rewrite E; left; reflexivity).
    rewrite Forall_forall in F. rewrite <- (F y I), bytes_eqb_same. reflexivity.
Qed.

Lemma leads_plain : forall rooted xs ys, leads rooted xs ys -> Forall (fun x => ~ In 47 x) xs.
Proof.
  intros rooted xs ys H. induction H as [|xs ys x H IH (X1 & X2 & X3 & X4)|xs ys x H IH X|xs ys y H IH Y|xs H IH R|xs ys H IH R F]; [constructor|..]; apply Forall_app; (split; [exact IH|]); repeat constructor; try assumption.
  - destruct X as [-> | ->]; vm_compute; intuition discriminate.
  - vm_compute; intuition discriminate.
  - vm_compute; intuition discriminate.
  - vm_compute; intuition discriminate.
Qed.

(** A path without detours: up, then into directories. *)
Definition direct (rooted : bool) (ys : list bytes) : Prop := exists ups zs, ys = ups ++ zs /\ Forall (eq (str "..")) ups /\ Forall element zs /\ (rooted = true -> ups = []).

Lemma direct_drop : forall rooted ys y, direct rooted (ys ++ [y]) -> element y -> direct rooted ys.
Proof.
  intros rooted ys y (ups & zs & E & U & Z & R) Y. destruct zs as [|z zs _] using rev_ind.
  - rewrite app_nil_r in E. subst ups. apply Forall_app in U as [_ U]. inversion U as [|? ? E _]; subst. destruct Y as (_ & _ & _ & Y). contradiction.
  - rewrite app_assoc in E. apply app_inj_tail in E as [-> ->]. apply Forall_app in Z as [Z _]. exists ups, zs. auto.
Qed.

Lemma leads_direct : forall rooted xs ys, leads rooted xs ys -> direct rooted ys.
Proof.
  intros rooted xs ys H. induction H as [|xs ys x H IH X|xs ys x H IH X|xs ys y H IH Y|xs H IH R|xs ys H IH R F]; try assumption.
  - exists [], []. repeat split; constructor.
  - destruct IH as (ups & zs & -> & U & Z & R). exists ups, (zs ++ [x]). rewrite app_assoc. split; [reflexivity|]. split; [exact U|]. split; [|exact R]. apply Forall_app. split; [exact Z|]. repeat constructor; apply X.
  - eapply direct_drop; eassumption.
  - exists (ys ++ [str ".."]), []. rewrite app_nil_r. split; [reflexivity|]. split; [apply Forall_app; split; [exact F|repeat constructor]|]. split; [constructor|]. intro T. rewrite R in T. discriminate.
Qed.

Lemma direct_leads : forall rooted ys, direct rooted ys -> leads rooted ys ys.
Proof.
  intros rooted ys (ups & zs & -> & U & Z & R). induction zs as [|z zs IH] using rev_ind.
  - rewrite app_nil_r. induction ups as [|u ups IH] using rev_ind; [constructor|]. apply Forall_app in U as [U V]. inversion V as [|? ? E _]; subst. destruct rooted.
    + specialize (R eq_refl). destruct ups; discriminate.
    + apply ld_above; [apply IH; [exact U|discriminate]|reflexivity|exact U].
  - apply Forall_app in Z as [Z V]. rewrite app_assoc. apply ld_into; [apply IH, Z|]. inversion V; assumption.
Qed.

(** The first element tells whether the path starts at the root. *)
Definition led (rooted : bool) (xs : list bytes) : Prop := rooted = false -> match xs with x :: _ => x <> [] | [] => False end.

Lemma rooted_name : forall rooted xs r, Forall (fun x => ~ In 47 x) xs -> led rooted xs -> match path_name rooted xs ++ r with c :: _ => c =? 47 | [] => false end = rooted.
Proof.
  intros rooted xs r F N. destruct rooted; [reflexivity|]. specialize (N eq_refl). destruct F as [|x xs X2 F]; [contradiction|]. destruct x as [|c x]; [contradiction|].
  unfold path_name. cbn [app]. replace (match slashed ((c :: x) :: xs) ++ r with c0 :: _ => c0 =? 47 | [] => false end) with (c =? 47) by (destruct xs; reflexivity).
  apply Z.eqb_neq. intros ->. apply X2. left. reflexivity.
Qed.

Lemma name_nonempty : forall rooted ys, direct rooted ys -> ys <> [] -> path_name rooted ys <> [].
Proof.
  intros rooted ys D N E. unfold path_name in E. apply app_eq_nil in E as [_ E]. destruct ys as [|y ys]; [contradiction|].
  assert (Y : y <> []). { destruct D as (ups & zs & E1 & U & Z & _). destruct ups as [|u ups]; [destruct zs; [discriminate|]; injection E1 as -> ->; apply Forall_cons_iff in Z as [(Z & _) _]; exact Z|].
    injection E1 as -> ->. apply Forall_cons_iff in U as [<- _]. discriminate. }
  destruct ys; cbn [slashed] in E; [contradiction|]. apply app_eq_nil in E as [E _]. contradiction.
Qed.

Lemma clean_name : forall rooted xs ys tail, leads rooted xs ys -> xs <> [] -> led rooted xs -> tail = [] \/ tail = [47] ->
  path_clean (path_name rooted xs ++ tail) = match ys with [] => if rooted then str "/" else str "." | _ => path_name rooted ys end.
Proof.
  intros rooted xs ys tail L N D T. pose proof (leads_plain _ _ _ L) as F. unfold path_clean. rewrite rooted_name by assumption.
  assert (P : fold_left (clean_step rooted) (parts (path_name rooted xs ++ tail)) [] = rev ys).
  { destruct T as [-> | ->].
    - rewrite app_nil_r, parts_name by assumption. rewrite fold_left_app.
      replace (fold_left (clean_step rooted) (if rooted then [[]] else []) []) with (@nil bytes) by (destruct rooted; reflexivity). apply clean_leads, L.
    - rewrite parts_app, parts_name by assumption. rewrite !fold_left_app.
      replace (fold_left (clean_step rooted) (if rooted then [[]] else []) []) with (@nil bytes) by (destruct rooted; reflexivity). rewrite (clean_leads _ _ _ L). reflexivity. }
  rewrite P, rev_involutive, <- slashed_concat. pose proof (name_nonempty rooted ys (leads_direct _ _ _ L)) as NE. unfold path_name in *. destruct rooted; [destruct ys; reflexivity|]. cbn [app] in *.
  destruct ys as [|y ys]; [reflexivity|]. destruct (slashed (y :: ys)) as [|c r]; [|reflexivity]. exfalso. apply NE; [discriminate|reflexivity].
Qed.

Lemma base_name : forall rooted xs x, Forall (fun x => ~ In 47 x) xs -> x <> [] -> ~ In 47 x -> path_base (path_name rooted (xs ++ [x])) = x.
Proof.
  intros rooted xs x F N1 N2. unfold path_base.
  assert (P : parts (path_name rooted (xs ++ [x])) = (if rooted then [[]] else []) ++ xs ++ [x]).
  { apply parts_name; [destruct xs; discriminate|]. apply Forall_app. split; [exact F|]. constructor; [exact N2|constructor]. }
  rewrite P. rewrite !filter_app. cbn [filter]. rewrite (bytes_eqb_false x []) by exact N1. cbn [negb]. rewrite app_assoc, rev_app_distr. cbn [rev app].
  destruct (path_name rooted (xs ++ [x])) eqn:E; [|reflexivity]. exfalso. rewrite path_name_snoc in E. apply app_eq_nil in E as [_ E]. contradiction.
Qed.

Lemma led_init : forall rooted xs, (rooted = false -> hd (str ".") xs <> []) -> xs <> [] -> led rooted xs.
Proof. intros rooted xs H N R. specialize (H R). destruct xs; [contradiction|exact H]. Qed.

Lemma dir_of_name : forall rooted xs ys x, leads rooted xs ys -> (rooted = false -> hd (str ".") xs <> []) -> ~ In 47 x ->
  path_dir (path_name rooted (xs ++ [x])) = match ys with [] => if rooted then str "/" else str "." | _ => path_name rooted ys end.
Proof.
  intros rooted xs ys x L D N. unfold path_dir. rewrite dir_part_name by exact N. unfold dir_name. destruct xs as [|y xs].
  - inversion L; try (destruct xs; discriminate). destruct rooted; reflexivity.
  - apply clean_name; [exact L|discriminate|apply led_init; [exact D|discriminate]|auto].
Qed.

Lemma long_element : forall x, (2 < length x)%nat -> ~ In 47 x -> element x.
Proof. intros x L N. split; [|split; [exact N|split]]; intros ->; cbn in L; lia. Qed.

(** The name in a directory, which may be named with detours. *)
Lemma join_elements : forall rooted xs ys x, leads rooted xs ys -> (rooted = false -> hd (str ".") xs <> []) -> xs <> [] -> element x -> path_join (path_name rooted xs) x = path_name rooted (ys ++ [x]).
Proof.
  intros rooted xs ys x L D N X. unfold path_join. replace (path_name rooted xs ++ [47] ++ x) with (path_name rooted (xs ++ [x]) ++ []).
  - rewrite (clean_name rooted (xs ++ [x]) (ys ++ [x]) []); [destruct ys; reflexivity|apply ld_into; assumption|destruct xs; discriminate| |auto].
    apply led_init; [|destruct xs; discriminate]. destruct xs; [contradiction|exact D].
  - rewrite app_nil_r, path_name_snoc. unfold dir_name. destruct xs; [contradiction|]. rewrite <- app_assoc. reflexivity.
Qed.

Lemma join_name : forall (rooted : bool) ys x, direct rooted ys -> element x ->
  path_join (match ys with [] => if rooted then str "/" else str "." | _ => path_name rooted ys end) x = path_name rooted (ys ++ [x]).
Proof.
  intros rooted ys x F X. destruct ys as [|y ys].
  - unfold path_join. pose proof X as (X1 & X2 & X3 & X4). unfold path_clean. destruct rooted.
    + change (str "/" ++ [47] ++ x) with (47 :: 47 :: x). change (47 =? 47) with true. cbv zeta. cbn iota. cbn [parts]. change (47 =? 47) with true. cbn iota. rewrite parts_plain by exact X2.
      cbn [fold_left]. change (clean_step true (clean_step true [] []) []) with (@nil bytes). unfold clean_step. rewrite !bytes_eqb_false by assumption. cbn. rewrite app_nil_r. reflexivity.
    + change (str "." ++ [47] ++ x) with (46 :: 47 :: x). change (46 =? 47) with false. cbv zeta. cbn iota. cbn [parts]. change (47 =? 47) with true. change (46 =? 47) with false. cbn iota. rewrite parts_plain by exact X2.
      cbn [fold_left]. change (clean_step false (clean_step false [] [46]) x) with (clean_step false [] x). unfold clean_step. rewrite !bytes_eqb_false by assumption. cbn. rewrite app_nil_r.
      destruct x; [contradiction|reflexivity].
  - apply join_elements; [apply direct_leads, F| |discriminate|exact X]. intros _. cbn [hd].
    destruct F as (ups & zs & E1 & U & Z & _). destruct ups as [|u ups]; [destruct zs; [discriminate|]; injection E1 as -> ->; apply Forall_cons_iff in Z as [(Z & _) _]; exact Z|].
    injection E1 as -> ->. apply Forall_cons_iff in U as [<- _]. discriminate.
Qed.

Lemma ext_of : forall stem ext, ~ In 47 ext -> ~ In 46 ext -> path_ext (stem ++ str "." ++ ext) = str "." ++ ext.
Proof.
  intros stem ext E1 E2. unfold path_ext. destruct (ext_app stem (str "." ++ ext) []) as (seen & ->). change (str "." ++ ext) with (46 :: ext). cbn [ext_from].
  change (46 =? 47) with false. change (46 =? 46) with true. cbn iota. apply ext_plain; assumption.
Qed.

Lemma trim_end : forall a b, trim_suffix (a ++ b) b = a.
Proof.
  intros a b. unfold trim_suffix. rewrite app_length. replace (length a + length b - length b)%nat with (length a) by lia.
  rewrite skipn_app, skipn_all, Nat.sub_diag, firstn_app, firstn_all, Nat.sub_diag, firstn_O, app_nil_r. cbn [skipn app]. rewrite bytes_eqb_same.
  destruct (Nat.leb_spec (length b) (length a + length b)); [reflexivity|lia].
Qed.

(** Beside the file, with its name. *)
Lemma file_prefix : forall rooted xs ys stem ext pre, leads rooted xs ys -> (rooted = false -> hd (str ".") xs <> []) -> ~ In 47 stem -> ~ In 47 ext -> ~ In 46 ext ->
  let file := path_name rooted (xs ++ [stem ++ str "." ++ ext]) in
  (forall suf, ~ In 47 suf -> (2 < length suf)%nat -> path_join (path_dir file) (trim_suffix (path_base file) (path_ext file) ++ suf) = pre ++ suf) ->
  pre = path_name rooted (ys ++ [stem]).
Proof.
  intros rooted xs ys stem ext pre F D S E1 E2 file J. unfold file in J.
  assert (N : ~ In 47 (stem ++ str "." ++ ext)).
  { intro I. apply in_app_or in I as [I|I]; [contradiction|]. apply in_app_or in I as [[I|[]]|I]; [discriminate|contradiction]. }
  rewrite (dir_of_name rooted xs ys) in J by assumption. rewrite ext_name, ext_of in J by assumption. rewrite base_name in J; [|exact (leads_plain _ _ _ F)|destruct stem; discriminate|exact N]. rewrite trim_end in J.
  destruct header_suffix as [H1 H2]. specialize (J _ H1 H2). rewrite join_name in J; [|exact (leads_direct _ _ _ F)|].
  - rewrite path_name_append in J. apply app_inv_tail in J. auto.
  - apply long_element; [rewrite app_length; lia|]. intro I. apply in_app_or in I as [I|I]; contradiction.
Qed.

(** In the directory, with the directory's name. *)
Lemma dir_prefix : forall rooted xs ys last pre, leads rooted xs ys -> (rooted = false -> hd (str ".") xs <> []) -> element last -> ~ In 46 last ->
  let dir := path_name rooted (xs ++ [last]) in
  (forall suf, ~ In 47 suf -> (2 < length suf)%nat -> path_join dir (trim_suffix (path_base dir) (path_ext dir) ++ suf) = pre ++ suf) ->
  pre = path_name rooted (ys ++ [last; last]).
Proof.
  intros rooted xs ys last pre F D X N dir J. unfold dir in J. pose proof X as (X1 & X2 & _). rewrite ext_name in J. unfold path_ext in J. rewrite ext_plain in J by assumption.
  rewrite base_name in J by (try assumption; exact (leads_plain _ _ _ F)). replace (trim_suffix last []) with last in J by (rewrite <- (app_nil_r last) at 2; rewrite trim_end; reflexivity).
  destruct header_suffix as [H1 H2]. specialize (J _ H1 H2).
  rewrite (join_elements rooted (xs ++ [last]) (ys ++ [last])) in J.
  - rewrite path_name_append in J. apply app_inv_tail in J. rewrite <- J, <- app_assoc. reflexivity.
  - apply ld_into; assumption.
  - destruct xs; [intros _; exact X1|exact D].
  - destruct xs; discriminate.
  - apply long_element; [rewrite app_length; lia|]. intro I. apply in_app_or in I as [I|I]; contradiction.
Qed.

(** ** Runs *)

Lemma stdout_text : forall w d file r s text, plain file -> file <> [] -> d (w_file w file) = Some r -> decode (Env false manufacturers) r = Ok s -> f_tracks s <> [] ->
  disassemble s = Ok text -> run w d [str "disassemble"; file] = Result (Exit 0) text d.
Proof.
  intros w d file r s text Pf Nf R D T Dis. rewrite (run_options w d (str "disassemble") Disassemble_ [file] [] [file]); [|left; reflexivity|apply op_rest; exact Pf].
  unfold execute. change (bool_flag (str "C4") []) with false. change (string_flag (str "out") []) with (@nil Z). change (string_flag (str "templates") []) with (@nil Z).
  change (bool_flag (str "split") []) with false. cbn [hd]. unfold run_disassemble. rewrite (loaded_ok w d (Env false manufacturers) file _ r s Nf R D T). cbv zeta.
  cbn [bytes_eqb standard_templates t_document]. rewrite Dis. reflexivity.
Qed.

Theorem split_run : forall w d file r s, plain file -> file <> [] -> d (w_file w file) = Some r -> is_bytes r -> decode (Env false manufacturers) r = Ok s -> f_tracks s <> [] ->
  apart (w_file w) -> (forall p, track_file p -> w_creatable w p = true) ->
  let r1 := run w d [str "disassemble"; file] in
  let r2 := run w d [str "disassemble"; str "--split"; file] in
  r_ending r1 = Exit 0 /\ r_ending r2 = Exit 0 /\
  exists pre names contents, split_names pre 0 names /\ length names = length (f_tracks s) /\
    Forall2 (fun p c => r_files r2 (w_file w p) = Some c) ((pre ++ str ".MThd") :: names) contents /\ concat contents = r_stdout r1 /\
    (forall i, ~ In i (map (w_file w) ((pre ++ str ".MThd") :: names)) -> r_files r2 i = d i) /\
    (forall rooted dirs dirs' stem ext, file = path_name rooted (dirs ++ [stem ++ str "." ++ ext]) -> (rooted = false -> hd (str ".") dirs <> []) -> leads rooted dirs dirs' ->
      ~ In 47 stem -> ~ In 47 ext -> ~ In 46 ext -> pre = path_name rooted (dirs' ++ [stem])).
Proof.
  intros w d file r s Pf Nf R B D T A C. cbv zeta. destruct (decoded_disassembles _ _ _ B D) as (text & Dis). rewrite (stdout_text w d file r s text Pf Nf R D T Dis).
  destruct (separate_done w d s [] file _ r A C (fun H => False_ind _ (H eq_refl)) D text Dis) as (pre & d' & names & contents & E & S & L & F & Cc & O & J).
  assert (E2 : run w d [str "disassemble"; str "--split"; file] = ends (Exit 0) d').
  { rewrite (run_options w d (str "disassemble") Disassemble_ [str "--split"; file] [(str "split", VBool true)] [file]);
      [|left; reflexivity|change (str "--split") with (str "--" ++ str "split"); apply op_switch; [right; reflexivity|cbn; tauto|apply op_rest; exact Pf]].
    unfold execute. change (bool_flag (str "C4") [(str "split", VBool true)]) with false. change (string_flag (str "out") [(str "split", VBool true)]) with (@nil Z).
    change (string_flag (str "templates") [(str "split", VBool true)]) with (@nil Z). change (bool_flag (str "split") [(str "split", VBool true)]) with true.
    cbn [hd]. unfold run_disassemble. rewrite (loaded_ok w d (Env false manufacturers) file _ r s Nf R D T). cbv zeta. cbn [bytes_eqb]. exact E. }
  rewrite E2. cbn [r_ending r_files r_stdout ends]. split; [reflexivity|]. split; [reflexivity|]. exists pre, names, contents. repeat split; try assumption.
  intros rooted dirs dirs' stem ext Ef N0 N1 N2 N3 N4. cbn [bytes_eqb] in J. rewrite Ef in J. exact (file_prefix rooted dirs dirs' stem ext pre N1 N0 N2 N3 N4 J).
Qed.

Theorem split_out_run : forall w d dir file r s, plain file -> file <> [] -> dir <> [] -> d (w_file w file) = Some r -> is_bytes r -> decode (Env false manufacturers) r = Ok s -> f_tracks s <> [] ->
  apart (w_file w) -> (forall p, track_file p -> w_creatable w p = true) -> w_mkdir w dir = true ->
  let r1 := run w d [str "disassemble"; file] in
  let r2 := run w d [str "disassemble"; str "--split"; str "--out"; dir; file] in
  r_ending r1 = Exit 0 /\ r_ending r2 = Exit 0 /\
  exists pre names contents, split_names pre 0 names /\ length names = length (f_tracks s) /\
    Forall2 (fun p c => r_files r2 (w_file w p) = Some c) ((pre ++ str ".MThd") :: names) contents /\ concat contents = r_stdout r1 /\
    (forall i, ~ In i (map (w_file w) ((pre ++ str ".MThd") :: names)) -> r_files r2 i = d i) /\
    (forall rooted dirs dirs' last, dir = path_name rooted (dirs ++ [last]) -> (rooted = false -> hd (str ".") dirs <> []) -> leads rooted dirs dirs' -> element last -> ~ In 46 last ->
      pre = path_name rooted (dirs' ++ [last; last])).
Proof.
  intros w d dir file r s Pf Nf Nd R B D T A C M. cbv zeta. destruct (decoded_disassembles _ _ _ B D) as (text & Dis). rewrite (stdout_text w d file r s text Pf Nf R D T Dis).
  destruct (separate_done w d s dir dir _ r A C (fun _ => M) D text Dis) as (pre & d' & names & contents & E & S & L & F & Cc & O & J).
  set (vs := [(str "split", VBool true); (str "out", VString dir)]).
  assert (E2 : run w d [str "disassemble"; str "--split"; str "--out"; dir; file] = ends (Exit 0) d').
  { rewrite (run_options w d (str "disassemble") Disassemble_ [str "--split"; str "--out"; dir; file] vs [file]);
      [|left; reflexivity|change (str "--split") with (str "--" ++ str "split"); apply op_switch; [right; reflexivity|cbn; tauto|apply out_options; [exists KString; split; [cbn; tauto|reflexivity]|exact Pf]]].
    unfold execute. change (bool_flag (str "C4") vs) with false. change (string_flag (str "out") vs) with dir.
    change (string_flag (str "templates") vs) with (@nil Z). change (bool_flag (str "split") vs) with true.
    cbn [hd]. unfold run_disassemble. rewrite (loaded_ok w d (Env false manufacturers) file _ r s Nf R D T). cbv zeta. rewrite (bytes_eqb_false dir []) by exact Nd. cbn [bytes_eqb]. exact E. }
  rewrite E2. cbn [r_ending r_files r_stdout ends]. split; [reflexivity|]. split; [reflexivity|]. exists pre, names, contents. repeat split; try assumption.
  intros rooted dirs dirs' last Ed N0 N1 N2 N3. rewrite (bytes_eqb_false dir []) in J by exact Nd. rewrite Ed in J. exact (dir_prefix rooted dirs dirs' last pre N1 N0 N2 N3 J).
Qed.
