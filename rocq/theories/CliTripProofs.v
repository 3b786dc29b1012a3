(** * CliTripProofs: one run after the other. *)
From Verif Require Import Base Strings Tables Event Marshal Track File FileProofs Manufacturer SpecEvent SpecTrack SpecTable SpecAssemble SpecNote SpecSurvive SpecRead NoteProofs Validate ValidateProofs Transpose Notes NotesPrint
  Disassemble DisassembleProofs Tsv Csv Regex TextEvent TextAssemble Assemble ReassembleProofs Json SpecJson JsonText SpecJsonText JsonWriteProofs JsonExportProofs
  Flags Paths Cli SpecCli FlagProofs CliProofs.

(** ** Extensions *)

Lemma ext_app : forall q s seen, exists seen', ext_from seen (q ++ s) = ext_from seen' s.
Proof.
  induction q as [|c q IH]; intros s seen; [exists seen; reflexivity|]. cbn [app ext_from]. destruct (c =? 47); [apply IH|]. destruct (c =? 46); apply IH.
Qed.
Lemma json_ext : forall q, path_ext (q ++ str ".json") = str ".json".
Proof. intro q. unfold path_ext. destruct (ext_app q (str ".json") []) as (seen & ->). reflexivity. Qed.
Lemma ext_ends : forall p, ends_with p (path_ext p).
Proof.
  assert (G : forall p seen pre, ends_with (pre ++ p) seen -> ends_with (pre ++ p) (ext_from seen p)).
  { induction p as [|c p IH]; intros seen pre H; [exact H|]. cbn [ext_from]. change (c :: p) with ([c] ++ p) in *. rewrite app_assoc in *.
    destruct (c =? 47); [apply IH; exists ((pre ++ [c]) ++ p); symmetry; apply app_nil_r|].
    destruct (c =? 46); [|apply IH; exact H]. apply IH. exists pre. rewrite <- app_assoc. reflexivity. }
  intro p. apply (G p [] []). exists p. symmetry. apply app_nil_r.
Qed.

(** ** Two runs *)

Lemma out_options : forall c p f, (exists k, In (str "out", KString) (flagset c) /\ k = KString) -> plain f ->
  options (flagset c) [str "--out"; p; f] [(str "out", VString p)] [f].
Proof.
  intros c p f (k & I & _) P. change (str "--out") with (str "--" ++ str "out"). eapply op_next; [right; reflexivity|exact I|discriminate|constructor|]. apply op_rest. exact P.
Qed.

Lemma out_settings : forall p, bool_flag (str "C4") [(str "out", VString p)] = false /\ string_flag (str "out") [(str "out", VString p)] = p /\
  string_flag (str "templates") [(str "out", VString p)] = [] /\ bool_flag (str "split") [(str "out", VString p)] = false.
Proof. intro p. repeat split. Qed.

Lemma read_put : forall w d p bs, p <> [] -> read_file w (put w d p bs) p = Some bs.
Proof. intros w d p bs N. unfold read_file. rewrite bytes_eqb_false by exact N. apply put_same. Qed.

Lemma loaded_ok : forall w d env file k r s, file <> [] -> d (w_file w file) = Some r -> decode env r = Ok s -> f_tracks s <> [] -> loaded w d env file k = k s.
Proof.
  intros w d env file k r s N R D T. unfold loaded, read_file. rewrite bytes_eqb_false by exact N. rewrite R, D.
  destruct (decoded_validates env r s D) as (h & Eh & H). destruct H as [(F & Z0 & _)|(_ & errs & E)]; [|rewrite E; reflexivity].
  exfalso. apply T. destruct (f_tracks s) as [|t ts] eqn:Et; [reflexivity|]. exfalso. unfold decode in D. destruct (chunks r) as [cs| | | |]; try discriminate. cbn [bind] in D.
  destruct cs as [|c cs]; [discriminate|]. destruct (unmarshal_mthd c) as [h'| | | |]; try discriminate. cbn [bind] in D.
  destruct (decode_tracks env 0 cs) as [ts'| | | |]; try discriminate. cbn [bind] in D. destruct (Z.eqb_spec (zlen ts') (h_tracks h')) as [El|]; [|discriminate].
  apply Ok_inj in D. subst s. cbn [f_mthd f_tracks] in *. injection Eh as ->. subst ts'. unfold zlen in El. cbn [length] in El. lia.
Qed.

Lemma created_ok : forall w d out bs partial, out <> [] -> w_creatable w out = true -> created w d out (Ok bs) partial = ends (Exit 0) (put w d out bs).
Proof. intros w d out bs partial N C. unfold created. rewrite bytes_eqb_false by exact N. rewrite C. reflexivity. Qed.

Theorem text_runs : forall w d file r s text t m,
  let env := Env false manufacturers in
  plain file -> file <> [] -> d (w_file w file) = Some r -> is_bytes r -> decode env r = Ok s -> f_tracks s <> [] ->
  (forall h, f_mthd s = Some h -> h_smpte h = false) -> Forall (track_readable (w_tables w)) (f_tracks s) ->
  Forall (fun t => Forall legal_event (t_events t) /\ chained false (t_events t) /\ faithful_events env (t_events t)) (f_tracks s) ->
  disassemble s = Ok text -> ~ long_line text ->
  plain t -> t <> [] -> m <> [] -> ~ ends_with t (str ".json") -> w_creatable w t = true -> w_creatable w m = true ->
  let r1 := run w d [str "disassemble"; str "--out"; t; file] in
  let r2 := run w (r_files r1) [str "assemble"; str "--out"; m; t] in
  r_ending r1 = Exit 0 /\ r_ending r2 = Exit 0 /\ (forall i, i <> w_file w t -> i <> w_file w m -> r_files r2 i = d i) /\
  exists bs, r_files r2 (w_file w m) = Some bs /\ (zlen bs < 4294967296 ->
    exists s' h h', decode env bs = Ok s' /\ f_mthd s = Some h /\ f_mthd s' = Some h' /\ same_header h h' /\
      map (fun t => map ev_view (t_events t)) (f_tracks s') = map (fun t => map ev_view (t_events t)) (f_tracks s)).
Proof.
  intros w d file r s text t m env Pf Nf R B D T Sm Rd Ch Dis Ll Pt Nt Nm Nj Ct Cm. cbv zeta.
  assert (E1 : run w d [str "disassemble"; str "--out"; t; file] = ends (Exit 0) (put w d t text)).
  { rewrite (run_options w d (str "disassemble") Disassemble_ [str "--out"; t; file] [(str "out", VString t)] [file]);
      [|left; reflexivity|apply out_options; [exists KString; split; [cbn; tauto|reflexivity]|exact Pf]].
    unfold execute. destruct (out_settings t) as (S1 & S2 & S3 & S4). rewrite S1, S2, S3, S4. cbn [hd]. unfold run_disassemble.
    rewrite (loaded_ok w d (Env false manufacturers) file _ r s Nf R D T). cbv zeta. cbn [bytes_eqb standard_templates t_document]. rewrite Dis. apply created_ok; assumption. }
  rewrite E1. cbn [r_files r_ending ends].
  destruct (text_roundtrip env r s text (w_tables w) B D eq_refl Sm Rd Ch Dis Ll) as (bs & A & Back).
  assert (E2 : run w (put w d t text) [str "assemble"; str "--out"; m; t] = ends (Exit 0) (put w (put w d t text) m bs)).
  { rewrite (run_options w _ (str "assemble") Assemble_ [str "--out"; m; t] [(str "out", VString m)] [t]);
      [|right; left; reflexivity|apply out_options; [exists KString; split; [cbn; tauto|reflexivity]|exact Pt]].
    unfold execute. destruct (out_settings m) as (S1 & S2 & _). rewrite S1, S2. cbn [hd]. unfold run_assemble. rewrite read_put by exact Nt.
    rewrite bytes_eqb_false; [|intro E; apply Nj; rewrite <- E; apply ext_ends]. rewrite A. unfold written. rewrite bytes_eqb_false by exact Nm. rewrite Cm. reflexivity. }
  rewrite E2. cbn [r_files r_ending ends]. split; [reflexivity|]. split; [reflexivity|]. split.
  - intros i I1 I2. unfold put. destruct (Z.eqb_spec i (w_file w m)); [contradiction|]. destruct (Z.eqb_spec i (w_file w t)); [contradiction|reflexivity].
  - exists bs. split; [apply put_same|exact Back].
Qed.

Theorem json_runs : forall w d file r s q m,
  let env := Env false manufacturers in let t := q ++ str ".json" in
  plain file -> file <> [] -> d (w_file w file) = Some r -> is_bytes r -> decode env r = Ok s -> f_tracks s <> [] ->
  (forall h, f_mthd s = Some h -> h_smpte h = false) ->
  Forall (fun t => t_events t <> [] /\ Forall (fun e => valid_text (e_body e)) (t_events t)) (f_tracks s) ->
  Forall (fun t => Forall legal_event (t_events t) /\ chained false (t_events t) /\ faithful_events env (t_events t)) (f_tracks s) ->
  plain t -> m <> [] -> w_creatable w t = true -> w_creatable w m = true ->
  let r1 := run w d [str "export"; str "--out"; t; file] in
  let r2 := run w (r_files r1) [str "assemble"; str "--out"; m; t] in
  r_ending r1 = Exit 0 /\ r_ending r2 = Exit 0 /\ (forall i, i <> w_file w t -> i <> w_file w m -> r_files r2 i = d i) /\
  exists bs, r_files r2 (w_file w m) = Some bs /\ (zlen bs < 4294967296 ->
    exists s' h h', decode env bs = Ok s' /\ f_mthd s = Some h /\ f_mthd s' = Some h' /\ same_header h h' /\
      map (fun t => map ev_view (t_events t)) (f_tracks s') = map (fun t => map ev_view (t_events t)) (f_tracks s)).
Proof.
  intros w d file r s q m env t Pf Nf R B D T Sm Rd Ch Pt Nm Ct Cm. cbv zeta.
  assert (Nt : t <> []) by (unfold t; intro E; apply app_eq_nil in E as [_ E]; discriminate).
  assert (E1 : run w d [str "export"; str "--out"; t; file] = ends (Exit 0) (put w d t (export_text s))).
  { rewrite (run_options w d (str "export") Export_ [str "--out"; t; file] [(str "out", VString t)] [file]);
      [|cbn; tauto|apply out_options; [exists KString; split; [cbn; tauto|reflexivity]|exact Pf]].
    unfold execute. destruct (out_settings t) as (S1 & S2 & _). rewrite S1, S2. cbn [hd]. unfold run_export.
    rewrite (loaded_ok w d (Env false manufacturers) file _ r s Nf R D T). apply created_ok; assumption. }
  rewrite E1. cbn [r_files r_ending ends].
  destruct (json_text_roundtrip false [] [] r s [] (Forall_nil _) (Forall_nil _) eq_refl B D Sm Rd Ch) as (bs & A & Back). rewrite app_nil_r in A.
  assert (E2 : run w (put w d t (export_text s)) [str "assemble"; str "--out"; m; t] = ends (Exit 0) (put w (put w d t (export_text s)) m bs)).
  { rewrite (run_options w _ (str "assemble") Assemble_ [str "--out"; m; t] [(str "out", VString m)] [t]);
      [|right; left; reflexivity|apply out_options; [exists KString; split; [cbn; tauto|reflexivity]|exact Pt]].
    unfold execute. destruct (out_settings m) as (S1 & S2 & _). rewrite S1, S2. cbn [hd]. unfold run_assemble. rewrite read_put by exact Nt.
    replace (path_ext t) with (str ".json") by (symmetry; apply json_ext). rewrite bytes_eqb_same.
    change (Env false manufacturers) with (add_manufacturers (Env false manufacturers) []) at 1. rewrite A. unfold written. rewrite bytes_eqb_false by exact Nm. rewrite Cm. reflexivity. }
  rewrite E2. cbn [r_files r_ending ends]. split; [reflexivity|]. split; [reflexivity|]. split.
  - intros i I1 I2. unfold put. destruct (Z.eqb_spec i (w_file w m)); [contradiction|]. destruct (Z.eqb_spec i (w_file w t)); [contradiction|reflexivity].
  - exists bs. split; [apply put_same|exact Back].
Qed.
