(** * RunCommandProofs: the commands one by one (C86). *)
From Coq Require Import Permutation.
From Verif Require Import Base Strings Tables Event Track File Validate SpecTrack Transpose SpecTranspose SpecSurvive SpecEvent TransposeFileProofs Notes SpecNotes NotesTimeProofs NotesPrint SpecDuration NotesPrintProofs
  SpecFloat NotesJson NotesJsonProofs SpecTable SpecText Tsv TsvProofs DisassembleProofs TsvBytesProofs Csv SpecCsv CsvProofs Assemble TextAssemble TextEvent SpecLine NoteProofs SpecSource SourceProofs SourceTextProofs
  Json JsonText SpecJsonText JsonProofs JsonWriteProofs JsonExportProofs JsonReadProofs
  Disassemble Flags Paths Cli SpecCli SpecRun FlagProofs CliProofs CliTripProofs RunProofs.

(** Commands that read a file *)
Definition reading : list bytes := map str ["disassemble"; "notes"; "click"; "export"; "transpose"; "tsv"; "humanise"]%string.

Lemma reading_run : forall w d n args vs file, asked n args vs file -> In n reading -> exists k env,
  (forall c4, bool_setting (str "C4") vs c4 -> env = Env c4 manufacturers) /\ run w d (n :: args) = loaded w d env file k.
Proof.
  intros w d n args vs file A I. unfold reading in I. cbn [map In] in I.
  assert (E : forall c4, bool_setting (str "C4") vs c4 -> Env (bool_flag (str "C4") vs) manufacturers = Env c4 manufacturers)
    by (intros c4 S4; rewrite (bool_setting_flag _ _ _ S4); reflexivity).
  assert (G : forall c, In (n, c) cli -> (exists k, forall rest, execute w d c vs rest = loaded w d (Env (bool_flag (str "C4") vs) manufacturers) (hd [] rest) (k rest)) ->
    exists k env, (forall c4, bool_setting (str "C4") vs c4 -> env = Env c4 manufacturers) /\ run w d (n :: args) = loaded w d env file k).
  { intros c Ic (k & K). destruct (asked_run w d n c args vs file A Ic) as (rest & <- & R). exists (k rest), (Env (bool_flag (str "C4") vs) manufacturers). split; [exact E|].
    rewrite R. apply K. }
  repeat (destruct I as [<-|I]; [eapply G; [cbn [cli In]; repeat (first [left; reflexivity|right]); fail|]; eexists (fun rest => _); intro rest; reflexivity|]).
  destruct I.
Qed.

Theorem missing_file : forall w d n args vs file, asked n args vs file -> In n (str "assemble" :: reading) -> file = [] \/ d (w_file w file) = None ->
  untouched d (Exit 1) (run w d (n :: args)).
Proof.
  intros w d n args vs file A I M.
  assert (R : read_file w d file = None) by (unfold read_file; destruct M as [-> |M]; [reflexivity|destruct (bytes_eqb file []); [reflexivity|exact M]]).
  destruct I as [<-|I].
  - destruct (asked_run w d _ Assemble_ args vs file A) as (rest & E & Rr); [right; left; reflexivity|]. rewrite Rr. unfold execute, run_assemble. rewrite E, R. unfold untouched. cbn. auto.
  - destruct (reading_run w d n args vs file A I) as (k & env & _ & E). rewrite E. unfold loaded. rewrite R. unfold untouched. cbn. auto.
Qed.

Theorem bad_file : forall w d n args vs file c4 r, asked n args vs file -> In n reading -> bool_setting (str "C4") vs c4 -> holds w d file r ->
  match decode (Env c4 manufacturers) r with
  | Ok _ => True
  | Err | Eof => untouched d (Exit 1) (run w d (n :: args))
  | Panic => untouched d Crashed (run w d (n :: args))
  | Loop => untouched d Hung (run w d (n :: args))
  end.
Proof.
  intros w d n args vs file c4 r A I S4 [N R]. destruct (reading_run w d n args vs file A I) as (k & env & E4 & E). rewrite E. rewrite (E4 _ S4) in *.
  unfold loaded, read_file. rewrite bytes_eqb_false by exact N. rewrite R. destruct (decode (Env c4 manufacturers) r); unfold untouched; cbn; auto.
Qed.

Theorem export_run : forall w d args vs file c4 out r s, asked (str "export") args vs file -> bool_setting (str "C4") vs c4 -> string_setting (str "out") vs out ->
  holds w d file r -> is_bytes r -> decode (Env c4 manufacturers) r = Ok s -> f_tracks s <> [] ->
  exists text, json_text (export_json s) text /\ delivered w d out text (run w d (str "export" :: args)).
Proof.
  intros w d args vs file c4 out r s A S4 So H B D T. destruct (asked_run w d _ Export_ args vs file A) as (rest & E & R); [cbn; auto 10|].
  rewrite R. unfold execute. rewrite E, (bool_setting_flag _ _ _ S4), (string_setting_flag _ _ _ So). unfold run_export. rewrite (loaded_holds _ _ _ _ _ _ _ H D T).
  exists (export_text s). split; [|apply created_delivered].
  apply (exported_text c4 [] [] r s); [constructor|reflexivity|exact B|exact D].
Qed.

Theorem transpose_run : forall w d args vs file c4 out n r s, asked (str "transpose") args vs file -> bool_setting (str "C4") vs c4 -> string_setting (str "out") vs out ->
  int_setting (str "semitones") vs n -> reasonable n ->
  let env := Env c4 manufacturers in
  holds w d file r -> is_bytes r -> decode env r = Ok s -> f_tracks s <> [] -> legal_smf s -> Forall (fun t => faithful_events env (t_events t)) (f_tracks s) ->
  exists bs, saved w d out bs (run w d (str "transpose" :: args)) /\
    (zlen bs < 4294967296 -> exists s2 h h2, decode env bs = Ok s2 /\ f_mthd s = Some h /\ f_mthd s2 = Some h2 /\ same_header h h2 /\
       moved_contents n (smf_contents s) (smf_contents s2)).
Proof.
  intros w d args vs file c4 out n r s A S4 So Sn Rn env H B D T L F. destruct (asked_run w d _ Transpose_ args vs file A) as (rest & E & R); [cbn; auto 10|].
  rewrite R. unfold execute. rewrite E, (bool_setting_flag _ _ _ S4), (string_setting_flag _ _ _ So), (int_setting_flag _ _ _ Sn). unfold run_transpose. fold env.
  rewrite (loaded_holds _ _ _ _ _ _ _ H D T). destruct (transpose_written env n r s B D L F Rn) as (bs & Eb & W). exists bs. rewrite Eb. split; [apply written_saved|exact W].
Qed.

Lemma same_files : forall w d c args vs file n, asked n args vs file -> In (n, c) cli -> forall c4 out, bool_setting (str "C4") vs c4 -> string_setting (str "out") vs out ->
  exists rest, hd [] rest = file /\ run w d (n :: args) = execute w d c vs rest /\ bool_flag (str "C4") vs = c4 /\ string_flag (str "out") vs = out.
Proof.
  intros w d c args vs file n A I c4 out S4 So. destruct (asked_run w d n c args vs file A I) as (rest & E & R). exists rest.
  repeat (split; [assumption|]). split; [apply bool_setting_flag|apply string_setting_flag]; assumption.
Qed.

Theorem notes_run : forall w d args vs file c4 out steps json r s h, asked (str "notes") args vs file -> bool_setting (str "C4") vs c4 -> string_setting (str "out") vs out ->
  int_setting (str "transpose") vs steps -> reasonable steps -> bool_setting (str "json") vs json -> (forall l, Permutation l (w_order w l)) ->
  let env := Env c4 manufacturers in
  holds w d file r -> is_bytes r -> decode env r = Ok s -> f_tracks s <> [] -> f_mthd s = Some h -> h_ppqn h <> 0 ->
  exists notes text, file_notes env steps s notes /\ (if json then notes_document (map shown notes) text else listing (map shown notes) text) /\
    delivered w d out text (run w d (str "notes" :: args)).
Proof.
  intros w d args vs file c4 out steps json r s h A S4 So Ss Rs Sj Ho env H B D T Hh P.
  destruct (same_files w d Notes_ args vs file _ A) with (c4 := c4) (out := out) as (rest & E & R & E4 & Eo); [cbn; auto 10|assumption|assumption|].
  rewrite R. unfold execute. rewrite E, E4, Eo, (int_setting_flag _ _ _ Ss), (bool_setting_flag _ _ _ Sj). unfold run_notes. fold env. rewrite (loaded_holds _ _ _ _ _ _ _ H D T).
  assert (X : exists notes, extract env steps (w_order w) s = Ok notes).
  { pose proof (extract_outcome env steps (w_order w) r s h Ho Rs B D Hh) as X. destruct (f_tracks s) as [|t0 [|t1 ts]]; [congruence|eauto|].
    replace (h_ppqn h =? 0) with false in X by lia. exact X. }
  destruct X as (notes & X). rewrite X. cbn [bind].
  exists notes. exists (if json then notes_json notes else print_notes notes). split; [exact (extracted_notes env steps (w_order w) r s notes Ho Rs B D X)|]. split.
  - destruct json; [exact (notes_json_document env steps _ s notes Ho X)|exact (notes_printed env steps _ s notes Ho X)].
  - destruct json; apply created_delivered.
Qed.

Lemma builtin_conf : forall c4, conf_ok (Env c4 manufacturers).
Proof.
  intro c4. pose proof (env_bytes c4 [] [] (Forall_nil _) eq_refl) as C. exact C.
Qed.

Lemma table_of : forall c4 r s, is_bytes r -> decode (Env c4 manufacturers) r = Ok s -> exists t, tsv_export s = Ok t /\ file_table s t /\ Forall (Forall is_bytes) t.
Proof.
  intros c4 r s B D. destruct (tsv_export_spec s (decoded_tsv _ r s B D)) as (t & rows & E & F). exists t. split; [exact E|]. split; [exists rows; exact F|].
  exact (export_bytes _ r s t B (builtin_conf c4) D E).
Qed.

Theorem tsv_run : forall w d args vs file c4 out delim tabular r s, asked (str "tsv") args vs file -> bool_setting (str "C4") vs c4 -> string_setting (str "out") vs out ->
  string_setting (str "delimiter") vs delim -> bool_setting (str "tabular") vs tabular ->
  holds w d file r -> is_bytes r -> decode (Env c4 manufacturers) r = Ok s -> f_tracks s <> [] ->
  out = [] \/ tabular = true \/ (is_bytes delim /\ exists x, delimiter delim x /\ separator x) ->
  exists t text, file_table s t /\
    match out, tabular with
    | [], _ | _, true => aligned_text t text
    | _, _ => exists x, delimiter delim x /\ table_text x (titles :: t) text
    end /\ delivered w d out text (run w d (str "tsv" :: args)).
Proof.
  intros w d args vs file c4 out delim tabular r s A S4 So Sd St H B D T M.
  destruct (same_files w d Tsv_ args vs file _ A) with (c4 := c4) (out := out) as (rest & E & R & E4 & Eo); [cbn; auto 10|assumption|assumption|].
  rewrite R. unfold execute. rewrite E, E4, Eo, (string_setting_flag _ _ _ Sd), (bool_setting_flag _ _ _ St). unfold run_tsv. rewrite (loaded_holds _ _ _ _ _ _ _ H D T).
  destruct (table_of c4 r s B D) as (t & Et & F & Bt). rewrite Et. exists t.
  assert (W : aligned_text t (write_table t)) by exact (write_table_spec t Bt).
  destruct out as [|c out].
  { exists (write_table t). split; [exact F|]. split; [exact W|]. cbn. auto. }
  cbn [bytes_eqb]. destruct tabular.
  { exists (write_table t). split; [exact F|]. split; [exact W|apply created_delivered]. }
  destruct M as [M|[M|(Bd & x & Dx & Sx)]]; try discriminate.
  destruct (tsv_text _ r s delim x B D T Bd Dx Sx) as (t' & text & Et' & Ew & Tt). rewrite Et in Et'. injection Et' as <-.
  exists text. split; [exact F|]. split; [exists x; split; [exact Dx|exact Tt]|]. rewrite Ew. apply created_delivered.
Qed.

Theorem click_run : forall w d args vs file c4 out r s, asked (str "click") args vs file -> bool_setting (str "C4") vs c4 -> string_setting (str "out") vs out ->
  holds w d file r -> decode (Env c4 manufacturers) r = Ok s -> f_tracks s <> [] -> delivered_beside w d out [] [10; 10; 10] (run w d (str "click" :: args)).
Proof.
  intros w d args vs file c4 out r s A S4 So H D T.
  destruct (same_files w d Click_ args vs file _ A) with (c4 := c4) (out := out) as (rest & E & R & E4 & Eo); [cbn; auto 10|assumption|assumption|].
  rewrite R. unfold execute. rewrite E, E4, Eo. unfold run_click. rewrite (loaded_holds _ _ _ _ _ _ _ H D T).
  rewrite (click_empty _ r s D). destruct (f_tracks s); [congruence|]. cbn [bind repeat].
  apply feeds_delivered.
Qed.

Theorem humanise_run : forall w d args vs file c4 r s, asked (str "humanise") args vs file -> bool_setting (str "C4") vs c4 ->
  holds w d file r -> decode (Env c4 manufacturers) r = Ok s -> f_tracks s <> [] -> untouched d (Exit 1) (run w d (str "humanise" :: args)).
Proof.
  intros w d args vs file c4 r s A S4 H D T. destruct (asked_run w d _ Humanise_ args vs file A) as (rest & E & R); [cbn; auto 10|].
  rewrite R. unfold execute. rewrite E, (bool_setting_flag _ _ _ S4). unfold run_humanise. rewrite (loaded_holds _ _ _ _ _ _ _ H D T). unfold untouched. cbn. auto.
Qed.

Theorem help_run : forall w d n args vs file, asked n args vs file -> In n [str "help"; str "version"] ->
  r_ending (run w d (n :: args)) = Exit 0 /\ forall i, r_files (run w d (n :: args)) i = d i.
Proof.
  intros w d n args vs file A I. cbn [In] in I. destruct I as [<-|[<-|[]]].
  - destruct (asked_run w d _ Help_ args vs file A) as (rest & E & R); [cbn; auto 12|]. rewrite R. cbn [r_ending r_files execute]. auto.
  - destruct (asked_run w d _ Version_ args vs file A) as (rest & E & R); [cbn; auto 12|]. rewrite R. cbn [r_ending r_files execute]. auto.
Qed.

Theorem assemble_json_run : forall w d args vs file c4 out src, asked (str "assemble") args vs file -> bool_setting (str "C4") vs c4 -> string_setting (str "out") vs out ->
  let env := Env c4 manufacturers in
  holds w d file src -> is_bytes src -> ends_with file (str ".json") ->
  (exists e, e <> Exit 0 /\ untouched d e (run w d (str "assemble" :: args))) \/
  (exists bs before t after v f x ess ess', src = before ++ t ++ after /\ white before /\ json_in lax_chars v t /\
     json_file manufacturers (middle_octave env) v f x ess /\ Forall2 closes ess ess' /\ saved w d out bs (run w d (str "assemble" :: args)) /\
     (Forall legal_events ess' -> Forall (faithful_events env) ess' -> zlen bs < 4294967296 ->
      exists s h, decode env bs = Ok s /\ f_mthd s = Some h /\ h_format h = f /\ h_division h = x /\ h_tracks h = zlen ess /\
        map (fun t => map ev_view (t_events t)) (f_tracks s) = map contents ess')).
Proof.
  intros w d args vs file c4 out src A S4 So env [N R0] B (q & X).
  destruct (same_files w d Assemble_ args vs file _ A) with (c4 := c4) (out := out) as (rest & E & R & E4 & Eo); [cbn; auto 10|assumption|assumption|].
  rewrite R. unfold execute. rewrite E, E4, Eo. unfold run_assemble. fold env. unfold read_file. rewrite bytes_eqb_false by exact N. rewrite R0.
  rewrite X, json_ext, bytes_eqb_refl. destruct (assemble_json_text env src) as [bs| | | |] eqn:Ea.
  - right. destruct (assembled_text env src bs B Ea) as (before & t & after & v & Es & Wb & J & Ev). destruct (json_source env v bs Ev) as (f & x & ess & ess' & Jf & Cl & _ & W).
    exists bs, before, t, after, v, f, x, ess, ess'. repeat (split; [assumption|]). split; [apply written_saved|exact W].
  - left. exists (Exit 1). split; [discriminate|]. unfold untouched. cbn. auto.
  - left. exists (Exit 1). split; [discriminate|]. unfold untouched. cbn. auto.
  - left. exists Crashed. split; [discriminate|]. unfold untouched. cbn. auto.
  - left. exists Hung. split; [discriminate|]. unfold untouched. cbn. auto.
Qed.

Theorem assemble_text_run : forall w d args vs file c4 out src env, asked (str "assemble") args vs file -> bool_setting (str "C4") vs c4 -> string_setting (str "out") vs out ->
  holds w d file src -> is_bytes src -> ~ ends_with file (str ".json") ->
  (exists e, e <> Exit 0 /\ untouched d e (run w d (str "assemble" :: args))) \/
  (exists bs f x ess ess', text_file (fun l e => exists j i, line_says (w_tables w j i) l e) src f x ess /\ Forall2 closes ess ess' /\
     saved w d out bs (run w d (str "assemble" :: args)) /\
     (Forall legal_events ess' -> Forall (faithful_events env) ess' -> zlen bs < 4294967296 ->
      exists s h, decode env bs = Ok s /\ f_mthd s = Some h /\ h_format h = f /\ h_division h = x /\ h_tracks h = zlen ess /\
        map (fun t => map ev_view (t_events t)) (f_tracks s) = map contents ess')).
Proof.
  intros w d args vs file c4 out src env A S4 So [N R0] B X.
  destruct (same_files w d Assemble_ args vs file _ A) with (c4 := c4) (out := out) as (rest & E & R & E4 & Eo); [cbn; auto 10|assumption|assumption|].
  rewrite R. unfold execute. rewrite E, E4, Eo. unfold run_assemble. unfold read_file. rewrite bytes_eqb_false by exact N. rewrite R0.
  rewrite bytes_eqb_false by (intro Q; apply X; rewrite <- Q; apply ext_ends). destruct (assemble_text (w_tables w) src) as [bs| | | |] eqn:Ea.
  - right. destruct (text_source env (w_tables w) src bs B Ea) as (f & x & ess & ess' & Jf & Cl & _ & W). exists bs, f, x, ess, ess'. repeat (split; [assumption|]). split; [apply written_saved|exact W].
  - left. exists (Exit 1). split; [discriminate|]. unfold untouched. cbn. auto.
  - left. exists (Exit 1). split; [discriminate|]. unfold untouched. cbn. auto.
  - left. exists Crashed. split; [discriminate|]. unfold untouched. cbn. auto.
  - left. exists Hung. split; [discriminate|]. unfold untouched. cbn. auto.
Qed.
