(** * NamesConfProofs: configurations of manufacturers, and the option for middle C on the command line (C97, C98). *)
From Verif Require Import Base Strings Tables Vlq Event SpecEvent Parse ParseProofs Track File Marshal Hex Manufacturer EventProofs JsonProofs Json JsonText Assemble Validate Transpose Notes Flags Cli SpecJsonText JsonTextProofs JsonExportProofs Conf SpecConf ConfProofs SpecNames NamesProofs NamesNotesProofs NamesRunsProofs.

Lemma loaded_key : forall conf l id, Forall (fun x => wire_id (fst (fst x))) conf -> load_manufacturers conf = Ok l -> In id (map (fun x => fst (fst x)) conf) -> exists m, In (id_key id, m) l.
Proof.
  induction conf as [|[[i region] name] conf IH]; intros l id W L I; [contradiction|]. cbn [load_manufacturers] in L.
  destruct (make_manufacturer i region name) as [[k m]| | | |] eqn:E; try discriminate L. cbn [bind] in L. destruct (load_manufacturers conf) as [l'| | | |] eqn:E'; try discriminate L. cbn [bind] in L. apply Ok_inj in L. subst l.
  pose proof (Forall_inv W) as Wi. cbn [fst] in Wi. cbn [map fst] in I. destruct I as [<-|I].
  - assert (Hb : is_bytes i) by (destruct Wi; repeat constructor; unfold is_byte; lia). destruct (make_manufacturer_key i region name k m Hb Wi E) as [-> _]. exists m. apply in_or_app. right. left. reflexivity.
  - destruct (IH l' id (Forall_inv_tail W) eq_refl I) as [m' M]. exists m'. apply in_or_app. left. exact M.
Qed.

Lemma assocb_found : forall A k (l : list (bytes * A)) x, In (k, x) l -> assocb k l <> None.
Proof. induction l as [|[k' y] l IH]; intros x I; [contradiction|]. cbn [assocb]. destruct (bytes_eqb k k') eqn:E; [discriminate|]. destruct I as [I|I]; [|exact (IH _ I)]. injection I as -> ->. rewrite bytes_eqb_refl in E. discriminate E. Qed.

(** What becomes of the ID 7F *)
Lemma conf_127 : forall c4 conf l, Forall (fun x => wire_id (fst (fst x))) conf -> load_manufacturers conf = Ok l ->
  m_id (lookup_manufacturer (add_manufacturers (Env c4 manufacturers) l) [127]) = if existsb (bytes_eqb [127]) (map (fun x => fst (fst x)) conf) then [127] else [126].
Proof.
  intros c4 conf l W L. unfold lookup_manufacturer, add_manufacturers. cbn [env_manufacturers]. rewrite assocb_app. change (hex2 127) with (id_key [127]). destruct (assocb (id_key [127]) l) as [m|] eqn:E.
  - apply assocb_in in E. destruct (load_faithful conf l W L _ E) as (id & Wi & K & M). cbn [fst snd] in K, M. apply id_key_inj in K; [|apply wi_one; lia|exact Wi]. subst id. rewrite M.
    assert (X : In [127] (map (fun x => fst (fst x)) conf)).
    { clear M Wi. revert l L E. induction conf as [|[[i region] name] conf IH]; intros l L E; cbn [load_manufacturers] in L; [injection L as <-; contradiction|].
      destruct (make_manufacturer i region name) as [[k m']| | | |] eqn:F; try discriminate L. cbn [bind] in L. destruct (load_manufacturers conf) as [l'| | | |] eqn:F'; try discriminate L. cbn [bind] in L. apply Ok_inj in L. subst l.
      apply in_app_or in E as [E|[E|[]]]; [right; exact (IH (Forall_inv_tail W) l' eq_refl E)|]. pose proof (Forall_inv W) as Wi. cbn [fst] in Wi.
      assert (Hb : is_bytes i) by (destruct Wi; repeat constructor; unfold is_byte; lia). destruct (make_manufacturer_key i region name k m' Hb Wi F) as [K M]. apply (f_equal fst) in E. cbn [fst] in E. rewrite K in E.
      apply id_key_inj in E; [|exact Wi|apply wi_one; lia]. subst i. left. reflexivity. }
    destruct (existsb _ _) eqn:Y; [reflexivity|]. exfalso. apply Bool.not_true_iff_false in Y. apply Y. apply existsb_exists. exists [127]. split; [exact X|reflexivity].
  - destruct (existsb _ _) eqn:Y; [|reflexivity]. exfalso. apply existsb_exists in Y as (id & I & Y). apply bytes_eqb_eq in Y. subst id. destruct (loaded_key conf l [127] W L I) as [m M]. exact (assocb_found _ _ _ _ M E).
Qed.

Theorem conf_ids : forall c4 c4' conf conf' l l', Forall (fun x => wire_id (fst (fst x))) conf -> Forall (fun x => wire_id (fst (fst x))) conf' ->
  load_manufacturers conf = Ok l -> load_manufacturers conf' = Ok l' -> (In [127] (map (fun x => fst (fst x)) conf) <-> In [127] (map (fun x => fst (fst x)) conf')) ->
  same_wire_ids (add_manufacturers (Env c4 manufacturers) l) (add_manufacturers (Env c4' manufacturers) l').
Proof.
  intros c4 c4' conf conf' l l' W W' L L' I id H. destruct (list_eq_dec Z.eq_dec id [127]) as [->|N].
  - rewrite (conf_127 _ _ _ W L), (conf_127 _ _ _ W' L').
    assert (E : existsb (bytes_eqb [127]) (map (fun x => fst (fst x)) conf) = existsb (bytes_eqb [127]) (map (fun x => fst (fst x)) conf')); [|rewrite E; reflexivity].
    assert (X : forall ids, existsb (bytes_eqb [127]) ids = true <-> In [127] ids).
    { intro ids. rewrite existsb_exists. split; [intros (x & Y & Z); apply bytes_eqb_eq in Z; subst x; exact Y|intro Y; exists [127]; split; [exact Y|reflexivity]]. }
    apply Bool.eq_iff_eq_true. rewrite !X. exact I.
  - assert (K : forall c4 conf l, Forall (fun x => wire_id (fst (fst x))) conf -> load_manufacturers conf = Ok l -> m_id (lookup_manufacturer (add_manufacturers (Env c4 manufacturers) l) id) = id); [|rewrite (K _ _ _ W L), (K _ _ _ W' L'); reflexivity].
    clear - H N. intros c4 conf l W L. destruct H as [H| ->]; [apply (proj1 (lookup_keeps_id c4 conf l W L)); assumption|].
    unfold lookup_manufacturer. destruct (assocb (hex2 0) _) as [m|] eqn:E; [|reflexivity].
    exfalso. apply assocb_in in E. unfold add_manufacturers in E. cbn [env_manufacturers] in E. apply in_app_or in E as [E|E].
    + destruct (load_faithful conf l W L _ E) as (id' & W' & E1 & _). cbn [fst] in E1. clear - W' E1. destruct W' as [a R|b c R1 R2]; cbn [id_key] in E1.
      * change (hex2 0) with (hex_byte 0) in E1. apply hex_byte_inj in E1; unfold is_byte; lia.
      * apply (f_equal (@length _)) in E1. rewrite app_length in E1. cbn in E1. lia.
    + assert (T : forallb (fun km => negb (bytes_eqb (fst km) (hex2 0))) manufacturers = true) by (vm_compute; reflexivity).
      rewrite forallb_forall in T. specialize (T _ E). cbn [fst] in T. rewrite bytes_eqb_refl in T. discriminate.
Qed.

(** ** Configuration files *)

Lemma file_loads : forall c4 ms s, configuration ms s -> Forall (fun m => is_bytes (fst (fst m))) ms ->
  load_text (Env c4 manufacturers) s = load_manufacturers (map (fun m => (m_id m, m_region m, m_name m)) (map (fun m : bytes * bytes * bytes => lookup_manufacturer (Env c4 manufacturers) (fst (fst m))) ms)).
Proof.
  intros c4 ms s (w1 & t & w2 & -> & W1 & W2 & J) F. unfold load_text, unmarshal_value. rewrite (any_text_read _ _ _ _ J W1); [|..|exact I].
  - cbn [bind]. rewrite skip_white by exact W2. cbn [bind object]. keys. cbn [elements bind].
    replace (each (read_manufacturer (Env c4 manufacturers) (Manufacturer [] [] [])) (map listed ms)) with
      (Ok (map (fun m : bytes * bytes * bytes => lookup_manufacturer (Env c4 manufacturers) (fst (fst m))) ms)).
    + cbn [bind]. keys. reflexivity.
    + symmetry. clear - F. induction F as [|m ms B _ IH]; [reflexivity|]. cbn [map each]. rewrite listed_read by exact B. cbn [bind]. rewrite IH. reflexivity.
  - cbn [depth fold_right snd]. assert (D : fold_right (fun v m => Z.max (depth v) m) 0 (map listed ms) <= 2).
    { clear. induction ms as [|m ms IH]; cbn [map fold_right]; [lia|]. rewrite depth_listed. lia. }
    lia.
Qed.

Lemma looked_up : forall c4 id, wire_id id -> let m := lookup_manufacturer (Env c4 manufacturers) id in wire_id (m_id m) /\ m_id m <> [127].
Proof.
  intros c4 id W m. subst m. change (Env c4 manufacturers) with (add_manufacturers (Env c4 manufacturers) []). destruct (list_eq_dec Z.eq_dec id [127]) as [->|N].
  - rewrite (conf_127 c4 [] [] (Forall_nil _) eq_refl). cbn [map existsb]. split; [apply wi_one; lia|discriminate].
  - rewrite (proj1 (lookup_keeps_id c4 [] [] (Forall_nil _) eq_refl) id W N). split; assumption.
Qed.

Theorem files_ids : forall c4 c4' ms ms' s s' l l', configuration ms s -> configuration ms' s' ->
  Forall (fun m => wire_id (fst (fst m))) ms -> Forall (fun m => wire_id (fst (fst m))) ms' ->
  load_text (Env c4 manufacturers) s = Ok l -> load_text (Env c4' manufacturers) s' = Ok l' ->
  same_wire_ids (add_manufacturers (Env c4 manufacturers) l) (add_manufacturers (Env c4' manufacturers) l').
Proof.
  assert (X : forall c4 ms s l, configuration ms s -> Forall (fun m => wire_id (fst (fst m))) ms -> load_text (Env c4 manufacturers) s = Ok l ->
    exists conf, Forall (fun x => wire_id (fst (fst x))) conf /\ ~ In [127] (map (fun x : bytes * bytes * bytes => fst (fst x)) conf) /\ load_manufacturers conf = Ok l).
  { intros c4 ms s l C F L. rewrite (file_loads c4 ms s C) in L; [|eapply Forall_impl; [|exact F]; cbv beta; intros m []; repeat constructor; unfold is_byte; lia].
    eexists. split; [|split; [|exact L]].
    - clear - F. induction F as [|m ms W _ IH]; [constructor|]. cbn [map]. constructor; [|exact IH]. cbn [fst]. apply looked_up, W.
    - clear - F. induction F as [|m ms W _ IH]; [intros []|]. cbn [map In fst]. intros [E|E]; [|exact (IH E)]. exact (proj2 (looked_up c4 _ W) E). }
  intros c4 c4' ms ms' s s' l l' C C' F F' L L'. destruct (X _ _ _ _ C F L) as (conf & W & N & E). destruct (X _ _ _ _ C' F' L') as (conf' & W' & N' & E').
  apply (conf_ids c4 c4' conf conf' l l' W W' E E'). tauto.
Qed.

(** ** The command line *)

Lemma c4_first : forall c r, parse_flags (flagset c) (str "--C4" :: r) = match parse_flags (flagset c) r with Parsed vs a => Parsed ((str "C4", VBool true) :: vs) a | Quit q => Quit q end.
Proof. intros [] r; reflexivity. Qed.
Lemma skip_string : forall vs, string_flag (str "out") ((str "C4", VBool true) :: vs) = string_flag (str "out") vs.
Proof. intro vs. unfold string_flag. cbn [last_value]. destruct (last_value (str "out") vs); reflexivity. Qed.
Lemma skip_int : forall vs, int_flag (str "semitones") ((str "C4", VBool true) :: vs) = int_flag (str "semitones") vs.
Proof. intro vs. unfold int_flag. cbn [last_value]. destruct (last_value (str "semitones") vs); reflexivity. Qed.

Theorem c4_runs : forall w d n args, (forall i r, d i = Some r -> is_bytes r) -> In n [str "transpose"; str "assemble"; str "click"; str "humanise"] ->
  run w d (n :: str "--C4" :: args) = run w d (n :: args).
Proof.
  intros w d n args B I.
  assert (W : forall c c', same_wire_ids (Env c manufacturers) (Env c' manufacturers)) by (intros c c'; apply ids_wire, middle_c_ids; reflexivity).
  assert (J : forall c c', same_ids (Env c manufacturers) (Env c' manufacturers)) by (intros c c'; apply middle_c_ids; reflexivity).
  assert (C : exists c, choose (n :: str "--C4" :: args) = (c, str "--C4" :: args) /\ choose (n :: args) = (c, args) /\ In c [Transpose_; Assemble_; Click_; Humanise_]).
  { cbn [In] in I. destruct I as [<-|[<-|[<-|[<-|[]]]]]; [exists Transpose_|exists Assemble_|exists Click_|exists Humanise_]; (split; [reflexivity|split; [reflexivity|cbn; tauto]]). }
  destruct C as (c & C1 & C2 & C). unfold run. rewrite C1, C2, c4_first. destruct (parse_flags (flagset c) args) as [vs rest|q]; [|reflexivity]. unfold execute. rewrite skip_string, skip_int.
  cbn [In] in C. destruct C as [<-|[<-|[<-|[<-|[]]]]].
  - apply runs_same; [apply W|intros r; apply B].
  - apply assemble_runs_same, J.
  - eapply (runs_same w d _ _ _ _ 0); [apply W|intros r; apply B].
  - eapply (runs_same w d _ _ [] _ 0); [apply W|intros r; apply B].
Qed.

(** ** The statements of C97 and C98 *)

Theorem middle_c_read : forall a b r, env_manufacturers a = env_manufacturers b -> is_bytes r -> alike same_but_names (decode a r) (decode b r).
Proof. intros a b r H B. apply decode_rel; [apply ids_wire, middle_c_ids, H|exact B]. Qed.
Theorem middle_c_assembled : forall a b v, env_manufacturers a = env_manufacturers b -> assemble_json a v = assemble_json b v.
Proof. intros a b v H. apply assemble_json_same, middle_c_ids, H. Qed.

Theorem conf_read : forall c4 c4' ms ms' s s' l l' r, configuration ms s -> configuration ms' s' ->
  Forall (fun m => wire_id (fst (fst m))) ms -> Forall (fun m => wire_id (fst (fst m))) ms' ->
  load_text (Env c4 manufacturers) s = Ok l -> load_text (Env c4' manufacturers) s' = Ok l' -> is_bytes r ->
  alike same_but_names (decode (add_manufacturers (Env c4 manufacturers) l) r) (decode (add_manufacturers (Env c4' manufacturers) l') r).
Proof. intros c4 c4' ms ms' s s' l l' r C C' F F' L L' B. apply decode_rel; [exact (files_ids _ _ _ _ _ _ _ _ C C' F F' L L')|exact B]. Qed.

Theorem conf_runs : forall c4 c4' ms ms' s s' l l' w d out file n, configuration ms s -> configuration ms' s' ->
  Forall (fun m => wire_id (fst (fst m))) ms -> Forall (fun m => wire_id (fst (fst m))) ms' ->
  load_text (Env c4 manufacturers) s = Ok l -> load_text (Env c4' manufacturers) s' = Ok l' -> (forall i r, d i = Some r -> is_bytes r) ->
  let a := add_manufacturers (Env c4 manufacturers) l in let b := add_manufacturers (Env c4' manufacturers) l' in
  run_transpose w d a out file n = run_transpose w d b out file n /\ run_click w d a out file = run_click w d b out file /\ run_humanise w d a file = run_humanise w d b file.
Proof. intros c4 c4' ms ms' s s' l l' w d out file n C C' F F' L L' B. apply runs_same; [exact (files_ids _ _ _ _ _ _ _ _ C C' F F' L L')|intro r; apply B]. Qed.
