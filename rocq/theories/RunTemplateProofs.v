(** * RunTemplateProofs: disassembly from the command line (C86). *)
From Coq Require Import Permutation.
From Verif Require Import Base Strings Tables Event Track File Template SpecTemplate TemplateProofs TemplateLoad TemplateLoadProofs TemplateSamples
  Flags Paths Cli SpecCli SpecRun SpecRunTemplate FlagProofs CliProofs CliTripProofs RunProofs RunCommandProofs.

Theorem disassemble_run : forall w d args vs file c4 out r s, asked (str "disassemble") args vs file -> bool_setting (str "C4") vs c4 -> string_setting (str "out") vs out ->
  string_setting (str "templates") vs [] -> bool_setting (str "split") vs false ->
  holds w d file r -> is_bytes r -> decode (Env c4 manufacturers) r = Ok s -> f_tracks s <> [] ->
  exists ts text, new_disassemble = Some ts /\ print ts (str "document") (smf_data s) = (text, Done) /\ delivered w d out text (run w d (str "disassemble" :: args)).
Proof.
  intros w d args vs file c4 out r s A S4 So St Ss H B D T.
  destruct (same_files w d Disassemble_ args vs file _ A) with (c4 := c4) (out := out) as (rest & E & R & E4 & Eo); [cbn; auto 10|assumption|assumption|].
  rewrite R. unfold execute. rewrite E, E4, Eo, (string_setting_flag _ _ _ St), (bool_setting_flag _ _ _ Ss). unfold run_disassemble. rewrite (loaded_holds _ _ _ _ _ _ _ H D T).
  cbn [bytes_eqb]. destruct (decoded_listing _ r s B D) as (ts & text & N & P & Et). exists ts, text. split; [exact N|]. split; [exact P|].
  cbn [t_document standard_templates]. rewrite Et. apply created_delivered.
Qed.

Theorem templates_run : forall w d args vs file c4 out r s tmpl b us ts0 ts text, asked (str "disassemble") args vs file -> bool_setting (str "C4") vs c4 ->
  string_setting (str "out") vs out -> string_setting (str "templates") vs tmpl -> bool_setting (str "split") vs false -> knows_templates w ->
  holds w d file r -> is_bytes r -> decode (Env c4 manufacturers) r = Ok s -> f_tracks s <> [] ->
  holds w d tmpl b -> read_templates b = Ok us -> plain_templates us -> new_disassemble = Some ts0 -> load_templates ts0 us = Some ts ->
  file_written (shown_for us ts) s = (text, Done) -> delivered w d out text (run w d (str "disassemble" :: args)).
Proof.
  intros w d args vs file c4 out r s tmpl b us ts0 ts text A S4 So St Ss (order & P & K) H B D T [Nt Rt] U Pl N L F.
  destruct (same_files w d Disassemble_ args vs file _ A) with (c4 := c4) (out := out) as (rest & E & R & E4 & Eo); [cbn; auto 10|assumption|assumption|].
  rewrite R. unfold execute. rewrite E, E4, Eo, (string_setting_flag _ _ _ St), (bool_setting_flag _ _ _ Ss). unfold run_disassemble. rewrite (loaded_holds _ _ _ _ _ _ _ H D T).
  cbv zeta. rewrite bytes_eqb_false by exact Nt. unfold read_file. rewrite bytes_eqb_false by exact Nt. rewrite Rt.
  destruct (K b) as [[X _]|(us' & U' & X)]; [destruct (X us U)|]. rewrite U in U'. injection U' as <-.
  destruct (X s text) as (t & -> & Et).
  - rewrite (listing_order b us U (fun a c I => proj1 (Pl a c I)) order (fun l => l) (P us) (Permutation_refl _)). unfold listing. rewrite N, U, L. f_equal.
    rewrite (proj1 (file_listing b us ts0 ts U Pl N L)). exact F.
  - rewrite Et. apply created_delivered.
Qed.

Theorem no_templates_run : forall w d args vs file c4 r s tmpl b, asked (str "disassemble") args vs file -> bool_setting (str "C4") vs c4 ->
  string_setting (str "templates") vs tmpl -> knows_templates w ->
  holds w d file r -> decode (Env c4 manufacturers) r = Ok s -> f_tracks s <> [] ->
  tmpl <> [] -> d (w_file w tmpl) = None \/ (d (w_file w tmpl) = Some b /\ forall us, read_templates b <> Ok us) -> untouched d (Exit 1) (run w d (str "disassemble" :: args)).
Proof.
  intros w d args vs file c4 r s tmpl b A S4 St (order & P & K) H D T Nt X.
  destruct (asked_run w d _ Disassemble_ args vs file A) as (rest & E & R); [cbn; auto 10|].
  rewrite R. unfold execute. rewrite E, (bool_setting_flag _ _ _ S4), (string_setting_flag _ _ _ St). unfold run_disassemble. rewrite (loaded_holds _ _ _ _ _ _ _ H D T).
  cbv zeta. rewrite bytes_eqb_false by exact Nt. unfold read_file. rewrite bytes_eqb_false by exact Nt. destruct X as [X|(X & Y)]; rewrite X.
  - unfold untouched. cbn. auto.
  - destruct (K b) as [[_ Z0]|(us & U & _)]; [|destruct (Y us U)]. rewrite Z0. unfold untouched. cbn. auto.
Qed.
