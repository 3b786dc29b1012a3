(** * ExportProofs: the exported document says the file. *)
From Verif Require Import Base Strings Tables Event Marshal Track File SpecVlq SpecText SpecEvent SpecTrack SpecDecoded SpecAssemble SpecRead SpecJson SpecJsonEvent SpecSource SpecExport
  Utf8 Hex Manufacturer Assemble Json JsonText SpecJsonText Utf8Proofs DecodedProofs NoteProofs ReassembleProofs JsonProofs JsonFileProofs JsonReadProofs JsonExportProofs JsonEventProofs SourceProofs.

Lemma runes_repaired : forall s, is_bytes s -> repaired s (concat (runes s)).
Proof.
  intro s. remember (length s) as n eqn:E. assert (L : (length s <= n)%nat) by lia. clear E. revert s L.
  induction n as [|n IH]; intros s L B; (destruct s as [|b0 r0]; [constructor|]); cbn [length] in L; [lia|].
  inversion B as [|? ? B0 B1]; subst. unfold is_byte in B0.
  destruct (runes_step b0 r0 ltac:(lia)) as [(cp & c & r & U & Q & R)|[N R]].
  - rewrite R. cbn [concat]. rewrite Q in *. pose proof (utf8_nonempty _ _ U). apply (rp_char cp); [exact U|]. apply IH.
    + assert (length (b0 :: r0) = length (c ++ r)) by congruence. rewrite app_length in *. cbn [length] in *. lia.
    + apply Forall_app in B. apply B.
  - rewrite R. cbn [concat]. change (replacement ++ concat (runes r0)) with (239 :: 191 :: 189 :: concat (runes r0)). apply rp_bad; [exact N|]. apply IH; [lia|exact B1].
Qed.

Lemma jback_said : forall env e e', decoded_body env (e_body e) -> jback e e' -> said e e'.
Proof.
  intros env e e' D (A & _ & I). split; [exact A|]. destruct (e_body e) eqn:E; cbn [imported] in I; try exact I.
  - eexists. split; [exact I|]. apply runes_repaired. cbn in D. apply D.
  - cbn in D. destruct D as [_ ->]. exact I.
Qed.

Lemma said_tracks : forall env ts jts,
  Forall2 (fun t jt => jt_tag jt = Some (str "MTrk") /\ jt_events jt = map marshal_json (t_events t)) ts jts ->
  Forall (fun t => Forall (fun e => legal_header e /\ 0 <= e_delta e < 4294967296 /\ decoded_body env (e_body e)) (t_events t) /\ Forall (fun e => stable env (e_body e)) (t_events t)) ts ->
  exists ess, Forall2 (fun t es => fst t = Some (str "MTrk") /\ Forall2 (json_says (env_manufacturers env) (middle_octave env)) (snd t) es) (map plain jts) ess /\
    Forall2 (fun t es => Forall2 said (t_events t) es) ts ess.
Proof.
  intros env ts jts F. induction F as [|t jt ts jts (A & B) F IH]; intros H; [exists []; split; constructor|].
  inversion H as [|? ? (H1 & H2) H']; subst. destruct (IH H') as (ess & X & Y). destruct (each_event env _ H1 H2) as (es1 & E1 & G1).
  exists (es1 :: ess). cbn [map]. split; constructor; auto.
  - split; [exact A|]. cbn [plain snd]. rewrite B. apply (each_is _ (unmarshal_json env) _ (json_reads env)). exact E1.
  - clear - G1 H1. induction G1 as [|e e' es es' G _ IH]; [constructor|]. inversion H1 as [|? ? (_ & _ & D) H1']; subst. constructor; [|auto]. eapply jback_said; eauto.
Qed.

(** The ticks of a quarter note that an SMPTE header has are 0. *)
Lemma smpte_ppqn : forall env r s h, decode env r = Ok s -> f_mthd s = Some h -> h_smpte h = true -> h_ppqn h = 0.
Proof.
  intros env r s h H Eh. unfold decode in H. destruct (chunks r) as [[|c cs]| | | |]; try discriminate. cbn [bind] in H.
  destruct (unmarshal_mthd c) as [h'| | | |] eqn:E; try discriminate. cbn [bind] in H.
  destruct (decode_tracks env 0 cs) as [ts| | | |]; try discriminate. cbn [bind] in H. destruct (_ =? _); [|discriminate].
  apply Ok_inj in H. subst s. cbn [f_mthd] in Eh. injection Eh as ->. unfold unmarshal_mthd in E.
  repeat match type of E with
  | match ?c with [] => _ | _ :: _ => _ end = _ => destruct c; try discriminate
  | (if ?b then _ else _) = _ => destruct b; try discriminate
  | match ?o with Some _ => _ | None => _ end = _ => destruct o as [[? ?]|]; try discriminate
  | (let x := _ in _) = _ => cbv zeta in E
  end; apply Ok_inj in E; subst h; cbn; congruence.
Qed.

(** The values under a name *)
Lemma under_is : forall name o l, field name (fun a v => Ok (a ++ [v])) [] o = Ok l -> under name o l.
Proof.
  intros name o l H. destruct (under_some name o) as [l' U]. rewrite (field_under _ _ _ _ _ _ U) in H.
  assert (Q : forall l a w, each_over (fun (a : list json) v => Ok (a ++ [v])) a l = Ok w -> w = a ++ l).
  { clear. induction l as [|x l IH]; intros a w; cbn [each_over bind]; [rewrite app_nil_r; intros K; apply Ok_inj in K; auto|]. intros K. apply IH in K. rewrite <- app_assoc in K. exact K. }
  apply Q in H. subst l. exact U.
Qed.

Theorem exported_says : forall c4 conf l r s, Forall (fun x => wire_id (fst (fst x))) conf -> load_manufacturers conf = Ok l ->
  let env := add_manufacturers (Env c4 manufacturers) l in is_bytes r -> decode env r = Ok s ->
  exists h ess, f_mthd s = Some h /\ json_file (env_manufacturers env) (middle_octave env) (export_json s) (h_format h) (if h_smpte h then 0 else h_division h) ess /\
    Forall2 (fun t es => Forall2 said (t_events t) es) (f_tracks s) ess.
Proof.
  intros c4 conf l r s W L env B H.
  destruct (decoded_chunks env r s B H) as (h & Eh & _ & Th & Lh & Fh & Dh & Nh & Nh' & Ph & CT).
  pose proof (decoded_file env r s B H) as DF.
  assert (P : h_ppqn h = (if h_smpte h then 0 else h_division h) /\ 0 <= h_ppqn h < 32768).
  { destruct (h_smpte h) eqn:S; [rewrite (smpte_ppqn env r s h H Eh S); lia|]. destruct (Ph eq_refl). lia. }
  destruct P as (P1 & P2).
  destruct (tracks_read (f_tracks s)) as (jts & TR & G); [eapply Forall_impl; [|exact CT]; intros t X; apply X|].
  destruct (said_tracks env (f_tracks s) jts G) as (ess & X & Y).
  { apply Forall_forall. intros t I. rewrite Forall_forall in DF. destruct (DF t I) as (_ & _ & D). split; [exact D|].
    eapply Forall_impl; [|exact D]. intros e (_ & _ & Z). apply (decoded_stable c4 conf l W L). exact Z. }
  exists h, ess. split; [exact Eh|]. split; [|exact Y]. rewrite <- P1.
  set (hv := jmthd h). set (tv := JArr (map jmtrk (f_tracks s))).
  assert (EX : export_json s = JObj [(str "header", hv); (str "tracks", tv)]).
  { unfold export_json, export_json_with. rewrite Eh. reflexivity. }
  rewrite EX. pose proof (header_read_json h Th Fh ltac:(lia)) as HR. fold hv in HR.
  assert (UH : under (str "header") [(str "header", hv); (str "tracks", tv)] [hv]) by (apply under_is; keys; reflexivity).
  assert (UT : under (str "tracks") [(str "header", hv); (str "tracks", tv)] [tv]) by (apply under_is; keys; reflexivity).
  assert (HH : each_over read_header (JHeader None None None) [hv] = Ok (JHeader (Some (str "MThd")) (Some (h_format h)) (Some (h_ppqn h)))).
  { cbn [each_over]. rewrite HR. reflexivity. }
  apply headers_is in HH as (o & TG & F1 & F2 & F3). cbn [jh_tag jh_format jh_ppqn] in F1, F2, F3.
  exists [(str "header", hv); (str "tracks", tv)], [hv], o, [tv], (map plain jts).
  split; [constructor|]. split; [exact UH|]. split; [exact TG|]. split; [apply tag_is, F1|]. split; [apply figure_is, F2|]. split; [apply figure_is, F3|].
  split; [split; [lia|split; [lia|intros; lia]]|]. split; [exact UT|]. split; [|exact X].
  apply tracks_over. exists jts. split; [|reflexivity]. cbn [each_over]. unfold tv. cbn [elements bind]. rewrite TR. reflexivity.
Qed.

(** A document says one file. *)
Theorem says_one : forall env v f d ess f' d' ess', json_file (env_manufacturers env) (middle_octave env) v f d ess -> json_file (env_manufacturers env) (middle_octave env) v f' d' ess' ->
  f' = f /\ d' = d /\ ess' = ess.
Proof.
  intros env v f d ess f' d' ess' (o & lh & r & lt & ts & O & UH & TG & F1 & F2 & F3 & _ & UT & L & E) (o' & lh' & r' & lt' & ts' & O' & UH' & TG' & F1' & F2' & F3' & _ & UT' & L' & E').
  apply object_is in O, O'. assert (o' = o) by congruence. subst o'.
  apply figure_is in F2, F3, F2', F3'. apply tag_is in F1, F1'.
  pose proof (proj2 (headers_is lh (JHeader None None None) (JHeader (Some (str "MThd")) (Some f) (Some d))) (ex_intro _ r (conj TG (conj F1 (conj F2 F3))))) as A.
  pose proof (proj2 (headers_is lh' (JHeader None None None) (JHeader (Some (str "MThd")) (Some f') (Some d'))) (ex_intro _ r' (conj TG' (conj F1' (conj F2' F3'))))) as A'.
  rewrite <- (field_under _ _ _ _ _ _ UH) in A. rewrite <- (field_under _ _ _ _ _ _ UH') in A'. rewrite A in A'. apply Ok_inj in A'.
  split; [congruence|]. split; [congruence|].
  apply tracks_over in L as (js & J & <-). apply tracks_over in L' as (js' & J' & <-). rewrite <- (field_under _ _ _ _ _ _ UT) in J. rewrite <- (field_under _ _ _ _ _ _ UT') in J'.
  assert (js' = js) by congruence. subst js'. clear - E E'. revert ess' E'. induction E as [|t es tl ess (_ & X) E IH]; intros ess' E'; inversion E' as [|? es' ? ess'' (_ & X') E'']; subst; [reflexivity|].
  f_equal; [|apply IH; exact E'']. apply (each_is _ (unmarshal_json env) _ (json_reads env)) in X, X'. congruence.
Qed.

(** ** Two files with the same document *)

Lemma formed_repaired : forall s s', well_formed s -> repaired s s' -> s' = s.
Proof.
  intros s s' W. revert s'. induction W as [|cp c r U W IH]; intros s' R.
  - inversion R as [|cp c r r' U R' E|]; subst; [reflexivity|]. exfalso. pose proof (utf8_nonempty _ _ U). destruct c; [cbn in *; lia|discriminate].
  - pose proof (utf8_nonempty _ _ U) as Lc. inversion R as [E|cp' c' r0 r' U' R' E|b r0 r' N R' E].
    + exfalso. destruct c; [cbn in *; lia|discriminate].
    + assert (c' = c /\ r0 = r) as [-> ->].
      { pose proof (runes_char _ _ r0 U') as A. pose proof (runes_char _ _ r U) as B. rewrite E in A. rewrite A in B. injection B as <- _. split; [reflexivity|]. apply app_inv_head in E. exact E. }
      rewrite (IH _ R'). reflexivity.
    + exfalso. apply (N cp c r U). congruence.
Qed.

Lemma same_values_sym : forall a b, same_values a b -> same_values b a.
Proof. intros a b H. destruct a; cbn in H; try (subst b; cbn; reflexivity); destruct H as (x & -> & E); cbn; eexists; (split; [reflexivity|congruence]). Qed.
Lemma same_values_trans : forall a b c, same_values a b -> same_values b c -> same_values a c.
Proof. intros a b c H K. destruct a; cbn in H; try (subst b; exact K); destruct H as (x & -> & E); cbn in K; destruct K as (y & -> & F); cbn; eexists; (split; [reflexivity|congruence]). Qed.

Lemma said_formed : forall e e', valid_text (e_body e) -> said e e' -> same_values (e_body e) (e_body e').
Proof.
  intros e e' V [_ H]. destruct (e_body e) eqn:E; try exact H. destruct H as (s' & -> & R). cbn in *. rewrite (formed_repaired _ _ V R). reflexivity.
Qed.

Theorem same_document : forall c4 conf l r r' s s', Forall (fun x => wire_id (fst (fst x))) conf -> load_manufacturers conf = Ok l ->
  let env := add_manufacturers (Env c4 manufacturers) l in is_bytes r -> is_bytes r' -> decode env r = Ok s -> decode env r' = Ok s' -> export_json s = export_json s' ->
  Forall (fun t => Forall (fun e => valid_text (e_body e)) (t_events t)) (f_tracks s ++ f_tracks s') ->
  exists h h', f_mthd s = Some h /\ f_mthd s' = Some h' /\ h_format h = h_format h' /\ h_division h = h_division h' /\
    Forall2 (fun t t' => Forall2 (fun e e' => e_delta e = e_delta e' /\ same_values (e_body e) (e_body e')) (t_events t) (t_events t')) (f_tracks s) (f_tracks s').
Proof.
  intros c4 conf l r r' s s' W L env B B' D D' J V. apply Forall_app in V as [V V'].
  destruct (exported_says c4 conf l r s W L B D) as (h & ess & E & T & F). destruct (exported_says c4 conf l r' s' W L B' D') as (h' & ess' & E' & T' & F').
  rewrite J in T. destruct (says_one _ _ _ _ _ _ _ _ T T') as (Q1 & Q2 & ->). exists h, h'. split; [exact E|]. split; [exact E'|]. split; [congruence|].
  split; [clear - J E E'; unfold export_json, export_json_with in J; rewrite E, E' in J; unfold jmthd_with in J; injection J; intros; assumption|]. clear - V V' F F'. revert V V' F'. generalize (f_tracks s'). induction F as [|t es ts ess A F IH]; intros ts' V V' F'; inversion F' as [|t' ? ts2 ? A' F2]; subst; [constructor|].
  apply Forall_cons_iff in V as [V0 V], V' as [V0' V']. constructor; [|apply IH; assumption]. clear - V0 V0' A A'. revert V0 V0' A'. generalize (t_events t').
  induction A as [|e x es xs S0 A IH]; intros es' V V' A'; inversion A' as [|e' ? es2 ? S1 A2]; subst; [constructor|].
  apply Forall_cons_iff in V as [V0 V], V' as [V0' V']. constructor; [|apply IH; assumption]. split; [destruct S0 as [X _], S1 as [Y _]; congruence|].
  eapply same_values_trans; [apply said_formed; eassumption|apply same_values_sym, said_formed; assumption].
Qed.

Theorem export_says : forall c4 conf l r s, conf_bytes conf -> Forall (fun x => wire_id (fst (fst x))) conf -> load_manufacturers conf = Ok l ->
  let env := add_manufacturers (Env c4 manufacturers) l in is_bytes r -> decode env r = Ok s ->
  json_text (export_json s) (export_text s) /\
  exists h ess, f_mthd s = Some h /\ json_file (env_manufacturers env) (middle_octave env) (export_json s) (h_format h) (if h_smpte h then 0 else h_division h) ess /\
    Forall2 (fun t es => Forall2 said (t_events t) es) (f_tracks s) ess.
Proof. intros c4 conf l r s C W L env B D. split; [apply (exported_text c4 conf l r s C L B D)|apply (exported_says c4 conf l r s W L B D)]. Qed.
