(** * JsonFileProofs: a file exported as JSON and assembled again. *)
From Verif Require Import Base Strings Tables Event Marshal Track File SpecVlq SpecText SpecEvent SpecTrack SpecDecoded SpecAssemble SpecRead SpecJson Utf8 Hex Manufacturer Regex Assemble TextAssemble Json
  Utf8Proofs AssembleProofs EncodeProofs FileProofs DecodedProofs EventProofs ReassembleProofs JsonProofs.

(** ** Events *)

(** An event that was read. *)
Definition jback (e e' : event) : Prop := e_delta e' = e_delta e /\ legal_header e' /\ imported (e_body e) (e_body e').

Lemma jback_nth : forall es es1 i e, Forall2 jback es es1 -> nth_error es i = Some e -> exists e1, nth_error es1 i = Some e1 /\ jback e e1.
Proof.
  intros es es1 i e F. revert i. induction F as [|a b es es1 B F IH]; intros [|i] H; try discriminate; cbn [nth_error] in *.
  - inversion H; subst. eauto.
  - apply IH, H.
Qed.

Lemma jback_continues : forall e e1, jback e e1 -> continues e1 <-> continues e.
Proof.
  intros e e1 (_ & _ & B). unfold continues. split; intros (d & f & E).
  - destruct (e_body e); cbn [imported same_values] in B; try (rewrite E in B; discriminate); try (destruct B as (x & B & _); rewrite E in B; discriminate). eauto.
  - rewrite E in B. cbn in B. eauto.
Qed.

(** The body of an event that was left as it was, or marked as the end of a message. *)
Lemma left_as_is : forall (closed : Prop) b b', ~ closed -> imported b b' -> valid_text b -> back_with closed b b'.
Proof.
  intros closed b b' N B V. destruct b; cbn [imported back_with same_values] in *; try exact B.
  - rewrite B, well_formed_runes by exact V. reflexivity.
  - exists single. split; [exact B|]. intuition.
  - exists false. split; [exact B|]. intuition discriminate.
Qed.

Lemma closed_now : forall (closed : Prop) e1 e2 b, closed -> imported b (e_body e1) -> marked true e1 e2 -> valid_text b -> back_with closed b (e_body e2).
Proof.
  intros closed e1 e2 b C B (_ & _ & _ & _ & _ & M) V.
  destruct b; cbn [imported back_with same_values] in *; try (destruct B as (x & B & I)); rewrite B in M; try (rewrite M; eauto; fail).
  - rewrite M, well_formed_runes by exact V. reflexivity.
  - exists true. split; [eauto|]. intuition.
  - exists true. split; [exact M|]. intuition.
Qed.

Lemma jfixed_back : forall es es1, Forall2 jback es es1 -> es <> [] -> Forall (fun e => valid_text (e_body e)) es ->
  exists es2, fixups es1 = Ok es2 /\ events_from_json es es2 /\ Forall legal_header es2.
Proof.
  intros es es1 F NE V. pose proof (same_length _ _ _ _ _ F) as LE.
  assert (NE1 : es1 <> []) by (intros ->; destruct es; [congruence|discriminate]).
  destruct (fixups_spec es1 NE1) as (es2 & X & L & N & Z). exists es2. split; [exact X|].
  assert (K : forall i e e2, nth_error es i = Some e -> nth_error es2 i = Some e2 -> e_delta e2 = e_delta e /\ legal_header e2 /\
    back_with (exists n, nth_error es (S i) = Some n /\ ~ continues n) (e_body e) (e_body e2)).
  { intros i e e2 E E2. destruct (jback_nth _ _ _ _ F E) as (e1 & E1 & B). pose proof B as (B1 & B2 & B3).
    assert (VE : valid_text (e_body e)) by (rewrite Forall_forall in V; apply V; eapply nth_error_In; exact E).
    destruct (nth_error es (S i)) as [n|] eqn:En.
    - destruct (jback_nth _ _ _ _ F En) as (n1 & En1 & Bn). destruct (N i e1 n1 e2 E1 En1 E2) as [N1 N2].
      pose proof (jback_continues _ _ Bn) as Q. destruct (is_continuation n1) eqn:C.
      + apply is_continuation_spec in C. rewrite (N1 C). split; [exact B1|]. split; [exact B2|]. apply left_as_is; [|exact B3|exact VE].
        intros (n' & E' & NC). injection E' as <-. apply NC, Q, C.
      + assert (NC : ~ continues n1) by (intro Y; apply is_continuation_spec in Y; congruence). pose proof (N2 NC) as M. split; [destruct M as (_ & M & _); congruence|].
        split; [eapply marked_legal; eassumption|]. eapply closed_now; [|exact B3|exact M|exact VE]. exists n. split; [reflexivity|]. intro Y. apply NC, Q, Y.
    - assert (I : i = (length es1 - 1)%nat).
      { apply nth_error_None in En. assert (nth_error es i <> None) by congruence. apply nth_error_Some in H. lia. }
      subst i. pose proof (Z e1 e2 E1 E2) as ->. split; [exact B1|]. split; [exact B2|]. apply left_as_is; [|exact B3|exact VE]. intros (n' & E' & _). discriminate. }
  split.
  - split; [congruence|]. intros i e e' A B. destruct (K i e e' A B) as (K1 & _ & K2). split; [exact K1|exact K2].
  - apply Forall_forall. intros e2 I. apply In_nth_error in I as [i I]. destruct (nth_error es i) as [e|] eqn:E.
    + apply (K i e e2 E I).
    + apply nth_error_None in E. assert (nth_error es2 i <> None) by congruence. apply nth_error_Some in H. lia.
Qed.

(** The values decide what is legal and what is written. *)
Lemma values_view : forall b b', same_values b b' -> view b' = view b /\ (legal_body b -> legal_body b').
Proof.
  intros b b' H. destruct b; cbn [same_values] in H; try (rewrite H; split; [reflexivity|auto]); destruct H as (x & -> & E); cbn [view legal_body]; rewrite E; split; auto.
Qed.

Lemma from_json_cons : forall e es l', events_from_json (e :: es) l' -> exists e' es', l' = e' :: es' /\ events_from_json es es' /\ e_delta e' = e_delta e /\
  back_with (exists n, nth_error es 0 = Some n /\ ~ continues n) (e_body e) (e_body e').
Proof.
  intros e es l' [L H]. destruct l' as [|e' es']; [discriminate|]. exists e', es'. split; [reflexivity|]. split.
  - split; [cbn [length] in L; lia|]. intros i a b A B. exact (H (S i) a b A B).
  - exact (H O e e' eq_refl eq_refl).
Qed.

Lemma jchained_back : forall es es' op, chained op es -> events_from_json es es' -> Forall legal_event es -> Forall legal_header es' ->
  Forall (fun e => match e_body e with SysExContinuation _ f => f = false | _ => True end) es ->
  sysex_sequence op (map e_body es') /\ Forall legal_event es' /\ contents es' = contents es /\
  (forall env, faithful_events env es -> faithful_events env es').
Proof.
  induction es as [|e es IH]; intros l' op C B L H Z.
  - destruct B as [B _]. destruct l'; [|discriminate]. split; [exact I|]. split; [constructor|]. split; [reflexivity|]. intros env _. constructor.
  - destruct (from_json_cons _ _ _ B) as (e' & es' & -> & B' & D & BW). inversion L as [|? ? LE L']; subst. inversion H as [|? ? HE H']; subst.
    inversion Z as [|? ? ZE Z']; subst.
    assert (K : exists op', chained op' es /\ (sysex_sequence op' (map e_body es') -> sysex_sequence op (e_body e' :: map e_body es')) /\ legal_body (e_body e') /\
      forget_end (view (e_body e')) = forget_end (view (e_body e)) /\ (forall env, ids_faithful env (view (e_body e)) -> ids_faithful env (view (e_body e')))).
    { destruct LE as (_ & _ & LB). cbn [chained] in C.
      destruct (e_body e) eqn:EE; cbn [back_with] in BW;
        try (destruct C as [-> C]; exists false; split; [exact C|]; pose proof (values_view _ _ BW) as [V1 V2]; rewrite V1;
             split; [intros X; cbn [same_values] in BW; first [rewrite BW|destruct BW as (x & -> & _)]; cbn [sysex_sequence]; first [exact X|split; [reflexivity|exact X]]|];
             split; [apply V2, LB|]; split; [reflexivity|auto]).
      - (* message *) destruct C as (-> & NE & C). rename single into sg. destruct BW as (fin & BW & EF).
        assert (F : fin = sg).
        { pose proof (chained_head _ _ C NE) as Q. destruct fin, sg; cbn in Q; try reflexivity; exfalso; intuition discriminate. }
        subst fin. pose proof (values_view _ _ BW) as [V1 V2]. rewrite V1. exists (negb sg). split; [exact C|].
        destruct BW as (m' & EQ & _). split; [intros X; rewrite EQ; split; [reflexivity|exact X]|]. split; [apply V2, LB|]. split; [reflexivity|auto].
      - (* continuation *) subst. destruct C as (-> & NE & C). destruct BW as (fin & -> & EF). exists (negb fin). split.
        + destruct C as [C|C]; pose proof (chained_head _ _ C NE) as Q; rewrite <- EF in Q; destruct fin; cbn; try exact C; exfalso; intuition discriminate.
        + split; [intros X; split; [reflexivity|exact X]|]. split; [|split; [reflexivity|auto]].
          cbn [legal_body] in *. destruct LB as (L1 & L2 & L3). split; [exact L1|]. split; [exact L2|]. right. destruct L3; [discriminate|assumption]. }
    destruct K as (op' & K1 & K2 & K3 & K4 & K5). destruct (IH es' op' K1 B' L' H' Z') as (I1 & I2 & I3 & I4).
    split; [apply K2, I1|]. split; [constructor; [|exact I2]; split; [exact HE|]; rewrite D; split; [apply LE|exact K3]|]. split.
    + unfold contents in *. cbn [map]. rewrite I3, D, K4. reflexivity.
    + intros env F. inversion F; subst. constructor; [apply K5; assumption|apply I4; assumption].
Qed.

(** ** Tracks *)

Lemma each_event : forall env es, Forall (fun e => legal_header e /\ 0 <= e_delta e < 4294967296 /\ decoded_body env (e_body e)) es -> Forall (fun e => stable env (e_body e)) es ->
  exists es1, each (unmarshal_json env) (map marshal_json es) = Ok es1 /\ Forall2 jback es es1.
Proof.
  intros env es F S. induction F as [|e es (A & B & C) F IH]; [exists []; split; [reflexivity|constructor]|]. inversion S as [|? ? S1 S2]; subst.
  destruct (IH S2) as (es1 & E & G). destruct (json_event env e A B C S1) as (e' & U & E1 & E2 & E3). exists (e' :: es1). cbn [map each]. rewrite U. cbn [bind]. rewrite E.
  split; [reflexivity|]. constructor; [|exact G]. split; [exact E1|]. split; [exact E2|exact E3].
Qed.

Lemma track_read : forall t, t_tag t = str "MTrk" -> exists n, read_track (jmtrk t) = Ok (JTrack (Some (str "MTrk")) n (map marshal_json (t_events t))).
Proof.
  intros t T. unfold read_track, jmtrk, jmtrk_with. cbn [object bind]. rewrite T. exists None. keys. cbn [read_pointer jstring read_string bind]. keys. cbn [elements bind]. keys.
  change (concat (runes (str "MTrk"))) with (str "MTrk"). reflexivity.
Qed.

Lemma tracks_read : forall ts, Forall (fun t => t_tag t = str "MTrk") ts ->
  exists jts, each read_track (map jmtrk ts) = Ok jts /\ Forall2 (fun t jt => jt_tag jt = Some (str "MTrk") /\ jt_events jt = map marshal_json (t_events t)) ts jts.
Proof.
  intros ts F. induction F as [|t ts T F IH]; [exists []; split; [reflexivity|constructor]|]. destruct IH as (jts & E & G). destruct (track_read t T) as (n & R).
  eexists (_ :: jts). cbn [map each]. rewrite R. cbn [bind]. rewrite E. split; [reflexivity|]. constructor; [|exact G]. split; reflexivity.
Qed.

Lemma tracks_back : forall env ts jts k,
  Forall2 (fun t jt => jt_tag jt = Some (str "MTrk") /\ jt_events jt = map marshal_json (t_events t)) ts jts ->
  Forall (fun t => Forall (fun e => legal_header e /\ 0 <= e_delta e < 4294967296 /\ decoded_body env (e_body e)) (t_events t) /\ Forall (fun e => stable env (e_body e)) (t_events t) /\
    t_events t <> [] /\ Forall (fun e => valid_text (e_body e)) (t_events t)) ts ->
  exists ts', json_tracks env k jts = Ok ts' /\
    Forall2 (fun t t' => events_from_json (t_events t) (t_events t') /\ Forall legal_header (t_events t') /\ t_tag t' = str "MTrk") ts ts'.
Proof.
  intros env ts jts k F. revert k. induction F as [|t jt ts jts (A & B) F IH]; intros k H; [exists []; split; [reflexivity|constructor]|].
  inversion H as [|? ? (H1 & H2 & H3 & H4) H']; subst. destruct (IH (k + 1) H') as (ts' & E & G). cbn [json_tracks].
  destruct (each_event env _ H1 H2) as (es1 & E1 & G1). destruct (jfixed_back _ _ G1 H3 H4) as (es2 & X & EB & LH).
  unfold json_mtrk. rewrite A, B, bytes_eqb_refl. cbn [negb]. rewrite E1. cbn [bind]. rewrite X. cbn [bind]. rewrite E. cbn [bind].
  eexists. split; [reflexivity|]. constructor; [|exact G]. split; [exact EB|]. split; [exact LH|reflexivity].
Qed.

(** ** Files *)

Lemma header_read_json : forall h, h_tag h = str "MThd" -> 0 <= h_format h <= 2 -> 0 <= h_ppqn h < 65536 ->
  read_header (JHeader None None None) (jmthd h) = Ok (JHeader (Some (str "MThd")) (Some (h_format h)) (Some (h_ppqn h))).
Proof.
  intros h T F P. unfold read_header, jmthd, jmthd_with. cbn [object bind jh_tag jh_format jh_ppqn]. rewrite T. unfold read_pointer. keys. cbn [jstring read_string bind]. keys.
  rewrite read_int_back by lia. cbn [bind]. keys. rewrite read_int_back by lia. cbn [bind]. keys. reflexivity.
Qed.

(** In a file of the program the manufacturers are known by their IDs. *)
Lemma decoded_stable : forall c4 conf l, Forall (fun x => wire_id (fst (fst x))) conf -> load_manufacturers conf = Ok l ->
  let env := add_manufacturers (Env c4 manufacturers) l in forall b, decoded_body env b -> stable env b.
Proof.
  intros c4 conf l W L env b DB. destruct b; try exact I; cbn [decoded_body stable] in *.
  - destruct DB as (_ & id & _ & WI & ->). apply (program_ids c4 conf l id W L). left. exact WI.
  - destruct DB as (_ & id & WI & ->). apply (program_ids c4 conf l [id] W L). unfold is_byte in WI. destruct (Z.eq_dec id 0) as [->|]; [right; reflexivity|].
    left. apply wi_one. lia.
Qed.

Definition json_ready (t : mtrk) : Prop := t_events t <> [] /\ Forall (fun e => valid_text (e_body e)) (t_events t).

(** What the assembler encodes is what was exported. *)
Theorem reassembled_json : forall c4 conf l r s, Forall (fun x => wire_id (fst (fst x))) conf -> load_manufacturers conf = Ok l ->
  let env := add_manufacturers (Env c4 manufacturers) l in is_bytes r -> decode env r = Ok s ->
  (forall h, f_mthd s = Some h -> h_smpte h = false) -> Forall json_ready (f_tracks s) ->
  exists h h' ts, f_mthd s = Some h /\ assemble_json env (export_json s) = encode (SMF (Some h') ts) /\
    h_tag h' = h_tag h /\ h_length h' = h_length h /\ h_format h' = h_format h /\ h_tracks h' = h_tracks h /\ h_division h' = h_division h /\
    Forall2 (fun t t' => events_from_json (t_events t) (t_events t') /\ Forall legal_header (t_events t') /\ t_tag t' = str "MTrk") (f_tracks s) ts.
Proof.
  intros c4 conf l r s W L env B H NS J.
  destruct (decoded_chunks env r s B H) as (h & Eh & _ & Th & Lh & Fh & Dh & Nh & Nh' & Ph & CT). destruct (Ph (NS h Eh)) as (P1 & P2).
  pose proof (decoded_file env r s B H) as DF.
  destruct (tracks_read (f_tracks s)) as (jts & TR & G); [eapply Forall_impl; [|exact CT]; intros t X; apply X|].
  destruct (tracks_back env (f_tracks s) jts 0 G) as (ts & TB & F2).
  { apply Forall_forall. intros t I. rewrite Forall_forall in DF, J. destruct (DF t I) as (_ & _ & D). destruct (J t I) as (J1 & J2). split; [exact D|].
    split; [|split; assumption]. eapply Forall_impl; [|exact D]. intros e (_ & _ & X). apply (decoded_stable c4 conf l W L). exact X. }
  pose proof (same_length _ _ _ _ _ F2) as LE.
  exists h, (MThd (str "MThd") 6 (h_format h) (zlen ts mod 65536) (h_ppqn h) (h_ppqn h) false 0 0 false []), ts. split; [exact Eh|]. split.
  - unfold assemble_json, export_json, export_json_with. change (jmthd_with jstring) with jmthd. change (jmtrk_with jstring) with jmtrk. rewrite Eh. cbn [object bind]. keys. rewrite header_read_json by (try assumption; lia). cbn [bind]. keys. cbn [elements bind].
    rewrite TR. cbn [bind]. keys. unfold json_mthd. cbn [jh_tag jh_format jh_ppqn]. rewrite bytes_eqb_refl. cbn [negb].
    replace (negb ((h_format h =? 0) || (h_format h =? 1) || (h_format h =? 2))) with false by lia.
    destruct (division_metrical (h_ppqn h)) as [M1 M2]; [lia|]. rewrite M1. change (0 =? 32768) with false. cbn [andb]. unfold make_mthd.
    replace (negb ((h_format h =? 0) || (h_format h =? 1) || (h_format h =? 2))) with false by lia.
    rewrite M1, M2. change (0 =? 0) with true. cbv iota. cbn [bind]. rewrite TB. reflexivity.
  - cbn [h_tag h_length h_format h_tracks h_division]. split; [congruence|]. split; [congruence|]. split; [reflexivity|]. split; [|split; [congruence|exact F2]].
    rewrite <- Nh. unfold zlen in *. rewrite <- LE. rewrite Z.mod_small by lia. reflexivity.
Qed.

(** A file that survives *)
Theorem json_roundtrip : forall c4 conf l r s, Forall (fun x => wire_id (fst (fst x))) conf -> load_manufacturers conf = Ok l ->
  let env := add_manufacturers (Env c4 manufacturers) l in is_bytes r -> decode env r = Ok s ->
  (forall h, f_mthd s = Some h -> h_smpte h = false) -> Forall json_ready (f_tracks s) ->
  Forall (fun t => Forall legal_event (t_events t) /\ chained false (t_events t) /\ faithful_events env (t_events t)) (f_tracks s) ->
  exists bs, assemble_json env (export_json s) = Ok bs /\ (zlen bs < 4294967296 ->
    exists s' h h', decode env bs = Ok s' /\ f_mthd s = Some h /\ f_mthd s' = Some h' /\ same_header h h' /\
      map (fun t => map ev_view (t_events t)) (f_tracks s') = map (fun t => map ev_view (t_events t)) (f_tracks s)).
Proof.
  intros c4 conf l r s W L env Hr H NS J LT.
  destruct (reassembled_json c4 conf l r s W L Hr H NS J) as (h & h' & ts & Eh & EA & T1 & T2 & T3 & T4 & T5 & F). fold env in EA.
  pose proof (decoded_file env r s Hr H) as DF.
  assert (G : Forall2 (fun t t' => t_tag t' = str "MTrk" /\ legal_events (t_events t') /\ faithful_events env (t_events t') /\ contents (t_events t') = map ev_view (t_events t)) (f_tracks s) ts).
  { clear - F LT DF. revert LT DF. induction F as [|t t' tl tl' (A & B & C) F IH]; intros LT DF; [constructor|].
    inversion LT as [|? ? (L1 & L2 & L3) LT']; subst. inversion DF as [|? ? (_ & _ & D0) DF']; subst.
    assert (Z : Forall (fun e => match e_body e with SysExContinuation _ f => f = false | _ => True end) (t_events t)).
    { eapply Forall_impl; [|exact D0]. intros e (_ & _ & DB). destruct (e_body e); auto. apply DB. }
    constructor; [|apply IH; assumption]. destruct (jchained_back _ _ false L2 A L1 B Z) as (S1 & S2 & S3 & S4).
    split; [exact C|]. split; [split; assumption|]. split; [apply S4, L3|]. rewrite S3. unfold contents. apply map_ext_in. intros e I.
    rewrite Forall_forall in Z. specialize (Z e I). unfold ev_view. f_equal. destruct (e_body e); try reflexivity. rewrite Z. reflexivity. }
  destruct (rewritten env r s h h' ts Hr H Eh (NS h Eh) T1 T2 T3 T4 T5 G) as (bs & E & R). exists bs. split; [congruence|exact R].
Qed.
