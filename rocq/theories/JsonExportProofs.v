(** * JsonExportProofs: exported files can be written as JSON text and read back. *)
From Verif Require Import Manufacturer SpecAssemble SpecRead SpecJson JsonFileProofs SpecDecimal Base Strings Tables SpecVlq Event SpecEvent SpecPacket SpecKey SpecText Utf8 Utf8Proofs SpecDecoded Parse Track File
  SpecTrack FileProofs DecodedProofs Hex Json JsonText SpecJsonText JsonTextProofs JsonWriteProofs.

Definition jok (k : Z) (v : json) : Prop := writable v /\ depth v <= k.

Lemma jok_le : forall k k' v, jok k v -> k <= k' -> jok k' v.
Proof. intros k k' v [W D] L. split; [exact W|lia]. Qed.
Lemma jok_num : forall k n, 0 <= k -> jok k (JNum n).
Proof. intros. split; [exact I|cbn; lia]. Qed.
Lemma jok_bool : forall k n, 0 <= k -> jok k (JBool n).
Proof. intros. split; [exact I|cbn; lia]. Qed.
Lemma jok_string : forall k s, 0 <= k -> is_bytes s -> jok k (JStr s).
Proof. intros. split; [assumption|cbn; lia]. Qed.
Lemma jok_arr : forall k l, 0 <= k -> Forall (jok k) l -> jok (k + 1) (JArr l).
Proof.
  intros k l Hk F. assert (G : fold_right (fun v p => writable v /\ p) True l /\ fold_right (fun v m => Z.max (depth v) m) 0 l <= k).
  { induction F as [|x l [W D] F [I1 I2]]; cbn [fold_right]; [split; [exact I|lia]|]. split; [split; assumption|lia]. }
  split; [exact (proj1 G)|]. cbn [depth]. lia.
Qed.
Lemma jok_obj : forall k o, 0 <= k -> Forall (fun f => well_formed (fst f) /\ jok k (snd f)) o -> jok (k + 1) (JObj o).
Proof.
  intros k o Hk F. assert (G : fold_right (fun f p => well_formed (fst f) /\ writable (snd f) /\ p) True o /\ fold_right (fun f m => Z.max (depth (snd f)) m) 0 o <= k).
  { induction F as [|x l [N [W D]] F [I1 I2]]; cbn [fold_right]; [split; [exact I|lia]|]. split; [repeat split; assumption|lia]. }
  split; [exact (proj1 G)|]. cbn [depth]. lia.
Qed.
Lemma check_ascii : forall s, forallb (fun b => (0 <=? b) && (b <? 128)) s = true -> well_formed s.
Proof.
  induction s as [|b s IH]; intro H; [constructor|]. cbn [forallb] in H. apply andb_true_iff in H as [H1 H2].
  apply (wf_cons b [b]); [apply utf8_1; lia|auto].
Qed.

Lemma controller_ok : forall id, is_bytes (c_name (lookup_controller id)).
Proof.
  intro id. unfold lookup_controller.
  assert (F : forallb (fun x => forallb (fun b => (0 <=? b) && (b <? 256)) (c_name (snd x))) controllers = true) by (vm_compute; reflexivity).
  induction controllers as [|[k c] l IH]; cbn [assoc]; [apply check_bytes; reflexivity|].
  cbn [forallb snd] in F. apply andb_true_iff in F as [F1 F2]. destruct (id =? k); [apply check_bytes; exact F1|apply IH; exact F2].
Qed.

Lemma key_ok : forall minor acc, key_range acc -> is_bytes (key_name minor acc).
Proof.
  intros minor acc H. apply check_bytes. unfold key_range in H.
  assert (A : In acc [-7; -6; -5; -4; -3; -2; -1; 0; 1; 2; 3; 4; 5; 6; 7]) by (cbn [In]; lia).
  cbn [In] in A. destruct minor; repeat (destruct A as [<-|A]; [vm_compute; reflexivity|]); destruct A.
Qed.

Lemma nums_ok : forall k (l : list Z), 0 <= k -> Forall (jok k) (map JNum l).
Proof. intros k l H. induction l; constructor; [apply jok_num; exact H|assumption]. Qed.

Lemma jhex_ok : forall d, jok 1 (jhex d).
Proof. intro d. apply (jok_arr 0); [lia|]. apply nums_ok. lia. Qed.

Ltac fields := repeat lazymatch goal with
  | |- Forall _ (_ :: _) => constructor; [cbn [fst snd]; split; [apply check_ascii; vm_compute; reflexivity|]|]
  | |- Forall _ [] => constructor
  end.

Lemma jmanufacturer_ok : forall env id, conf_ok env -> jok 2 (jmanufacturer_with JStr (lookup_manufacturer env id)).
Proof.
  intros env id H. destruct (lookup_ok env id H) as [H1 H2]. apply (jok_obj 1); [lia|]. fields;
  [apply (jok_arr 0); [lia|]; apply nums_ok; lia|apply jok_string; [lia|assumption]|apply jok_string; [lia|assumption]].
Qed.

Lemma event_ok : forall env e, conf_ok env -> decoded_body env (e_body e) -> named (e_body e) -> jok 4 (marshal_json_with JStr e).
Proof.
  intros env e C D N. apply (jok_obj 3); [lia|]. fields. apply (jok_obj 2); [lia|]. unfold event_fields_with. fields;
  [split; [destruct (e_body e); try (apply check_bytes; vm_compute; reflexivity); destruct k; apply check_bytes; vm_compute; reflexivity
          |cbn; lia]
  |apply jok_num; lia|apply jok_num; lia|].
  unfold body_fields_with. destruct (e_body e) as [c n v|c n v|c p|c k v|c b p|c p|c b|n|k s|c|p| |t|h m s r f ff|n d t q|a k key|m d|m d s|d f|d]; cbn [decoded_body named] in *;
  try (fields; first [apply jok_num; lia | apply jok_bool; lia]; fail).
  - fields; [apply jok_num; lia| |apply jok_num; lia]. apply (jok_obj 1); [lia|]. fields; [apply jok_num; lia|apply jok_string; [lia|apply N]|apply jok_string; [lia|apply N]].
  - fields; [apply jok_num; lia| |apply jok_num; lia]. apply (jok_obj 1); [lia|]. fields; [apply jok_num; lia|apply jok_string; [lia|apply N]|apply jok_string; [lia|apply N]].
  - destruct D as (_ & (id & _ & ->) & _).
    fields; [apply jok_num; lia| |apply jok_num; lia]. apply (jok_obj 1); [lia|]. fields; [apply jok_num; lia|apply jok_string; [lia|apply controller_ok]].
  - constructor; [cbn [fst snd]; split; [apply check_ascii; vm_compute; reflexivity|apply jok_num; lia]|]. constructor; [|constructor]. cbn [fst snd].
    split; [destruct k; apply check_ascii; vm_compute; reflexivity|]. apply jok_string; [lia|exact D].
  - destruct D as (K & minor & _ & ->). fields; [apply jok_num; lia|apply jok_num; lia|apply jok_num; lia|apply jok_string; [lia|apply key_ok; exact K]].
  - destruct D as (_ & id & _ & _ & ->). fields; [apply jok_num; lia|apply jmanufacturer_ok; exact C|apply (jok_le 1); [apply jhex_ok|lia]].
  - destruct D as (_ & id & _ & ->). fields; [apply jmanufacturer_ok; exact C|apply (jok_le 1); [apply jhex_ok|lia]|apply jok_bool; lia].
  - fields; [apply (jok_le 1); [apply jhex_ok|lia]|apply jok_bool; lia].
  - fields. apply (jok_le 1); [apply jhex_ok|lia].
Qed.

Lemma header_tag : forall env r s, decode env r = Ok s -> exists h, f_mthd s = Some h /\ h_tag h = str "MThd".
Proof.
  intros env r s H. unfold decode in H. destruct (chunks r) as [[|c cs]| | | |]; try discriminate. cbn [bind] in H.
  destruct (unmarshal_mthd c) as [h| | | |] eqn:E; try discriminate. cbn [bind] in H.
  destruct (decode_tracks env 0 cs) as [ts| | | |]; try discriminate. cbn [bind] in H. destruct (_ =? _); [|discriminate].
  apply Ok_inj in H. subst s. exists h. split; [reflexivity|]. unfold unmarshal_mthd in E.
  repeat match type of E with
  | match ?c with [] => _ | _ :: _ => _ end = _ => destruct c; try discriminate
  | (if ?b then _ else _) = _ => destruct b; try discriminate
  | match ?o with Some _ => _ | None => _ end = _ => destruct o as [[? ?]|]; try discriminate
  | (let x := _ in _) = _ => cbv zeta in E
  end; apply Ok_inj in E; subst h; reflexivity.
Qed.

Theorem export_ok : forall env r s, is_bytes r -> conf_ok env -> decode env r = Ok s -> jok 8 (export_json_with JStr s).
Proof.
  intros env r s Hr C H. pose proof (decoded_file env r s Hr H) as F. pose proof (file_names env r s Hr H) as N.
  destruct (header_tag env r s H) as (h & E & T). unfold export_json_with. rewrite E. apply (jok_obj 7); [lia|]. fields.
  - apply (jok_obj 6); [lia|]. fields; try (first [apply jok_num; lia|apply jok_bool; lia]). rewrite T. apply jok_string; [lia|apply check_bytes; reflexivity].
  - apply (jok_arr 6); [lia|]. clear - C F N. induction (f_tracks s) as [|t ts IH]; [constructor|].
    inversion F as [|? ? (F1 & _ & F3) F4]; inversion N as [|? ? N1 N2]; subst. cbn [map]. constructor; [|apply IH; assumption].
    apply (jok_obj 5); [lia|]. fields; [rewrite F1; apply jok_string; [lia|apply check_bytes; reflexivity]|apply jok_num; lia|].
    apply (jok_arr 4); [lia|]. clear - C F3 N1. induction (t_events t) as [|e es IH]; [constructor|].
    inversion F3 as [|? ? (_ & _ & D) F4]; inversion N1 as [|? ? N3 N4]; subst. cbn [map]. constructor; [|apply IH; assumption].
    eapply event_ok; eassumption.
Qed.

(** The text stands for the tree with the strings made UTF-8. *)
Lemma sane_nums : forall l, map sane (map JNum l) = map JNum l.
Proof. induction l; cbn [map sane]; congruence. Qed.

Lemma tag_runes : forall b, concat (runes (body_tag b)) = body_tag b.
Proof. intros []; try (vm_compute; reflexivity). destruct k; vm_compute; reflexivity. Qed.

Lemma sane_event : forall e, sane (marshal_json_with JStr e) = marshal_json e.
Proof.
  intro e. unfold marshal_json, marshal_json_with, event_fields_with. cbn [sane map fst snd]. rewrite tag_runes. do 7 f_equal.
  unfold body_fields_with. destruct (e_body e); unfold jnote_with, jcontroller_with, jmanufacturer_with, jhex; cbn [sane map fst snd]; rewrite ?sane_nums; reflexivity.
Qed.

Lemma sane_export : forall s, sane (export_json_with JStr s) = export_json s.
Proof.
  intro s. unfold export_json, export_json_with. cbn [sane map fst snd]. f_equal. f_equal; [destruct (f_mthd s); reflexivity|]. do 2 f_equal. f_equal. f_equal. induction (f_tracks s) as [|t ts IH]; [reflexivity|].
  cbn [map]. rewrite IH. f_equal. unfold jmtrk_with. cbn [sane map fst snd]. repeat f_equal. rewrite map_map. apply map_ext. exact sane_event.
Qed.

Theorem export_text_text : forall env r s, is_bytes r -> conf_ok env -> decode env r = Ok s -> json_text (export_json s) (export_text s).
Proof. intros env r s Hr C H. rewrite <- sane_export. apply write_json_text. apply (export_ok env r s Hr C H). Qed.

Theorem export_text_read : forall env r s rest, is_bytes r -> conf_ok env -> decode env r = Ok s ->
  read_text (export_text s ++ rest) = Ok (export_json s, rest).
Proof.
  intros env r s rest Hr C H. destruct (export_ok env r s Hr C H) as [W D].
  apply (read_text_text (export_json s) (export_text s) [] rest); [rewrite <- sane_export; apply write_json_text; exact W|constructor|rewrite <- sane_export, sane_depth; lia|discriminate].
Qed.

Theorem export_text_assemble : forall env env' r s rest, is_bytes r -> conf_ok env -> decode env r = Ok s ->
  assemble_json_text env' (export_text s ++ rest) = assemble_json env' (export_json s).
Proof.
  intros env env' r s rest Hr C H. unfold assemble_json_text. rewrite (export_text_read env r s rest Hr C H). reflexivity.
Qed.

Lemma trim_left_bytes : forall s, is_bytes s -> is_bytes (trim_left s).
Proof. induction s as [|c s IH]; intro H; [exact H|]. cbn [trim_left]. destruct (c =? 32); [apply IH; inversion H; assumption|exact H]. Qed.
Lemma trim_bytes : forall s, is_bytes s -> is_bytes (trim s).
Proof. intros s H. unfold trim. apply Forall_rev. apply trim_left_bytes. apply Forall_rev. apply trim_left_bytes. exact H. Qed.

Lemma load_bytes : forall conf l, conf_bytes conf -> load_manufacturers conf = Ok l -> names_bytes l.
Proof.
  induction conf as [|[[id region] name] conf IH]; intros l C H; cbn [load_manufacturers] in H.
  - apply Ok_inj in H. subst. constructor.
  - inversion C as [|? ? [C1 C2] C3]; subst. cbn [fst snd] in *. destruct (make_manufacturer id region name) as [kv| | | |] eqn:E; try discriminate.
    cbn [bind] in H. destruct (load_manufacturers conf) as [l'| | | |]; try discriminate. apply Ok_inj in H. subst l.
    apply Forall_app. split; [apply IH; [exact C3|reflexivity]|]. constructor; [|constructor]. unfold make_manufacturer in E.
    destruct id as [|a [|b [|c [|]]]]; try discriminate; destruct (trim name) eqn:T; try discriminate; apply Ok_inj in E; subst kv; cbn [snd m_region m_name];
    (split; [apply trim_bytes; exact C1|rewrite <- T; apply trim_bytes; exact C2]).
Qed.

Lemma env_bytes : forall c4 conf l, conf_bytes conf -> load_manufacturers conf = Ok l -> conf_ok (add_manufacturers (Env c4 manufacturers) l).
Proof.
  intros c4 conf l C H. unfold conf_ok, add_manufacturers. cbn [env_manufacturers]. apply Forall_app. split; [eapply load_bytes; eassumption|].
  assert (F : forallb (fun x => forallb (fun b => (0 <=? b) && (b <? 256)) (m_region (snd x)) && forallb (fun b => (0 <=? b) && (b <? 256)) (m_name (snd x))) manufacturers = true)
    by (vm_compute; reflexivity).
  rewrite forallb_forall in F. apply Forall_forall. intros x Hx. apply F in Hx. apply andb_true_iff in Hx as [H1 H2]. split; apply check_bytes; assumption.
Qed.

(** The statements of PropJsonText.v *)
Theorem exported_text : forall c4 conf l r s, conf_bytes conf -> load_manufacturers conf = Ok l -> is_bytes r ->
  decode (add_manufacturers (Env c4 manufacturers) l) r = Ok s -> json_text (export_json s) (export_text s).
Proof. intros c4 conf l r s C L Hr H. exact (export_text_text _ r s Hr (env_bytes c4 conf l C L) H). Qed.

Lemma separated_stops : forall v rest, separated v rest -> is_number v = true -> stops rest.
Proof.
  intros v rest S N. destruct v; try discriminate; cbn [separated] in S; destruct rest as [|c r]; try exact I; cbn [ends_number stops] in *;
  unfold is_digit, is_dec in *; repeat split; try tauto; destruct S as [S _]; lia.
Qed.

Theorem any_text_read : forall v s w rest, json_text v s -> white w -> depth v <= 10000 -> separated v rest -> read_text (w ++ s ++ rest) = Ok (v, rest).
Proof. intros v s w rest T W D S. apply read_text_text; [exact T|exact W|exact D|apply separated_stops; exact S]. Qed.

Theorem text_unambiguous : forall v v' s, json_text v s -> json_text v' s -> depth v <= 10000 -> depth v' <= 10000 -> v = v'.
Proof.
  intros v v' s T T' D D'. assert (S : forall u, separated u []) by (intros []; exact I).
  pose proof (any_text_read v s [] [] T ltac:(constructor) D (S v)) as E. pose proof (any_text_read v' s [] [] T' ltac:(constructor) D' (S v')) as E'.
  congruence.
Qed.

Theorem json_text_roundtrip : forall c4 conf l r s rest, Forall (fun x => wire_id (fst (fst x))) conf -> conf_bytes conf -> load_manufacturers conf = Ok l ->
  let env := add_manufacturers (Env c4 manufacturers) l in is_bytes r -> decode env r = Ok s ->
  (forall h, f_mthd s = Some h -> h_smpte h = false) ->
  Forall (fun t => t_events t <> [] /\ Forall (fun e => valid_text (e_body e)) (t_events t)) (f_tracks s) ->
  Forall (fun t => Forall legal_event (t_events t) /\ chained false (t_events t) /\ faithful_events env (t_events t)) (f_tracks s) ->
  exists bs, assemble_json_text env (export_text s ++ rest) = Ok bs /\ (zlen bs < 4294967296 ->
    exists s' h h', decode env bs = Ok s' /\ f_mthd s = Some h /\ f_mthd s' = Some h' /\ same_header h h' /\
      map (fun t => map ev_view (t_events t)) (f_tracks s') = map (fun t => map ev_view (t_events t)) (f_tracks s)).
Proof.
  intros c4 conf l r s rest Hw C L env Hr H H1 H2 H3. rewrite (export_text_assemble env env r s rest Hr (env_bytes c4 conf l C L) H).
  exact (json_roundtrip c4 conf l r s Hw L Hr H H1 H2 H3).
Qed.

(** Nesting that is too deep *)
Fixpoint nested (n : nat) : json := match n with O => JArr [] | S m => JArr [nested m] end.
Fixpoint nested_text (n : nat) : bytes := match n with O => [91; 93] | S m => 91 :: nested_text m ++ [93] end.
Lemma nested_json : forall n, json_text (nested n) (nested_text n).
Proof.
  induction n; [apply (jt_array0 []); constructor|]. cbn [nested nested_text]. apply jt_array.
  rewrite <- (app_nil_r (nested_text n)). apply (et_one [] _ _ []); [constructor|assumption|constructor].
Qed.
Theorem too_deep : exists v s, json_text v s /\ read_text s = Err.
Proof. exists (nested (Z.to_nat 10000)), (nested_text (Z.to_nat 10000)). split; [apply nested_json|vm_compute; reflexivity]. Qed.
