(** * UserTemplateProofs: what a template of the user writes (C100). *)
From Verif Require Import Base Strings Tables Event Track File Utf8 Hex Disassemble Csv SpecText JsonText JsonTextProofs JsonReadProofs Template SpecTemplate TemplateProofs HexProofs
  SpecUserTemplate UserLexProofs UserParseProofs.

(** ** Fields *)

Definition data_is (v : value) (d : data) : Prop :=
  match v with
  | VText s => d = DString s
  | VNumber n s => d = DNumber false n s
  | VFlag b => d = DBool b
  | VHex bs => d = DBytes true bs
  | VList bs => d = DBytes false bs
  end.

Lemma field_found : forall e path v, In (path, v) (fields e) -> exists d, select_path (inner_data e) path = Value d /\ data_is v d.
Proof.
  intros [tick delta bs st ty b] path v I. unfold fields in I. apply in_app_or in I || idtac.
  destruct b; try destruct k; cbn [fields type_field own_fields note_fields maker_fields app In e_body e_tick e_delta e_bytes e_status e_type at_ text_name] in I;
    repeat (destruct I as [I|I]; [injection I as <- <-; eexists; split; [lazy -[dec hex2 hex_string]; reflexivity|reflexivity]|]); destruct I.
Qed.

Lemma numbers_shown : forall l, numbers_text l = match l with [] => [] | b :: r => dec b ++ flat_map (fun b => 32 :: dec b) r end.
Proof.
  induction l as [|b r IH]; [reflexivity|]. destruct r as [|c r]; [cbn [numbers_text flat_map]; rewrite ?app_nil_r; reflexivity|].
  change (numbers_text (b :: c :: r)) with (dec b ++ str " " ++ numbers_text (c :: r)). rewrite IH. reflexivity.
Qed.

Lemma data_shown : forall v d, data_is v d -> shown d = Value (written_value v).
Proof.
  intros [s|n s|b|bs|bs] d H; cbn [data_is] in H; subst d; try reflexivity.
  cbn [shown written_value]. rewrite numbers_shown. reflexivity.
Qed.

Lemma data_truth : forall v d, data_is v d -> (truth d = true <-> is_set v).
Proof.
  assert (B : forall s, negb (bytes_eqb s []) = true <-> s <> []).
  { intros [|c s]; cbn; split; congruence. }
  intros [s|n s|b|bs|bs] d H; cbn [data_is] in H; subst d; cbn [truth is_set]; [apply B|lia|reflexivity|apply B|apply B].
Qed.

(** ** Terms *)

Lemma pad_filled : forall w s, filled w s (pad w s).
Proof.
  intros w s. unfold filled, pad, characters. destruct (Z.ltb_spec w (zlen (runes s))).
  - exists O. rewrite app_nil_r. split; [reflexivity|]. split; [lia|reflexivity].
  - exists (Z.to_nat (w - zlen (runes s))). split; [reflexivity|]. split; lia.
Qed.

Lemma filled_unique : forall w s a b, filled w s a -> filled w s b -> a = b.
Proof.
  intros w s a b (k & -> & H1 & H2) (j & -> & G1 & G2). f_equal. f_equal. destruct (Z_le_gt_dec (characters s) w) as [L|L].
  - specialize (H1 L). specialize (G1 L). lia.
  - rewrite H2, G2 by lia. reflexivity.
Qed.

Lemma ellipsize_cut : forall w s, cut w s (ellipsize s w).
Proof.
  intros w s. unfold cut, ellipsize, characters. destruct (Z.leb_spec w 0); [left; auto|]. right.
  destruct (Z.leb_spec (zlen (runes s)) w); [left; auto|]. right. split; [lia|].
  exists (firstn (Z.to_nat (w - 1)) (runes s)), (skipn (Z.to_nat (w - 1)) (runes s)). split; [symmetry; apply firstn_skipn|].
  split; [unfold zlen in *; rewrite firstn_length; lia|reflexivity].
Qed.

Lemma cut_unique : forall w s a b, cut w s a -> cut w s b -> a = b.
Proof.
  intros w s a b [[H ->]|[(H & L & ->)|([H1 H2] & f & k & E & L & ->)]] [[G ->]|[(G & M & ->)|([G1 G2] & g & j & D & M & ->)]]; try lia; try reflexivity.
  f_equal. f_equal. rewrite E in D. assert (Q : length f = length g) by (unfold zlen in *; lia).
  apply (f_equal (firstn (length f))) in D. rewrite firstn_app, Nat.sub_diag, firstn_all, app_nil_r in D. rewrite D, Q, firstn_app, Nat.sub_diag, firstn_all, app_nil_r. reflexivity.
Qed.

Lemma width_found : forall front last rest, Forall (fun b => 128 <= b < 256) front -> 0 <= last < 128 -> vlq_width (front ++ last :: rest) = Ok (zlen front + 1).
Proof.
  intros front last rest F L. induction F as [|b front Hb F IH]; cbn [app vlq_width].
  - rewrite land80 by (unfold is_byte; lia). replace (last <? 128) with true by lia. reflexivity.
  - rewrite land80 by (unfold is_byte; lia). replace (b <? 128) with false by lia. rewrite IH. cbn [bind]. rewrite zlen_cons. f_equal. lia.
Qed.

Lemma valign_aligned : forall w bs t, aligned w bs t -> valign bs w = Ok t.
Proof.
  intros w bs t (front & last & rest & k & E & F & L & K & ->). unfold valign. rewrite E at 1. rewrite width_found by assumption. cbn [bind].
  f_equal. f_equal. rewrite spaces3. unfold spaces. pose proof (zlen_nonneg _ front).
  destruct (Z.ltb_spec (zlen front + 1) w); [f_equal; lia|]. replace k with O by lia. reflexivity.
Qed.

(** The value of a term *)
Lemma term_value : forall e t a, term_says e t a -> exists d, shown d = Value a /\ eval (inner_data e) (EPipe [command t]) = Value d /\ eval (inner_data e) (argument t) = Value d.
Proof.
  intros e t a H. induction H as [path v I|w t a b H IH F|w t a b H IH F|path v bs I B|path v bs b I B A|path w v bs b I B A].
  - destruct (field_found e path v I) as (d & E & D). exists d. split; [apply data_shown, D|]. cbn [command argument]. split; [|exact E].
    cbn [eval fold_left ebind]. rewrite E. reflexivity.
  - destruct IH as (d & S0 & _ & A). exists (DString b).
    assert (E : eval (inner_data e) (EPipe [command (Padded w t)]) = Value (DString b)).
    { change (command (Padded w t)) with [EFunction (str "pad"); ENumber w; argument t]. cbn [eval fold_left ebind map collect fold_right].
      rewrite A. cbn [ebind app]. unfold call. change (named "pad" (str "pad")) with true. cbn match. rewrite S0. cbn [ebind].
      rewrite (filled_unique w a b (pad w a) F (pad_filled w a)). reflexivity. }
    split; [reflexivity|]. split; exact E.
  - destruct IH as (d & S0 & _ & A). exists (DString b).
    assert (E : eval (inner_data e) (EPipe [command (Shortened t w)]) = Value (DString b)).
    { change (command (Shortened t w)) with [EFunction (str "ellipsize"); argument t; ENumber w]. cbn [eval fold_left ebind map collect fold_right].
      rewrite A. cbn [ebind app]. unfold call. change (named "pad" (str "ellipsize")) with false. change (named "ellipsize" (str "ellipsize")) with true. cbn match.
      rewrite S0. cbn [ebind]. rewrite (cut_unique w a b (ellipsize a w) F (ellipsize_cut w a)). reflexivity. }
    split; [reflexivity|]. split; exact E.
  - destruct (field_found e path v I) as (d & E & D). exists (DNumber true (zlen bs) (dec (zlen bs))). split; [reflexivity|].
    assert (Q : eval (inner_data e) (EPipe [command (Length path)]) = Value (DNumber true (zlen bs) (dec (zlen bs)))); [|split; exact Q].
    cbn [command eval fold_left ebind map collect fold_right]. rewrite E. destruct v; cbn [bytes_of data_is] in B, D; try discriminate; injection B as ->; subst d; reflexivity.
  - destruct (field_found e path v I) as (d & E & D). exists (DString b). split; [reflexivity|]. apply valign_aligned in A.
    assert (Q : eval (inner_data e) (EPipe [command (Aligned path)]) = Value (DString b)); [|split; exact Q].
    cbn [command eval fold_left ebind map collect fold_right]. rewrite E.
    destruct v; cbn [list_of data_is] in B, D; try discriminate; injection B as ->; subst d; cbn [ebind app]; unfold call;
      change (named "pad" (str "valign")) with false; change (named "ellipsize" (str "valign")) with false; change (named "valign" (str "valign")) with true;
      cbn match; rewrite A; reflexivity.
  - destruct (field_found e path v I) as (d & E & D). exists (DString b). split; [reflexivity|]. apply valign_aligned in A.
    assert (Q : eval (inner_data e) (EPipe [command (AlignedBy path w)]) = Value (DString b)); [|split; exact Q].
    cbn [command eval fold_left ebind map collect fold_right]. rewrite E.
    destruct v; cbn [list_of data_is] in B, D; try discriminate; injection B as ->; subst d; cbn [ebind app]; unfold call;
      change (named "pad" (str "valign")) with false; change (named "ellipsize" (str "valign")) with false; change (named "valign" (str "valign")) with true;
      cbn match; rewrite A; reflexivity.
Qed.

(** ** Tests *)

Lemma equal_texts : forall s texts, equal_any (DString s) (map DString texts) = Value (existsb (bytes_eqb s) texts).
Proof. induction texts as [|t texts IH]; [reflexivity|]. cbn [map equal_any equal ebind existsb]. destruct (bytes_eqb s t); [reflexivity|exact IH]. Qed.

Lemma equal_numbers : forall n s ns, equal_any (DNumber false n s) (map (fun n => DNumber true n (dec n)) ns) = Value (existsb (Z.eqb n) ns).
Proof. induction ns as [|m ns IH]; [reflexivity|]. cbn [map equal_any equal ebind existsb]. destruct (n =? m); [reflexivity|exact IH]. Qed.

Lemma collect_values : forall A (l : list A), collect (map Value l) = Value l.
Proof. induction l as [|a l IH]; [reflexivity|]. cbn [map]. unfold collect in *. cbn [fold_right]. rewrite IH. reflexivity. Qed.

Lemma existsb_in : forall s l, existsb (bytes_eqb s) l = true <-> In s l.
Proof.
  intros s l. rewrite existsb_exists. split.
  - intros (x & I & E). apply bytes_eqb_eq in E. congruence.
  - intro I. exists s. split; [exact I|]. apply bytes_eqb_eq. reflexivity.
Qed.

Lemma command_eq : forall e path d xs, select_path (inner_data e) path = Value d -> xs <> [] ->
  forall b, equal_any d xs = Value b -> forall es, map (eval (inner_data e)) es = map Value xs ->
  eval (inner_data e) (EPipe [EFunction (str "eq") :: EField path :: es]) = Value (DBool b).
Proof.
  intros e path d xs E N b Q es M. cbn [eval fold_left ebind map]. rewrite M.
  change (collect (select_path (inner_data e) path :: map Value xs)) with
    (ebind (select_path (inner_data e) path) (fun a => ebind (collect (map Value xs)) (fun b => Value (a :: b)))).
  rewrite E, collect_values. cbn [ebind app]. rewrite app_nil_r. unfold call.
  change (named "pad" (str "eq")) with false. change (named "ellipsize" (str "eq")) with false. change (named "valign" (str "eq")) with false.
  change (named "eq" (str "eq")) with true. cbn match. destruct xs as [|x xs]; [congruence|]. rewrite Q. reflexivity.
Qed.

Lemma test_value : forall e c P, good_test c -> test_says e c P -> exists d, eval (inner_data e) (EPipe [test_command c]) = Value d /\ (truth d = true <-> P).
Proof.
  intros e c P G H. destruct H as [path v I|path v I|path s texts I|path n s ns I|path s text I]; destruct (field_found e path _ I) as (d & E & D); cbn [test_command good_test] in *.
  - exists d. split; [|apply data_truth, D]. cbn [eval fold_left ebind]. rewrite E. reflexivity.
  - exists (DBool (negb (truth d))). split.
    + cbn [eval fold_left ebind map collect fold_right]. rewrite E. reflexivity.
    + pose proof (data_truth v d D) as T. cbn [truth]. rewrite <- T. destruct (truth d); cbn; split; congruence.
  - cbn [data_is] in D. subst d. exists (DBool (existsb (bytes_eqb s) texts)). split; [|apply existsb_in].
    apply (command_eq e path (DString s) (map DString texts) E); [|apply equal_texts|rewrite !map_map; reflexivity].
    destruct G as (_ & N & _). destruct texts; [congruence|discriminate].
  - cbn [data_is] in D. subst d. exists (DBool (existsb (Z.eqb n) ns)). split.
    + apply (command_eq e path (DNumber false n s) (map (fun n => DNumber true n (dec n)) ns) E); [|apply equal_numbers|rewrite !map_map; reflexivity].
      destruct G as (_ & N & _). destruct ns; [congruence|discriminate].
    + cbn [truth]. rewrite existsb_exists. split; [intros (x & J & Q); apply Z.eqb_eq in Q; congruence|intro J; exists n; split; [exact J|apply Z.eqb_refl]].
  - cbn [data_is] in D. subst d. exists (DBool (negb (bytes_eqb s text))). split.
    + cbn [eval fold_left ebind map collect fold_right]. rewrite E. reflexivity.
    + cbn [truth]. destruct (bytes_eqb s text) eqn:Q; cbn [negb]; split; try congruence.
      * apply bytes_eqb_eq in Q. congruence.
      * intros _ ->. assert (bytes_eqb text text = true) by (apply bytes_eqb_eq; reflexivity). congruence.
Qed.

(** ** Templates *)

Lemma template_walk : forall e T a, says e T a -> good T -> forall ts en, sequence (map (walk ts en (inner_data e)) (nodes T)) = (a, Done).
Proof.
  intros e T a H. induction H as [|s r b H IH|t r a b Ht H IH|c yes no r P a b Ht HP Hy IHy H IH|c yes no r P a b Ht HP Hn IHn H IH]; intros G ts en; cbn [good] in G; cbn [nodes map].
  - reflexivity.
  - destruct G as (_ & _ & G). rewrite sequence_cons, IH by exact G. reflexivity.
  - destruct G as (_ & G). destruct (term_value e t a Ht) as (d & S0 & E & _). rewrite sequence_cons, IH by exact G. cbn [walk]. unfold eval_pipeline.
    rewrite E. cbn [after]. rewrite S0. reflexivity.
  - destruct G as (Gc & Gy & _ & G). destruct (test_value e c P Gc Ht) as (d & E & T). rewrite sequence_cons, IH by exact G. cbn [walk]. unfold eval_pipeline.
    rewrite E. cbn [after]. apply T in HP. rewrite HP, IHy by exact Gy. reflexivity.
  - destruct G as (Gc & _ & Gn & G). destruct (test_value e c P Gc Ht) as (d & E & T). rewrite sequence_cons, IH by exact G. cbn [walk]. unfold eval_pipeline.
    rewrite E. cbn [after]. destruct (truth d); [exfalso; apply HP, T; reflexivity|]. rewrite IHn by exact Gn. reflexivity.
Qed.

Theorem template_written : forall name T, good T -> exists ns, parse_template name (source T) = Some [(name, ns)] /\
  forall e a, says e T a -> forall ts depth, exec ts depth (inner_data e) ns = writes a.
Proof.
  intros name T G. exists (nodes T). split; [apply template_parses, G|]. intros e a H ts depth. rewrite exec_walk. apply (template_walk e T a H G).
Qed.

Lemma space_white : forall c, space_char c = true <-> white c.
Proof.
  assert (K : forall cp c, In cp [9; 10; 11; 12; 13; 32; 133; 160; 5760; 8192; 8193; 8194; 8195; 8196; 8197; 8198; 8199; 8200; 8201; 8202; 8232; 8233; 8239; 8287; 12288] ->
    c = encode_rune cp -> white c).
  { intros cp c I ->. exists cp. split; [exact I|]. apply encode_rune_utf8; cbn [In] in I; lia. }
  intro c. split.
  - destruct c as [|a [|b [|d [|]]]]; cbn [space_char]; intro H; try discriminate.
    + apply (K a); [cbn [In]; lia|]. unfold encode_rune. replace (a <? 128) with true by lia. reflexivity.
    + assert (a = 194 /\ (b = 133 \/ b = 160)) as [-> [-> | ->]] by lia; [apply (K 133)|apply (K 160)]; cbn [In]; try lia; reflexivity.
    + assert (E : a = 225 /\ b = 154 /\ d = 128 \/ a = 226 /\ b = 129 /\ d = 159 \/ a = 227 /\ b = 128 /\ d = 128 \/
        a = 226 /\ b = 128 /\ (128 <= d <= 138 \/ d = 168 \/ d = 169 \/ d = 175)) by lia.
      destruct E as [(-> & -> & ->)|[(-> & -> & ->)|[(-> & -> & ->)|(-> & -> & E)]]].
      * apply (K 5760); [cbn [In]; lia|reflexivity].
      * apply (K 8287); [cbn [In]; lia|reflexivity].
      * apply (K 12288); [cbn [In]; lia|reflexivity].
      * apply (K (8064 + d)); [cbn [In]; lia|]. unfold encode_rune. replace (8064 + d <? 128) with false by lia. replace (8064 + d <? 2048) with false by lia.
        replace (8064 + d <? 65536) with true by lia. repeat f_equal; lia.
  - intros (cp & I & U). apply encode_rune_spec in U. subst c. cbn [In] in I. repeat (destruct I as [<-|I]; [reflexivity|]). destruct I.
Qed.

Lemma spaces_white : forall s, forallb space_char (runes s) = false <-> exists c, In c (runes s) /\ ~ white c.
Proof.
  intro s. induction (runes s) as [|c l IH]; cbn [forallb In]; [split; [discriminate|intros (c & [] & _)]|].
  destruct (space_char c) eqn:E.
  - rewrite IH. apply space_white in E. split; intros (x & I & N); exists x; [tauto|]. destruct I as [<-|I]; [contradiction|tauto].
  - split; [|reflexivity]. intros _. exists c. split; [left; reflexivity|]. intro W. apply space_white in W. congruence.
Qed.

Lemma substantial_tree : forall T, empty_tree (nodes T) = false <-> substantial T.
Proof.
  induction T as [|s T IH|t T IH|c yes IHy no IHn T IH]; cbn [substantial nodes]; try (split; [discriminate|contradiction]); try (split; [intros _; exact Logic.I|reflexivity]).
  rewrite <- IH. unfold empty_tree in *. cbn [forallb]. rewrite <- spaces_white. destruct (forallb space_char (runes s)); cbn [andb]; [|tauto].
  split; [intro H; right; exact H|]. intros [H|H]; [discriminate|exact H].
Qed.

Lemma blank_shown : forall us ts T e, good T -> ~ substantial T -> assocb (kind_template (e_body e)) us = Some (source T) -> shown_for us ts e = writes (event_text e).
Proof.
  intros us ts T e G B A. unfold shown_for. rewrite A, (template_parses _ T G). destruct (empty_tree (nodes T)) eqn:E; [reflexivity|].
  apply substantial_tree in E. contradiction.
Qed.

Theorem template_shown : forall us ts T e a, good T -> substantial T -> assocb (kind_template (e_body e)) us = Some (source T) -> says e T a ->
  shown_for us ts e = writes a.
Proof.
  intros us ts T e a G B A H. unfold shown_for. rewrite A, (template_parses _ T G), (proj2 (substantial_tree T) B).
  rewrite exec_walk. apply (template_walk e T a H G).
Qed.

(** ** A template of fields of the event says one thing. *)

Lemma term_total : forall e t, term_suits e t -> exists a, term_says e t a.
Proof.
  assert (V : forall w front last rest, Forall (fun b => 128 <= b < 256) front -> 0 <= last < 128 -> exists a, aligned w (front ++ last :: rest) a).
  { intros w front last rest F L. eexists. exists front, last, rest, (Z.to_nat (3 * Z.max 0 (w - (zlen front + 1)))). repeat (split; [first [reflexivity|assumption|lia]|]). reflexivity. }
  induction t as [path|w t IH|t IH w|path|path|path w]; cbn [term_suits]; intro H.
  - destruct H as [v I]. exists (written_value v). apply says_field, I.
  - destruct (IH H) as [a A]. exists (pad w a). apply (says_padded _ _ _ a); [exact A|apply pad_filled].
  - destruct (IH H) as [a A]. exists (ellipsize a w). apply (says_short _ _ _ a); [exact A|apply ellipsize_cut].
  - destruct H as (v & bs & I & B). exists (dec (zlen bs)). exact (says_length e path v bs I B).
  - destruct H as (v & front & last & rest & I & B & F & L). destruct (V 4 front last rest F L) as [a A]. exists a. exact (says_aligned e path v _ a I B A).
  - destruct H as (v & front & last & rest & I & B & F & L). destruct (V w front last rest F L) as [a A]. exists a. exact (says_aligned_by e path w v _ a I B A).
Qed.

Lemma is_set_dec : forall v, is_set v \/ ~ is_set v.
Proof.
  assert (B : forall s : bytes, s <> [] \/ ~ s <> []) by (intros [|c s]; [right; congruence|left; discriminate]).
  intros [s|n s|b|bs|bs]; cbn [is_set]; [apply B|lia|destruct b; [left|right]; congruence|apply B|apply B].
Qed.

Lemma bytes_dec : forall s t : bytes, {s = t} + {s <> t}.
Proof. intros s t. apply list_eq_dec, Z.eq_dec. Qed.

Lemma test_total : forall e c, test_suits e c -> exists P, test_says e c P /\ (P \/ ~ P).
Proof.
  intros e [path|path|path texts|path ns|path text] H; cbn [test_suits] in H.
  - destruct H as [v I]. exists (is_set v). split; [apply says_set, I|apply is_set_dec].
  - destruct H as [v I]. exists (~ is_set v). split; [apply says_unset, I|]. destruct (is_set_dec v); tauto.
  - destruct H as [s I]. exists (In s texts). split; [apply says_one, I|]. destruct (in_dec bytes_dec s texts); tauto.
  - destruct H as (n & s & I). exists (In n ns). split; [apply (says_among _ _ _ s), I|]. destruct (in_dec Z.eq_dec n ns); tauto.
  - destruct H as [s I]. exists (s <> text). split; [apply says_differs, I|]. destruct (bytes_dec s text); tauto.
Qed.

Theorem template_total : forall e T, suits e T -> exists a, says e T a.
Proof.
  induction T as [|s T IH|t T IH|c yes IHy no IHn T IH]; cbn [suits]; intro H.
  - exists []. constructor.
  - destruct (IH H) as [b B]. exists (s ++ b). constructor; exact B.
  - destruct H as [Ht H]. destruct (IH H) as [b B]. destruct (term_total e t Ht) as [a A]. exists (a ++ b). constructor; assumption.
  - destruct H as (Hc & Hy & Hn & H). destruct (IH H) as [b B]. destruct (IHy Hy) as [y Y]. destruct (IHn Hn) as [n N].
    destruct (test_total e c Hc) as (P & Q & [p|p]).
    + exists (y ++ b). apply (says_yes _ _ _ _ _ P); assumption.
    + exists (n ++ b). apply (says_no _ _ _ _ _ P); assumption.
Qed.

Theorem template_one : forall e T a b, good T -> says e T a -> says e T b -> a = b.
Proof.
  intros e T a b G A B. pose proof (template_walk e T a A G [] None) as X. rewrite (template_walk e T b B G [] None) in X.
  apply (f_equal fst) in X. symmetry. exact X.
Qed.

Theorem template_suits : forall us ts T e, good T -> substantial T -> assocb (kind_template (e_body e)) us = Some (source T) -> suits e T ->
  exists a, says e T a /\ (forall b, says e T b -> b = a) /\ shown_for us ts e = writes a.
Proof.
  intros us ts T e G B A H. destruct (template_total e T H) as [a S0]. exists a. split; [exact S0|]. split.
  - intros b Q. symmetry. exact (template_one e T a b G S0 Q).
  - exact (template_shown us ts T e a G B A S0).
Qed.
