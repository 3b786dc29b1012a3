(** * JsonWriteProofs: what is written is JSON text for the tree; exported files can be written. *)
From Verif Require Import Base Strings Tables SpecVlq Event SpecEvent SpecPacket SpecKey SpecDecimal DecimalProofs SpecText Utf8 Utf8Proofs SpecDecoded Parse Track File
  SpecTrack ParseProofs DecodeProofs FileProofs TrackProofs CrashProofs DecodedProofs Json JsonText SpecJsonText JsonTextProofs.

Lemma json_nested_ind : forall P : json -> Prop,
  P JNull -> (forall b, P (JBool b)) -> (forall n, P (JNum n)) -> P JReal -> (forall s, P (JStr s)) ->
  (forall l, Forall P l -> P (JArr l)) -> (forall o, Forall (fun f => P (snd f)) o -> P (JObj o)) -> forall v, P v.
Proof.
  intros P H1 H2 H3 H4 H5 H6 H7. fix IH 1. intro v. destruct v as [|b|n| |s|l|o]; [exact H1|apply H2|apply H3|exact H4|apply H5| |].
  - apply H6. induction l as [|x l IHl]; constructor; [apply IH|exact IHl].
  - apply H7. induction o as [|x o IHo]; constructor; [apply IH|exact IHo].
Qed.

Lemma lower_digit_spec : forall n, 0 <= n < 16 -> hex_digit (lower_digit n) n.
Proof.
  intros n H. unfold lower_digit. destruct (Z.ltb_spec n 10); [apply hd_num; lia|apply hd_lower; lia].
Qed.

Lemma escape_char_text : forall cp c, utf8 cp c -> char_text c (escape_char c).
Proof.
  intros cp c H. destruct H as [cp H|cp H|cp H N|cp H]; cbn [escape_char].
  - unfold escape_ascii.
    repeat match goal with |- context[if ?x =? ?y then [92; ?e] else _] =>
      destruct (Z.eqb_spec x y) as [->|]; [apply ct_escape; cbn [In]; tauto|] end.
    destruct ((cp <? 32) || (cp =? 60) || (cp =? 62) || (cp =? 38)) eqn:E.
    + apply (ct_unit cp); [|apply utf8_1; lia].
      assert (V : cp = 0 * 4096 + 0 * 256 + cp / 16 * 16 + cp mod 16) by lia. rewrite V at 3.
      change 48 with (48 + 0). constructor; [apply hd_num; lia|apply hd_num; lia|apply lower_digit_spec; lia|apply lower_digit_spec; lia].
    + apply (ct_plain cp); [apply utf8_1; lia|lia|lia|lia].
  - cbn [bytes_eqb]. rewrite !andb_false_r. apply (ct_plain cp); [apply utf8_2; lia|lia|lia|lia].
  - destruct (bytes_eqb _ [226; 128; 168]) eqn:E1; [|destruct (bytes_eqb _ [226; 128; 169]) eqn:E2].
    + apply bytes_eqb_eq in E1. rewrite E1. apply (ct_unit 8232); [|change [226; 128; 168] with [224 + 8232 / 4096; 128 + 8232 / 64 mod 64; 128 + 8232 mod 64]; apply utf8_3; lia].
      change 8232 with (2 * 4096 + 0 * 256 + 2 * 16 + 8). change 50 with (48 + 2). change 48 with (48 + 0) at 2. change 56 with (48 + 8).
      constructor; apply hd_num; lia.
    + apply bytes_eqb_eq in E2. rewrite E2. apply (ct_unit 8233); [|change [226; 128; 169] with [224 + 8233 / 4096; 128 + 8233 / 64 mod 64; 128 + 8233 mod 64]; apply utf8_3; lia].
      change 8233 with (2 * 4096 + 0 * 256 + 2 * 16 + 9). change 50 with (48 + 2). change 48 with (48 + 0) at 2. change 57 with (48 + 9).
      constructor; apply hd_num; lia.
    + apply (ct_plain cp); [apply utf8_3; lia|lia|lia|lia].
  - cbn [bytes_eqb]. rewrite !andb_false_r. apply (ct_plain cp); [apply utf8_4; lia|lia|lia|lia].
Qed.

Lemma escape_step : forall b0 r0, 0 <= b0 ->
  (exists cp c r, utf8 cp c /\ b0 :: r0 = c ++ r /\ runes (b0 :: r0) = c :: runes r /\ escape (b0 :: r0) = escape_char c ++ escape r) \/
  (runes (b0 :: r0) = replacement :: runes r0 /\ escape (b0 :: r0) = str "\ufffd" ++ escape r0).
Proof.
  intros b0 r0 B. destruct (b0 <? 128) eqn:E0.
  { left. exists b0, [b0], r0. split; [apply utf8_1; lia|]. split; [reflexivity|]. cbn [runes escape]. rewrite E0. split; reflexivity. }
  destruct r0 as [|b1 r1]; [right; cbn [runes escape]; rewrite E0; split; reflexivity|].
  destruct (valid2 b0 b1) eqn:E1.
  { left. eexists _, [b0; b1], r1. split; [apply valid2_spec, E1|]. split; [reflexivity|]. cbn [runes escape]. rewrite E0, E1. split; reflexivity. }
  destruct r1 as [|b2 r2]; [right; cbn [runes escape]; rewrite E0, E1; split; reflexivity|].
  destruct (valid3 b0 b1 b2) eqn:E2.
  { left. eexists _, [b0; b1; b2], r2. split; [apply valid3_spec, E2|]. split; [reflexivity|]. cbn [runes escape]. rewrite E0, E1, E2. split; reflexivity. }
  destruct r2 as [|b3 r3]; [right; cbn [runes escape]; rewrite E0, E1, E2; split; reflexivity|].
  destruct (valid4 b0 b1 b2 b3) eqn:E3.
  { left. eexists _, [b0; b1; b2; b3], r3. split; [apply valid4_spec, E3|]. split; [reflexivity|]. cbn [runes escape]. rewrite E0, E1, E2, E3. split; reflexivity. }
  right. cbn [runes escape]. rewrite E0, E1, E2, E3. split; reflexivity.
Qed.

Lemma replacement_text : char_text replacement (str "\ufffd").
Proof.
  change (str "\ufffd") with (92 :: 117 :: [87 + 15; 87 + 15; 87 + 15; 87 + 13]). apply (ct_unit 65533).
  - change 65533 with (15 * 4096 + 15 * 256 + 15 * 16 + 13). constructor; apply hd_lower; lia.
  - change replacement with [224 + 65533 / 4096; 128 + 65533 / 64 mod 64; 128 + 65533 mod 64]. apply utf8_3; lia.
Qed.

Lemma raw_string_text : forall s, is_bytes s -> string_text (concat (runes s)) (write_string s).
Proof.
  intros s H. unfold write_string. constructor. remember (length s) as n eqn:E. assert (L : (length s <= n)%nat) by lia. clear E. revert s L H.
  induction n as [|n IH]; intros s L B; (destruct s as [|b0 r0]; [constructor|]); cbn [length] in L; [lia|].
  apply Forall_cons_iff in B as [B0 B]. destruct (escape_step b0 r0) as [(cp & c & r & U & E & R & W)|(R & W)]; [unfold is_byte in B0; lia| |]; rewrite R, W; cbn [concat].
  - constructor; [apply (escape_char_text cp); exact U|]. pose proof (utf8_nonempty _ _ U) as K. apply IH.
    + apply (f_equal (@length Z)) in E. rewrite app_length in E. cbn [length] in E. lia.
    + assert (D : is_bytes (c ++ r)) by (rewrite <- E; constructor; auto). apply Forall_app in D. apply D.
  - constructor; [exact replacement_text|]. apply IH; [lia|exact B].
Qed.

Lemma well_formed_bytes : forall s, well_formed s -> is_bytes s.
Proof. intros s H. induction H as [|cp c r U W IH]; [constructor|]. apply is_bytes_app. split; [|exact IH]. destruct U; repeat constructor; unfold is_byte; lia. Qed.

Lemma write_string_text : forall s, well_formed s -> string_text s (write_string s).
Proof. intros s H. pose proof (raw_string_text s (well_formed_bytes s H)) as T. rewrite (well_formed_runes s H) in T. exact T. Qed.

(** The tree that the text of a tree stands for. *)
Fixpoint sane (v : json) : json :=
  match v with
  | JStr s => JStr (concat (runes s))
  | JArr l => JArr (map sane l)
  | JObj o => JObj (map (fun f => (fst f, sane (snd f))) o)
  | _ => v
  end.

Lemma sane_depth : forall v, depth (sane v) = depth v.
Proof.
  induction v using json_nested_ind; try reflexivity; cbn [sane depth]; f_equal.
  - induction H as [|x l Hx Hl IH]; [reflexivity|]. cbn [map fold_right]. rewrite Hx, IH. reflexivity.
  - induction H as [|x l Hx Hl IH]; [reflexivity|]. cbn [map fold_right snd]. rewrite Hx, IH. reflexivity.
Qed.

Lemma newline_white : forall n, white (newline n).
Proof.
  intro n. unfold newline, white. constructor; [auto|]. induction n; cbn [repeat flat_map app]; [constructor|].
  constructor; [auto|]. constructor; [auto|exact IHn].
Qed.

Lemma lines_elements : forall n (f : json -> bytes) w1 w2 l, white w1 -> white w2 -> l <> [] -> Forall (fun v => json_text (sane v) (f v)) l ->
  elements_text (map sane l) (w1 ++ lines n (map f l) ++ w2).
Proof.
  intros n f w1 w2 l W1 W2 N F. revert w1 W1. induction F as [|v l Hv F IH]; intros w1 W1; [congruence|]. destruct l as [|v' l].
  - cbn [map lines]. constructor; assumption.
  - assert (E : w1 ++ lines n (map f (v :: v' :: l)) ++ w2 = w1 ++ f v ++ [] ++ 44 :: newline n ++ lines n (map f (v' :: l)) ++ w2).
    { cbn [map]. cbn [lines app]. rewrite <- ?app_assoc. cbn [app]. rewrite <- ?app_assoc. reflexivity. }
    rewrite E. rewrite map_cons. apply et_more; [exact W1|exact Hv|constructor|]. apply IH; [discriminate|apply newline_white].
Qed.

Lemma lines_members : forall n (f : json -> bytes) w1 w2 o, white w1 -> white w2 -> o <> [] ->
  Forall (fun p => well_formed (fst p) /\ json_text (sane (snd p)) (f (snd p))) o ->
  members_text (map (fun p => (fst p, sane (snd p))) o) (w1 ++ lines n (map (fun p => write_string (fst p) ++ 58 :: 32 :: f (snd p)) o) ++ w2).
Proof.
  intros n f w1 w2 o W1 W2 N F. revert w1 W1. induction F as [|[k v] o [Hk Hv] F IH]; intros w1 W1; [congruence|]. cbn [fst snd] in *.
  assert (S1 : white [32]) by (constructor; [auto|constructor]).
  destruct o as [|[k' v'] o].
  - cbn [map lines fst snd]. rewrite <- !app_assoc. cbn [app].
    change (58 :: 32 :: f v ++ w2) with ([] ++ 58 :: [32] ++ f v ++ w2).
    apply mt_one; try assumption; [apply write_string_text; exact Hk|constructor].
  - set (g := fun p : bytes * json => write_string (fst p) ++ 58 :: 32 :: f (snd p)) in *.
    assert (E : w1 ++ lines n (map g ((k, v) :: (k', v') :: o)) ++ w2 =
                w1 ++ write_string k ++ [] ++ 58 :: [32] ++ f v ++ [] ++ 44 :: newline n ++ lines n (map g ((k', v') :: o)) ++ w2).
    { cbn [map]. cbn [lines app]. unfold g at 1. cbn [fst snd]. rewrite <- ?app_assoc. cbn [app]. rewrite <- ?app_assoc. cbn [app]. rewrite <- ?app_assoc. reflexivity. }
    rewrite E. rewrite map_cons. apply mt_more; try assumption; [apply write_string_text; exact Hk|constructor|constructor|].
    apply IH; [discriminate|apply newline_white].
Qed.

Theorem write_json_text : forall v n, writable v -> json_text (sane v) (write_json n v).
Proof.
  induction v using json_nested_ind; intros n' W.
  - constructor.
  - destruct b; constructor.
  - constructor. apply dec_decimal.
  - destruct W.
  - constructor. apply raw_string_text. exact W.
  - destruct l as [|v l]; [apply (jt_array0 []); constructor|]. cbn [write_json]. rewrite !app_assoc. rewrite <- (app_assoc (newline (S n'))). apply jt_array.
    apply lines_elements; [apply newline_white|apply newline_white|discriminate|].
    revert H W. generalize (v :: l). clear. intros l H W. induction H as [|x l Hx Hl IH]; constructor; cbn [writable fold_right] in W, IH; [apply Hx; apply W|apply IH; apply W].
  - destruct o as [|v o]; [apply (jt_object0 []); constructor|]. cbn [write_json]. rewrite !app_assoc. rewrite <- (app_assoc (newline (S n'))). apply jt_object.
    apply lines_members; [apply newline_white|apply newline_white|discriminate|].
    revert H W. generalize (v :: o). clear. intros l H W. induction H as [|x l Hx Hl IH]; constructor; cbn [writable fold_right] in W, IH; [split; [apply W|apply Hx; apply W]|apply IH; apply W].
Qed.

(** Strings in UTF-8 are written as they are. *)
Fixpoint plain_json (v : json) : Prop :=
  match v with
  | JReal => False
  | JStr s => well_formed s
  | JArr l => fold_right (fun v p => plain_json v /\ p) True l
  | JObj o => fold_right (fun f p => well_formed (fst f) /\ plain_json (snd f) /\ p) True o
  | _ => True
  end.

Lemma plain_sane : forall v, plain_json v -> sane v = v /\ writable v.
Proof.
  induction v using json_nested_ind; cbn [plain_json sane writable]; intro W; try (split; auto; fail).
  - split; [rewrite (well_formed_runes _ W); reflexivity|apply well_formed_bytes, W].
  - assert (G : map sane l = l /\ fold_right (fun v p => writable v /\ p) True l).
    { induction H as [|x l Hx Hl IH]; [split; [reflexivity|exact I]|]. cbn [fold_right] in W. destruct W as [W1 W2]. destruct (Hx W1) as [S1 S2]. destruct (IH W2) as [S3 S4].
      cbn [map fold_right]. rewrite S1, S3. auto. }
    destruct G as [-> G]. auto.
  - assert (G : map (fun f => (fst f, sane (snd f))) o = o /\ fold_right (fun f p => well_formed (fst f) /\ writable (snd f) /\ p) True o).
    { induction H as [|[k x] l Hx Hl IH]; [split; [reflexivity|exact I]|]. cbn [fold_right fst snd] in *. destruct W as (W0 & W1 & W2). destruct (Hx W1) as [S1 S2]. destruct (IH W2) as [S3 S4].
      cbn [map fold_right fst snd]. rewrite S1, S3. auto. }
    destruct G as [-> G]. auto.
Qed.

Theorem plain_json_text : forall v n, plain_json v -> json_text v (write_json n v).
Proof. intros v n H. destruct (plain_sane v H) as [E W]. rewrite <- E at 1. apply write_json_text, W. Qed.

Theorem read_text_text : forall v s w rest, json_text v s -> white w -> depth v <= 10000 -> (is_number v = true -> stops rest) ->
  read_text (w ++ s ++ rest) = Ok (v, rest).
Proof.
  intros v s w rest T W D N. unfold read_text. rewrite skip_white by exact W. rewrite (skip_text _ _ _ _ T).
  apply value_text; [exact T|rewrite !app_length; lia|lia|exact N].
Qed.

(** ** Exported files *)

(** Strings of decoded events consist of bytes. *)
Definition named (b : body) : Prop :=
  match b with NoteOff _ n _ | NoteOn _ n _ => is_bytes (n_name n) /\ is_bytes (n_alias n) | _ => True end.
Definition names_ok (c : ctx) : Prop := Forall (fun x => is_bytes (snd x)) (c_notes c).

Lemma dec_bytes : forall n, is_bytes (dec n).
Proof.
  assert (G : forall s, Forall is_digit s -> is_bytes s) by (induction 1; constructor; [unfold is_digit, is_byte in *; lia|assumption]).
  intro n. pose proof (dec_decimal n) as D. destruct D; [repeat constructor; unfold is_byte; lia|apply G; assumption|].
  constructor; [unfold is_byte; lia|apply G; assumption].
Qed.

Lemma check_bytes : forall s, forallb (fun b => (0 <=? b) && (b <? 256)) s = true -> is_bytes s.
Proof. intros s H. apply Forall_forall. intros x Hx. rewrite forallb_forall in H. apply H in Hx. unfold is_byte. lia. Qed.

Lemma format_note_bytes : forall env fl n, is_bytes (format_note env fl n).
Proof.
  intros env fl n. unfold format_note. apply is_bytes_app. split; [|apply dec_bytes].
  assert (F : forall l, Forall is_bytes l -> forall k, is_bytes (nth k l [])) by (induction 1; destruct k; cbn; auto; constructor).
  apply F. apply Forall_forall. intros x Hx. apply check_bytes.
  assert (A : forallb (forallb (fun b => (0 <=? b) && (b <? 256))) (if fl then Flats else Sharps) = true) by (destruct fl; vm_compute; reflexivity).
  rewrite forallb_forall in A. apply A. exact Hx.
Qed.

Lemma read_packet_notes : forall env c tick delta k raw e c', read_packet env c tick delta k raw = Ok (e, c') -> c_notes c' = c_notes c.
Proof.
  intros env c tick delta k raw e c' H. destruct k as [st data|ty data|st data]; cbn [read_packet] in H.
  - destruct (new_event _) as [e1| | | |]; try discriminate. apply Ok_inj, pair_equal_spec in H as [_ <-]. reflexivity.
  - destruct (new_event _) as [e1| | | |]; try discriminate. apply Ok_inj, pair_equal_spec in H as [_ <-]. reflexivity.
  - destruct (st =? 240).
    + destruct (c_casio c); [discriminate|]. unfold unmarshal_sysex in H. destruct data as [|a [|b d]]; try discriminate.
      destruct (ends_f7 (b :: d)); cbn [bind] in H; apply Ok_inj, pair_equal_spec in H as [_ <-]; reflexivity.
    + destruct (c_casio c).
      * unfold unmarshal_continuation in H. destruct data as [|a d]; cbn [bind] in H; apply Ok_inj, pair_equal_spec in H as [_ <-]; reflexivity.
      * cbn [bind] in H. apply Ok_inj, pair_equal_spec in H as [_ <-]. reflexivity.
Qed.

Lemma post_process_names : forall env c e e' c', names_ok c -> post_process env c e = (e', c') -> named (e_body e') /\ names_ok c'.
Proof.
  intros env c e e' c' Hc H. unfold post_process in H.
  destruct (e_body e) eqn:B; try (apply pair_equal_spec in H as [<- <-]; split; [rewrite B; exact I|exact Hc]; fail).
  - apply pair_equal_spec in H as [<- <-]. split; [|exact Hc]. cbn [with_body e_body named n_name n_alias]. split; [|apply format_note_bytes].
    unfold get_note_off. unfold names_ok in Hc. clear - Hc. induction (c_notes c) as [|[k v] l IH]; cbn [assoc]; [apply format_note_bytes|].
    inversion Hc; subst. destruct (_ =? k); [assumption|auto].
  - apply pair_equal_spec in H as [<- <-]. cbn [with_body e_body named n_name n_alias]. split; [split; apply format_note_bytes|].
    constructor; [apply format_note_bytes|exact Hc].
  - destruct (c_id c0 =? 0); [|destruct (c_id c0 =? 32)]; apply pair_equal_spec in H as [<- <-]; (split; [rewrite B; exact I|exact Hc]).
  - apply pair_equal_spec in H as [<- <-]. split; [exact I|exact Hc].
Qed.

Lemma loop_names : forall n env c tick r es c', (length r <= n)%nat -> is_bytes r -> ctx_ok c -> names_ok c ->
  loop_from env c tick r = Ok (es, c') -> Forall (fun e => named (e_body e)) es.
Proof.
  induction n as [|n IH]; intros env c tick r es c' Hn Hr Hc Hbk H.
  - destruct r; [|cbn in Hn; lia]. rewrite loop_from_eq, parse_nil in H. apply Ok_inj, pair_equal_spec in H as [<- <-]. constructor.
  - rewrite loop_from_eq in H. destruct (parse env c tick r) as [[[e c1] rest]| | | |] eqn:E; try discriminate.
    + pose proof (parse_shorter _ _ _ _ _ _ _ E) as Hlt.
      destruct (parse_inv _ _ _ _ _ _ _ Hr Hc E) as (p & delta & k & -> & Hs & HR & _ & Hc1). apply is_bytes_app in Hr as [Hp Hr].
      pose proof (read_packet_notes _ _ _ _ _ _ _ _ HR) as D2.
      destruct (post_process env c1 e) as [e' c2] eqn:P.
      destruct (post_process_facts _ _ _ _ _ P) as (_ & _ & _ & P4).
      assert (Hb1 : names_ok c1) by (unfold names_ok; rewrite D2; exact Hbk).
      destruct (post_process_names _ _ _ _ _ Hb1 P) as [D3 D4].
      destruct (loop_from env c2 _ rest) as [[es1 c3]| | | |] eqn:L; try discriminate.
      cbn [bind] in H. apply Ok_inj, pair_equal_spec in H as [<- <-]. constructor; [exact D3|].
      assert (Hc2 : ctx_ok c2) by (unfold ctx_ok; rewrite P4; exact Hc1).
      assert (Hle : (length rest <= n)%nat) by lia.
      eapply (IH _ _ _ _ _ _ Hle Hr Hc2 D4 L).
    + apply Ok_inj, pair_equal_spec in H as [<- <-]. constructor.
Qed.

Theorem file_names : forall env r s, is_bytes r -> decode env r = Ok s -> Forall (fun t => Forall (fun e => named (e_body e)) (t_events t)) (f_tracks s).
Proof.
  intros env r s Hr H. unfold decode in H. destruct (chunks r) as [cs| | | |] eqn:C; try discriminate. cbn [bind] in H.
  apply (chunks_bytes (length r) r cs (le_n _) Hr) in C.
  destruct cs as [|c cs]; [discriminate|]. destruct (unmarshal_mthd c) as [h| | | |]; try discriminate. cbn [bind] in H.
  destruct (decode_tracks env 0 cs) as [ts| | | |] eqn:E; try discriminate. cbn [bind] in H.
  destruct (_ =? _); [|discriminate]. apply Ok_inj in H. subst s. cbn [f_tracks]. inversion C as [|? ? _ C']; subst. clear C.
  revert E. assert (G : exists m, m = 0) by eauto. destruct G as [m Em]. rewrite <- Em at 1. clear Em. revert ts m.
  induction cs as [|w cs IH]; intros ts n E; cbn [decode_tracks] in E.
  - apply Ok_inj in E. subst. constructor.
  - inversion C' as [|? ? Cw Cs]; subst. destruct (bytes_eqb _ _); [|eapply IH; eassumption].
    destruct (unmarshal_mtrk env n new_context w) as [t| | | |] eqn:Et; try discriminate. cbn [bind] in E.
    destruct (decode_tracks env (n + 1) cs) as [ts'| | | |] eqn:E'; try discriminate. cbn [bind] in E.
    apply Ok_inj in E. subst ts. constructor; [|eapply IH; eassumption].
    unfold unmarshal_mtrk in Et.
    destruct w as [|a0 [|a1 [|a2 [|a3 [|a4 [|a5 [|a6 [|a7 r']]]]]]]]; try discriminate;
    destruct (negb (bytes_eqb [a0; a1; a2; a3] (str "MTrk"))); try discriminate.
    destruct (decode_events env new_context r') as [[es c']| | | |] eqn:Ed; try discriminate. cbn [bind] in Et.
    apply Ok_inj in Et. subst t. cbn [t_events]. rewrite decode_events_eq in Ed.
    assert (Br : is_bytes r') by (repeat (apply is_bytes_inv in Cw as [_ Cw]); exact Cw).
    assert (C0 : ctx_ok new_context) by (left; reflexivity). assert (N0 : names_ok new_context) by constructor.
    exact (loop_names (length r') env new_context 0 r' es c' (le_n _) Br C0 N0 Ed).
Qed.

Definition conf_ok (env : env) : Prop := names_bytes (env_manufacturers env).

Lemma lookup_ok : forall env id, conf_ok env -> is_bytes (m_region (lookup_manufacturer env id)) /\ is_bytes (m_name (lookup_manufacturer env id)).
Proof.
  intros env id H. assert (U : forall id', is_bytes (m_region (Manufacturer id' (str "<unknown>") (str "<unknown>"))) /\
     is_bytes (m_name (Manufacturer id' (str "<unknown>") (str "<unknown>")))).
  { intro id'. cbn [m_region m_name]. split; apply check_bytes; reflexivity. }
  assert (A : forall k l, Forall (fun x => is_bytes (m_region (snd x)) /\ is_bytes (m_name (snd x))) l -> forall d, is_bytes (m_region d) /\ is_bytes (m_name d) ->
     is_bytes (m_region (match assocb k l with Some m => m | None => d end)) /\ is_bytes (m_name (match assocb k l with Some m => m | None => d end))).
  { intros k l F d D. induction F as [|[k' m] l Hx F IH]; cbn [assocb]; [exact D|]. destruct (bytes_eqb _ _); [exact Hx|exact IH]. }
  unfold lookup_manufacturer. destruct id as [|a [|b [|c [|]]]]; try apply U; apply A; try exact H; apply U.
Qed.
