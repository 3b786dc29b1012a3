(** * JsonTextProofs: JSON texts that are written and read. *)
From Verif Require Import Base Strings Utf8 SpecText SpecDecimal Json JsonText SpecJsonText Utf8Proofs DecimalProofs.

(** ** White space *)

Lemma space_white : forall c, (c = 32 \/ c = 9 \/ c = 10 \/ c = 13) <-> space c = true.
Proof. intro c. unfold space. lia. Qed.

Lemma skip_white : forall w s, white w -> skip (w ++ s) = skip s.
Proof. intros w s H. induction H as [|c w C H IH]; [reflexivity|]. cbn [app skip]. apply space_white in C. rewrite C. exact IH. Qed.

Lemma skip_stop : forall c s, space c = false -> skip (c :: s) = c :: s.
Proof. intros c s H. cbn [skip]. rewrite H. reflexivity. Qed.

(** ** Strings *)

Lemma hex_value_spec : forall c v, hex_digit c v -> hex_value c = Some v /\ 0 <= v < 16.
Proof.
  intros c v H. unfold hex_value, is_dec. destruct H as [v H|v H|v H]; (split; [|lia]).
  - replace ((48 <=? 48 + v) && (48 + v <=? 57)) with true by lia. f_equal. lia.
  - replace ((48 <=? 55 + v) && (55 + v <=? 57)) with false by lia. replace ((97 <=? 55 + v) && (55 + v <=? 102)) with false by lia.
    replace ((65 <=? 55 + v) && (55 + v <=? 70)) with true by lia. f_equal. lia.
  - replace ((48 <=? 87 + v) && (87 + v <=? 57)) with false by lia. replace ((97 <=? 87 + v) && (87 + v <=? 102)) with true by lia. f_equal. lia.
Qed.

Lemma u4_spec : forall h v, four_hex h v -> exists a b c d, h = [a; b; c; d] /\ u4 a b c d = Some v.
Proof.
  intros h v H. destruct H as [a b c d v1 v2 v3 v4 H1 H2 H3 H4]. exists a, b, c, d. split; [reflexivity|]. unfold u4.
  destruct (hex_value_spec _ _ H1) as [-> _]. destruct (hex_value_spec _ _ H2) as [-> _].
  destruct (hex_value_spec _ _ H3) as [-> _]. destruct (hex_value_spec _ _ H4) as [-> _]. reflexivity.
Qed.

Lemma encode_rune_spec : forall cp c, utf8 cp c -> encode_rune cp = c.
Proof.
  intros cp c H. unfold encode_rune. destruct H.
  - replace (cp <? 128) with true by lia. reflexivity.
  - replace (cp <? 128) with false by lia. replace (cp <? 2048) with true by lia. reflexivity.
  - replace (cp <? 128) with false by lia. replace (cp <? 2048) with false by lia. replace (cp <? 65536) with true by lia. reflexivity.
  - replace (cp <? 128) with false by lia. replace (cp <? 2048) with false by lia. replace (cp <? 65536) with false by lia. reflexivity.
Qed.

Lemma utf8_range : forall cp c, utf8 cp c -> 0 <= cp < 1114112 /\ ~ (55296 <= cp < 57344).
Proof. intros cp c H. destruct H; lia. Qed.

Lemma utf8_bytes : forall cp c, utf8 cp c -> (cp < 128 /\ c = [cp]) \/ (128 <= cp /\ Forall (fun b => 128 <= b < 256) c).
Proof.
  intros cp c H. destruct H; [left; split; [lia|reflexivity]|right; split; [lia|]..]; repeat constructor; lia.
Qed.

Lemma unescape_plain : forall c r t rest, Forall (fun b => 32 <= b /\ b <> 34 /\ b <> 92) c -> unescape r = Ok (t, rest) ->
  unescape (c ++ r) = Ok (c ++ t, rest).
Proof.
  intros c r t rest H E. induction H as [|b c B H IH]; [exact E|]. cbn [app unescape].
  replace (b =? 34) with false by lia. replace (b =? 92) with false by lia. replace (b <? 32) with false by lia. rewrite IH. reflexivity.
Qed.

Lemma unescape_char : forall c x r t rest, char_text c x -> unescape r = Ok (t, rest) -> unescape (x ++ r) = Ok (c ++ t, rest).
Proof.
  intros c x r t rest H E. destruct H as [cp c U A B C|x e H|cp c h H U|hi lo c h l H1 H2 R1 R2 U].
  - apply unescape_plain; [|exact E]. destruct (utf8_bytes _ _ U) as [[L ->]|[L F]]; [repeat constructor; lia|].
    revert F. apply Forall_impl. intros b ?. lia.
  - cbn [In] in H. decompose [or] H; try contradiction; match goal with K : (_, _) = (_, _) |- _ => injection K as <- <- end; cbn [app unescape Z.eqb Pos.eqb]; unfold short_escape; cbn [Z.eqb Pos.eqb]; rewrite E; reflexivity.
  - destruct (u4_spec _ _ H) as (a & b & cc & d & -> & V). pose proof (utf8_range _ _ U). cbn [app unescape Z.eqb Pos.eqb].
    rewrite V. replace ((55296 <=? cp) && (cp <? 57344)) with false by lia. rewrite E. cbn [bind]. rewrite (encode_rune_spec _ _ U). reflexivity.
  - destruct (u4_spec _ _ H1) as (a & b & cc & d & -> & V1). destruct (u4_spec _ _ H2) as (a' & b' & cc' & d' & -> & V2). cbn [app unescape Z.eqb Pos.eqb].
    rewrite V1. replace ((55296 <=? hi) && (hi <? 57344)) with true by lia. rewrite V2.
    replace (true && true && (hi <? 56320) && (56320 <=? lo) && (lo <? 57344)) with true by lia. rewrite E. cbn [bind]. rewrite (encode_rune_spec _ _ U). reflexivity.
Qed.

Lemma unescape_chars : forall s t rest, chars_text s t -> unescape (t ++ 34 :: rest) = Ok (s, rest).
Proof.
  intros s t rest H. induction H as [|c x s u C H IH]; [reflexivity|]. rewrite <- app_assoc. apply unescape_char; assumption.
Qed.

Lemma char_text_utf8 : forall c t, char_text c t -> exists cp, utf8 cp c.
Proof.
  intros c t H. destruct H as [cp c U A B C|x e H|cp c h H U|hi lo c h l H1 H2 R1 R2 U]; eauto. exists x. apply utf8_1.
  cbn [In] in H. decompose [or] H; try contradiction; match goal with K : (_, _) = (_, _) |- _ => injection K as <- <- end; lia.
Qed.

Lemma chars_text_well_formed : forall s t, chars_text s t -> well_formed s.
Proof. intros s t H. induction H as [|c x s u C H IH]; [constructor|]. destruct (char_text_utf8 _ _ C) as [cp U]. econstructor; eassumption. Qed.

Lemma read_quoted_text : forall s t rest, chars_text s t -> read_quoted (t ++ 34 :: rest) = Ok (s, rest).
Proof.
  intros s t rest H. unfold read_quoted. rewrite (unescape_chars _ _ _ H). cbn [bind].
  rewrite well_formed_runes by (apply (chars_text_well_formed _ _ H)). reflexivity.
Qed.

(** ** Numbers *)

(** What follows a number does not continue it. *)
Definition stops (rest : bytes) : Prop :=
  match rest with c :: _ => is_dec c = false /\ c <> 46 /\ c <> 101 /\ c <> 69 | [] => True end.

Lemma take_digits_all : forall d rest, Forall is_digit d -> match rest with c :: _ => is_dec c = false | [] => True end -> take_digits (d ++ rest) = (d, rest).
Proof.
  intros d rest H S. induction H as [|c d C H IH].
  - destruct rest as [|c r]; [reflexivity|]. cbn [app take_digits]. rewrite S. reflexivity.
  - cbn [app take_digits]. unfold is_digit in C. unfold is_dec at 1. replace ((48 <=? c) && (c <=? 57)) with true by lia. rewrite IH. reflexivity.
Qed.

Lemma int_part_all : forall i rest, i = [48] \/ (Forall is_digit i /\ 49 <= hd 0 i) -> match rest with c :: _ => is_dec c = false | [] => True end ->
  int_part (i ++ rest) = Ok (i, rest).
Proof.
  intros i rest [-> | [H N]] S; [reflexivity|]. destruct i as [|c i]; [cbn in N; lia|]. pose proof (take_digits_all _ _ H S) as T.
  cbn [app] in *. unfold int_part. cbn [hd] in N. inversion H; subst. unfold is_digit in *.
  replace (c =? 48) with false by lia. unfold is_dec at 1. replace ((48 <=? c) && (c <=? 57)) with true by lia. rewrite T. reflexivity.
Qed.

Lemma fraction_all : forall f rest, f = [] \/ (exists ds, f = 46 :: ds /\ digits1 ds) -> match rest with c :: _ => is_dec c = false /\ c <> 46 | [] => True end ->
  fraction (f ++ rest) = Ok (match f with [] => false | _ => true end, rest).
Proof.
  intros f rest [-> | (ds & -> & N & D)] S.
  - destruct rest as [|c r]; [reflexivity|]. cbn [app fraction]. replace (c =? 46) with false by lia. reflexivity.
  - cbn [app fraction Z.eqb Pos.eqb]. rewrite take_digits_all; [|exact D|destruct rest; [exact I|tauto]]. destruct ds; [congruence|reflexivity].
Qed.

Lemma exponent_all : forall e rest, e = [] \/ (exists m s ds, e = m :: s ++ ds /\ (m = 69 \/ m = 101) /\ (s = [] \/ s = [43] \/ s = [45]) /\ digits1 ds) -> stops rest ->
  exponent (e ++ rest) = Ok (match e with [] => false | _ => true end, rest).
Proof.
  intros e rest [-> | (m & s & ds & -> & M & S & N & D)] St.
  - destruct rest as [|c r]; [reflexivity|]. cbn [stops] in St. cbn [app exponent]. replace ((c =? 101) || (c =? 69)) with false by lia. reflexivity.
  - cbn [app exponent]. replace ((m =? 101) || (m =? 69)) with true by lia. rewrite <- app_assoc.
    assert (T : take_digits (ds ++ rest) = (ds, rest)) by (apply take_digits_all; [exact D|destruct rest; [exact I|cbn [stops] in St; tauto]]).
    destruct S as [-> | [-> | ->]]; cbn [app].
    + destruct ds as [|d ds]; [congruence|]. cbn [app] in *. assert (Dd : is_digit d) by (inversion D; assumption). unfold is_digit in Dd.
      replace ((d =? 43) || (d =? 45)) with false by lia. rewrite T. reflexivity.
    + cbn [Z.eqb Pos.eqb orb]. rewrite T. destruct ds; [congruence|reflexivity].
    + cbn [Z.eqb Pos.eqb orb]. rewrite T. destruct ds; [congruence|reflexivity].
Qed.

Lemma number_parts : forall sign i f e rest, sign = [] \/ sign = [45] -> i = [48] \/ (Forall is_digit i /\ 49 <= hd 0 i) ->
  f = [] \/ (exists ds, f = 46 :: ds /\ digits1 ds) ->
  e = [] \/ (exists m s ds, e = m :: s ++ ds /\ (m = 69 \/ m = 101) /\ (s = [] \/ s = [43] \/ s = [45]) /\ digits1 ds) -> stops rest ->
  number ((sign ++ i ++ f ++ e) ++ rest) =
    Ok (let neg := match sign with [] => false | _ => true end in
        if (match f with [] => false | _ => true end) || (match e with [] => false | _ => true end) || (neg && (digits_value i =? 0)) then JReal
        else JNum (if neg then - digits_value i else digits_value i), rest).
Proof.
  intros sign i f e rest Hs Hi Hf He Hr. unfold number.
  assert (E3 : match e ++ rest with c :: _ => is_dec c = false /\ c <> 46 | [] => True end).
  { destruct He as [-> | (m & s & ds & -> & M & _)]; [destruct rest; [exact I|cbn [stops] in Hr; cbn [app]; tauto]|]. cbn [app]. unfold is_dec. lia. }
  assert (E2 : match f ++ e ++ rest with c :: _ => is_dec c = false | [] => True end).
  { destruct Hf as [-> | (ds & -> & _)]; [cbn [app]; destruct (e ++ rest); [exact I|tauto]|reflexivity]. }
  assert (Hd : exists c r, i ++ f ++ e ++ rest = c :: r /\ 48 <= c <= 57).
  { destruct Hi as [-> | [D N]]; [cbn [app]; eexists _, _; split; [reflexivity|lia]|]. destruct i as [|c i]; [cbn in N; lia|].
    inversion D; subst. unfold is_digit in *. cbn [app]. eexists _, _. split; [reflexivity|lia]. }
  assert (P : (do (i0, s2) <- int_part (i ++ f ++ e ++ rest); do (f0, s3) <- fraction s2; do (e0, s4) <- exponent s3;
    (fun (_ : bytes) => Ok (i0, f0, e0, s4)) []) = Ok (i, match f with [] => false | _ => true end, match e with [] => false | _ => true end, rest)).
  { rewrite int_part_all by assumption. cbn [bind]. rewrite fraction_all by assumption. cbn [bind]. rewrite exponent_all by assumption. reflexivity. }
  destruct Hs as [-> | ->]; rewrite <- ?app_assoc; cbn [app].
  - destruct Hd as (c & r & E & C). rewrite E. replace (c =? 45) with false by lia. rewrite <- E.
    rewrite int_part_all by assumption. cbn [bind]. rewrite fraction_all by assumption. cbn [bind]. rewrite exponent_all by assumption. reflexivity.
  - cbn [Z.eqb Pos.eqb].
    rewrite int_part_all by assumption. cbn [bind]. rewrite fraction_all by assumption. cbn [bind]. rewrite exponent_all by assumption. reflexivity.
Qed.

Lemma number_int : forall n s rest, decimal n s -> stops rest -> number (s ++ rest) = Ok (JNum n, rest).
Proof.
  intros n s rest H S. destruct H as [|s D N|s D N].
  - pose proof (number_parts [] [48] [] [] rest (or_introl eq_refl) (or_introl eq_refl) (or_introl eq_refl) (or_introl eq_refl) S) as E.
    cbn [app] in E. exact E.
  - pose proof (number_parts [] s [] [] rest (or_introl eq_refl) (or_intror (conj D N)) (or_introl eq_refl) (or_introl eq_refl) S) as E.
    cbn [app] in E. rewrite app_nil_r in E. exact E.
  - pose proof (number_parts [45] s [] [] rest (or_intror eq_refl) (or_intror (conj D N)) (or_introl eq_refl) (or_introl eq_refl) S) as E.
    cbn [app] in E |- *. rewrite app_nil_r in E. rewrite E. cbv zeta. cbn [orb andb]. pose proof (value_pos s D N).
    replace (digits_value s =? 0) with false by lia. reflexivity.
Qed.

Lemma number_real : forall s rest, real_text s -> stops rest -> number (s ++ rest) = Ok (JReal, rest).
Proof.
  intros s rest H S. destruct H as [sign i f e H1 H2 H3 H4 H5]. rewrite number_parts by assumption. cbv zeta. do 2 f_equal.
  destruct H5 as [H5 | [H5 | [-> ->]]]; [destruct f; [congruence|reflexivity]|destruct e; [congruence|rewrite orb_true_r; reflexivity]|].
  cbn. rewrite !orb_true_r. reflexivity.
Qed.

(** ** Values *)

Definition is_number (v : json) : bool := match v with JNum _ | JReal => true | _ => false end.

Lemma decimal_first : forall n s, decimal n s -> exists c r, s = c :: r /\ (c = 45 \/ 48 <= c <= 57).
Proof.
  intros n s H. destruct H as [|s D N|s D N]; [eexists _, _; split; [reflexivity|lia]| |eexists _, _; split; [reflexivity|lia]].
  destruct s as [|c s]; [cbn in N; lia|]. inversion D; subst. unfold is_digit in *. eexists _, _. split; [reflexivity|lia].
Qed.

Lemma real_first : forall s, real_text s -> exists c r, s = c :: r /\ (c = 45 \/ 48 <= c <= 57).
Proof.
  intros s H. destruct H as [sign i f e H1 H2 H3 H4 H5]. destruct H1 as [-> | ->]; [|eexists _, _; split; [reflexivity|lia]].
  destruct H2 as [-> | [D N]]; [eexists _, _; split; [reflexivity|lia]|]. destruct i as [|c s]; [cbn in N; lia|]. inversion D; subst. unfold is_digit in *.
  eexists _, _. split; [reflexivity|lia].
Qed.

Lemma text_first : forall chars v s, json_in chars v s -> exists c r, s = c :: r /\ space c = false /\ c <> 93 /\ c <> 125.
Proof.
  intros chars v s H. destruct H as [| | |n s D|s R|s t S|w W|l s E|w W|o s E];
    try (match goal with |- exists c r, str ?x = c :: r /\ _ => let y := eval vm_compute in (str x) in change (str x) with y end);
    try (eexists _, _; split; [reflexivity|]; split; [reflexivity|lia]).
  - destruct (decimal_first _ _ D) as (c & r & -> & C). eexists _, _. split; [reflexivity|]. unfold space. lia.
  - destruct (real_first _ R) as (c & r & -> & C). eexists _, _. split; [reflexivity|]. unfold space. lia.
  - destruct S. eexists _, _. split; [reflexivity|]. split; [reflexivity|lia].
Qed.

Lemma skip_text : forall chars v s r, json_in chars v s -> skip (s ++ r) = s ++ r.
Proof. intros chars v s r H. destruct (text_first _ _ _ H) as (c & x & -> & S & _). cbn [app]. apply skip_stop, S. Qed.

Lemma white_stops : forall w rest, white w -> stops rest -> stops (w ++ rest).
Proof. intros w rest W S. destruct W as [|c w C W]; [exact S|]. cbn [app stops]. unfold is_dec. lia. Qed.

Lemma value_number : forall f d s rest v, (exists c r, s = c :: r /\ (c = 45 \/ 48 <= c <= 57)) -> number (s ++ rest) = Ok (v, rest) ->
  value (S f) d (s ++ rest) = Ok (v, rest).
Proof.
  intros f d s rest v (c & r & -> & C) N. cbn [app value] in *.
  replace (c =? 123) with false by lia. replace (c =? 91) with false by lia. replace (c =? 34) with false by lia. replace (c =? 116) with false by lia.
  replace (c =? 102) with false by lia. replace (c =? 110) with false by lia. exact N.
Qed.

Scheme json_in_mut := Induction for json_in Sort Prop
with elements_in_mut := Induction for elements_in Sort Prop
with members_in_mut := Induction for members_in Sort Prop.

Definition depth_list (l : list json) : Z := fold_right (fun v m => Z.max (depth v) m) 0 l.
Definition depth_fields (o : list (bytes * json)) : Z := fold_right (fun f m => Z.max (depth (snd f)) m) 0 o.

Lemma elements_first : forall chars l s rest, elements_in chars l s -> exists x r, skip (s ++ rest) = x :: r /\ x <> 93.
Proof.
  intros chars l s rest H. destruct H as [w1 v s w2 W1 T W2|w1 v s w2 l t W1 T W2 E]; rewrite <- ?app_assoc, skip_white by assumption;
    rewrite (skip_text _ _ _ _ T); destruct (text_first _ _ _ T) as (c & x & -> & _ & C & _); cbn [app]; eauto.
Qed.

Lemma string_first : forall chars s t, string_in chars s t -> exists x, t = 34 :: x.
Proof. intros chars s t H. destruct H. eauto. Qed.

Lemma members_first : forall chars o s rest, members_in chars o s -> exists r, skip (s ++ rest) = 34 :: r.
Proof.
  intros chars o s rest H. destruct H as [w1 k kt w2 w3 v s w4 W1 K W2 W3 T W4|w1 k kt w2 w3 v s w4 o t W1 K W2 W3 T W4 E]; rewrite <- ?app_assoc, skip_white by assumption;
    destruct (string_first _ _ _ K) as [x ->]; cbn [app]; rewrite skip_stop by reflexivity; eauto.
Qed.

Theorem value_in : forall chars : bytes -> bytes -> Prop, (forall s t rest, chars s t -> read_quoted (t ++ 34 :: rest) = Ok (s, rest)) ->
  forall v s, json_in chars v s -> forall f d rest, (2 * length s <= f)%nat -> d + depth v <= 10000 ->
  (is_number v = true -> stops rest) -> value f d (s ++ rest) = Ok (v, rest).
Proof.
  intros chars Q. apply (json_in_mut chars
    (fun v s _ => forall f d rest, (2 * length s <= f)%nat -> d + depth v <= 10000 -> (is_number v = true -> stops rest) -> value f d (s ++ rest) = Ok (v, rest))
    (fun l s _ => forall f d rest, (2 * length s + 1 <= f)%nat -> d + depth_list l <= 10000 -> elems f d (skip (s ++ 93 :: rest)) = Ok (l, rest))
    (fun o s _ => forall f d rest, (2 * length s + 1 <= f)%nat -> d + depth_fields o <= 10000 -> members f d (skip (s ++ 125 :: rest)) = Ok (o, rest))).
  - intros f d rest F D N. destruct f; [cbn in F; lia|]. reflexivity.
  - intros f d rest F D N. destruct f; [cbn in F; lia|]. reflexivity.
  - intros f d rest F D N. destruct f; [cbn in F; lia|]. reflexivity.
  - intros n s Hn f d rest F D N. pose proof (decimal_first _ _ Hn) as C. destruct f; [destruct C as (c & r & -> & _); cbn in F; lia|].
    apply value_number; [exact C|]. apply number_int; auto.
  - intros s Hn f d rest F D N. pose proof (real_first _ Hn) as C. destruct f; [destruct C as (c & r & -> & _); cbn in F; lia|].
    apply value_number; [exact C|]. apply number_real; auto.
  - intros s t H f d rest F D N. destruct f; [destruct (string_first _ _ _ H) as [x ->]; cbn in F; lia|]. destruct H as [s t C].
    cbn [app value Z.eqb Pos.eqb]. rewrite <- app_assoc. cbn [app]. rewrite (Q _ _ _ C). reflexivity.
  - intros w W f d rest F D N. destruct f; [cbn in F; lia|]. cbn [depth fold_right] in D. cbn [app value Z.eqb Pos.eqb].
    replace (10000 <=? d) with false by lia. rewrite <- app_assoc, skip_white by exact W. reflexivity.
  - intros l s E IH f d rest F D N. destruct f; [cbn in F; lia|]. change (depth (JArr l)) with (1 + depth_list l) in D.
    cbn [length] in F. rewrite app_length in F. cbn [length] in F.
    assert (L0 : 0 <= depth_list l) by (clear; induction l; cbn [depth_list fold_right]; [lia|unfold depth_list in IHl; lia]).
    cbn [app value Z.eqb Pos.eqb]. replace (10000 <=? d) with false by lia. rewrite <- app_assoc. cbn [app].
    specialize (IH f (d + 1) rest ltac:(lia) ltac:(lia)). destruct (elements_first _ _ _ (93 :: rest) E) as (x & r & Es & Ex). rewrite Es in *.
    replace (x =? 93) with false by lia. rewrite IH. reflexivity.
  - intros w W f d rest F D N. destruct f; [cbn in F; lia|]. cbn [depth fold_right] in D. cbn [app value Z.eqb Pos.eqb].
    replace (10000 <=? d) with false by lia. rewrite <- app_assoc, skip_white by exact W. reflexivity.
  - intros o s E IH f d rest F D N. destruct f; [cbn in F; lia|]. change (depth (JObj o)) with (1 + depth_fields o) in D.
    cbn [length] in F. rewrite app_length in F. cbn [length] in F.
    assert (L0 : 0 <= depth_fields o) by (clear; induction o; cbn [depth_fields fold_right]; [lia|unfold depth_fields in IHo; lia]).
    cbn [app value Z.eqb Pos.eqb]. replace (10000 <=? d) with false by lia. rewrite <- app_assoc. cbn [app].
    specialize (IH f (d + 1) rest ltac:(lia) ltac:(lia)). destruct (members_first _ _ _ (125 :: rest) E) as (r & Es). rewrite Es in *.
    cbn [Z.eqb Pos.eqb]. rewrite IH. reflexivity.
  - intros w1 v s w2 W1 T IH W2 f d rest F D. rewrite !app_length in F. destruct f; [lia|]. unfold depth_list in D. cbn [fold_right] in D.
    rewrite <- !app_assoc, skip_white, (skip_text _ _ _ _ T) by exact W1. cbn [elems].
    rewrite IH; [|lia|lia|intros _; apply white_stops; [exact W2|cbn; unfold is_dec; lia]]. cbn [bind]. rewrite skip_white by exact W2. reflexivity.
  - intros w1 v s w2 l t W1 T IH W2 E IHl f d rest F D. rewrite !app_length in F. cbn [length] in F. destruct f; [lia|]. unfold depth_list in D. cbn [fold_right] in D. fold (depth_list l) in D.
    rewrite <- !app_assoc, skip_white, (skip_text _ _ _ _ T) by exact W1. cbn [elems app].
    rewrite IH; [|lia|lia|intros _; apply white_stops; [exact W2|cbn; unfold is_dec; lia]]. cbn [bind]. rewrite skip_white by exact W2. rewrite skip_stop by reflexivity.
    cbn [Z.eqb Pos.eqb]. rewrite IHl by lia. reflexivity.
  - intros w1 k kt w2 w3 v s w4 W1 K W2 W3 T IH W4 f d rest F D. rewrite !app_length in F. cbn [length] in F. rewrite !app_length in F. destruct f; [lia|].
    unfold depth_fields in D. cbn [fold_right snd] in D. destruct K as [k t C].
    rewrite <- !app_assoc, skip_white by exact W1. cbn [app]. rewrite skip_stop by reflexivity. cbn [members Z.eqb Pos.eqb]. rewrite <- !app_assoc. cbn [app].
    rewrite (Q _ _ _ C). cbn [bind]. rewrite skip_white by exact W2. rewrite skip_stop by reflexivity. cbn [Z.eqb Pos.eqb].
    rewrite <- ?app_assoc, skip_white, (skip_text _ _ _ _ T) by exact W3.
    rewrite IH; [|lia|lia|intros _; apply white_stops; [exact W4|cbn; unfold is_dec; lia]]. cbn [bind]. rewrite skip_white by exact W4. reflexivity.
  - intros w1 k kt w2 w3 v s w4 o u W1 K W2 W3 T IH W4 E IHo f d rest F D. rewrite !app_length in F. cbn [length] in F. rewrite !app_length in F. cbn [length] in F. destruct f; [lia|].
    unfold depth_fields in D. cbn [fold_right snd] in D. fold (depth_fields o) in D. destruct K as [k t C].
    rewrite <- !app_assoc, skip_white by exact W1. cbn [app]. rewrite skip_stop by reflexivity. cbn [members Z.eqb Pos.eqb]. rewrite <- !app_assoc. cbn [app].
    rewrite (Q _ _ _ C). cbn [bind]. rewrite skip_white by exact W2. rewrite skip_stop by reflexivity. cbn [Z.eqb Pos.eqb].
    rewrite <- ?app_assoc, skip_white, (skip_text _ _ _ _ T) by exact W3. cbn [app].
    rewrite IH; [|lia|lia|intros _; apply white_stops; [exact W4|cbn; unfold is_dec; lia]]. cbn [bind]. rewrite skip_white by exact W4. rewrite skip_stop by reflexivity.
    cbn [Z.eqb Pos.eqb]. rewrite IHo by lia. reflexivity.
Qed.

Theorem value_text : forall v s, json_text v s -> forall f d rest, (2 * length s <= f)%nat -> d + depth v <= 10000 ->
  (is_number v = true -> stops rest) -> value f d (s ++ rest) = Ok (v, rest).
Proof. apply value_in. exact read_quoted_text. Qed.
