(** * JsonReadProofs: what the JSON reader accepts. *)
From Verif Require Import Base Strings Tables Event SpecText SpecDecimal Json Utf8 Utf8Proofs JsonText SpecJsonText DecimalProofs JsonTextProofs JsonWriteProofs JsonExportProofs.

Lemma bind_ok : forall A B (x : outcome A) (f : A -> outcome B) y, bind x f = Ok y -> exists a, x = Ok a /\ f a = Ok y.
Proof. intros A B x f y H. destruct x; cbn [bind] in H; try discriminate. eauto. Qed.

(** ** Characters *)

Lemma hex_value_inv : forall c v, hex_value c = Some v -> hex_digit c v /\ 0 <= v < 16.
Proof.
  intros c v H. unfold hex_value, is_dec in H. destruct ((48 <=? c) && (c <=? 57)) eqn:E1.
  { injection H as <-. split; [|lia]. replace c with (48 + (c - 48)) at 1 by lia. constructor. lia. }
  destruct ((97 <=? c) && (c <=? 102)) eqn:E2.
  { injection H as <-. split; [|lia]. replace c with (87 + (c - 87)) at 1 by lia. apply hd_lower. lia. }
  destruct ((65 <=? c) && (c <=? 70)) eqn:E3; [|discriminate].
  injection H as <-. split; [|lia]. replace c with (55 + (c - 55)) at 1 by lia. apply hd_upper. lia.
Qed.

Lemma u4_inv : forall a b c d v, u4 a b c d = Some v -> four_hex [a; b; c; d] v /\ 0 <= v < 65536.
Proof.
  intros a b c d v H. unfold u4 in H. destruct (hex_value a) as [x1|] eqn:E1; [|discriminate]. destruct (hex_value b) as [x2|] eqn:E2; [|discriminate].
  destruct (hex_value c) as [x3|] eqn:E3; [|discriminate]. destruct (hex_value d) as [x4|] eqn:E4; [|discriminate]. injection H as <-.
  apply hex_value_inv in E1 as [E1 ?], E2 as [E2 ?], E3 as [E3 ?], E4 as [E4 ?]. split; [constructor; assumption|lia].
Qed.

Lemma encode_rune_utf8 : forall cp, 0 <= cp < 1114112 -> ~ (55296 <= cp < 57344) -> utf8 cp (encode_rune cp).
Proof.
  intros cp R S. unfold encode_rune. destruct (cp <? 128) eqn:E1; [constructor; lia|]. destruct (cp <? 2048) eqn:E2; [constructor; lia|].
  destruct (cp <? 65536) eqn:E3; constructor; lia.
Qed.

(** A pair of code units, the first of which is [cp]. *)
Definition pair_follows (cp : Z) (u : bytes) : Prop :=
  cp < 56320 /\ exists l lo v, u = 92 :: 117 :: l ++ v /\ four_hex l lo /\ 56320 <= lo < 57344.

Lemma short_escape_inv : forall c x, short_escape c = Some x -> char_text [x] [92; c].
Proof.
  intros c x H. apply ct_escape. unfold short_escape in H.
  repeat match type of H with (if (c =? ?n) then _ else _) = _ =>
    destruct (c =? n) eqn:?; [injection H as <-; replace c with n by lia; cbn [In]; repeat (first [left; reflexivity|right])|] end.
  discriminate.
Qed.

Lemma unescape_inv : forall s t rest, unescape s = Ok (t, rest) ->
  (t = [] /\ s = 34 :: rest) \/
  (exists b s' t', s = b :: s' /\ t = b :: t' /\ 32 <= b /\ b <> 34 /\ b <> 92 /\ unescape s' = Ok (t', rest)) \/
  (exists c x s' t', char_text c x /\ (2 <= length x)%nat /\ s = x ++ s' /\ t = c ++ t' /\ unescape s' = Ok (t', rest)) \/
  (exists cp h s' t', four_hex h cp /\ 55296 <= cp < 57344 /\ ~ pair_follows cp s' /\ s = 92 :: 117 :: h ++ s' /\ t = no_char ++ t' /\ unescape s' = Ok (t', rest)).
Proof.
  intros s t rest H. destruct s as [|b r]; [discriminate|]. cbn [unescape] in H. destruct (b =? 34) eqn:E34.
  { apply Ok_inj, pair_equal_spec in H as [<- <-]. left. split; [reflexivity|]. f_equal. lia. }
  destruct (b =? 92) eqn:E92.
  2: { destruct (b <? 32) eqn:E32; [discriminate|]. apply bind_ok in H as ([t' rest'] & U & H). apply Ok_inj, pair_equal_spec in H as [<- <-].
       right. left. exists b, r, t'. repeat split; try assumption; lia. }
  replace b with 92 in * by lia. clear E92 E34. destruct r as [|c r1]; [discriminate|]. destruct (c =? 117) eqn:E117.
  2: { destruct (short_escape c) as [x|] eqn:S; [|discriminate]. apply bind_ok in H as ([t' rest'] & U & H). apply Ok_inj, pair_equal_spec in H as [<- <-].
       right. right. left. exists [x], [92; c], r1, t'. split; [apply short_escape_inv, S|]. repeat split; try assumption. cbn. lia. }
  replace c with 117 in * by lia. clear E117.
  destruct r1 as [|h1 r1]; [discriminate|]. destruct r1 as [|h2 r1]; [discriminate|]. destruct r1 as [|h3 r1]; [discriminate|]. destruct r1 as [|h4 r2]; [discriminate|].
  destruct (u4 h1 h2 h3 h4) as [cp|] eqn:E; [|discriminate]. apply u4_inv in E as [F R].
  destruct ((55296 <=? cp) && (cp <? 57344)) eqn:Sur.
  2: { apply bind_ok in H as ([t' rest'] & U & H). apply Ok_inj, pair_equal_spec in H as [<- <-]. right. right. left. exists (encode_rune cp), (92 :: 117 :: [h1; h2; h3; h4]), r2, t'.
       split; [apply (ct_unit cp); [exact F|]; apply encode_rune_utf8; lia|]. split; [cbn; lia|]. repeat split. exact U. }
  assert (Half : ~ pair_follows cp r2 -> (do (t, rest) <- unescape r2; Ok (replacement ++ t, rest)) = Ok (t, rest) ->
    (exists cp h s' t', four_hex h cp /\ 55296 <= cp < 57344 /\ ~ pair_follows cp s' /\ 92 :: 117 :: h1 :: h2 :: h3 :: h4 :: r2 = 92 :: 117 :: h ++ s' /\ t = no_char ++ t' /\ unescape s' = Ok (t', rest))).
  { intros P K. apply bind_ok in K as ([t' rest'] & U & K). apply Ok_inj, pair_equal_spec in K as [<- <-]. exists cp, [h1; h2; h3; h4], r2, t'.
    split; [exact F|]. split; [lia|]. split; [exact P|]. repeat split. exact U. }
  assert (Short : (length r2 < 6)%nat -> ~ pair_follows cp r2).
  { intros L (_ & l & lo & v & -> & Fl & _). destruct Fl. cbn in L. lia. }
  destruct r2 as [|x r2]; [right; right; right; apply Half; [apply Short; cbn; lia|exact H]|].
  destruct r2 as [|y r2]; [right; right; right; apply Half; [apply Short; cbn; lia|exact H]|].
  destruct r2 as [|l1 r2]; [right; right; right; apply Half; [apply Short; cbn; lia|exact H]|].
  destruct r2 as [|l2 r2]; [right; right; right; apply Half; [apply Short; cbn; lia|exact H]|].
  destruct r2 as [|l3 r2]; [right; right; right; apply Half; [apply Short; cbn; lia|exact H]|].
  destruct r2 as [|l4 r3]; [right; right; right; apply Half; [apply Short; cbn; lia|exact H]|].
  destruct (u4 l1 l2 l3 l4) as [lo|] eqn:El.
  2: { right. right. right. apply Half; [|exact H]. intros (_ & l & lo & v & Eq & Fl & _). pose proof (u4_spec _ _ Fl) as (a & b' & c' & d & -> & U).
       cbn [app] in Eq. injection Eq as -> -> -> -> -> -> ->. congruence. }
  destruct ((x =? 92) && (y =? 117) && (cp <? 56320) && (56320 <=? lo) && (lo <? 57344)) eqn:C.
  - apply bind_ok in H as ([t' rest'] & U & H). apply Ok_inj, pair_equal_spec in H as [<- <-]. right. right. left.
    replace x with 92 by lia. replace y with 117 by lia. apply u4_inv in El as [Fl Rl].
    exists (encode_rune (65536 + (cp - 55296) * 1024 + (lo - 56320))), (92 :: 117 :: [h1; h2; h3; h4] ++ 92 :: 117 :: [l1; l2; l3; l4]), r3, t'.
    split; [apply (ct_pair cp lo); [exact F|exact Fl|lia|lia|apply encode_rune_utf8; lia]|]. split; [cbn; lia|]. repeat split. exact U.
  - right. right. right. apply Half; [|exact H]. intros (Lo & l & lo' & v & Eq & Fl & Rl). pose proof (u4_spec _ _ Fl) as (a & b' & c' & d & -> & U).
    cbn [app] in Eq. injection Eq as -> -> -> -> -> -> ->. rewrite U in El. injection El as ->. lia.
Qed.

(** Continuation bytes. *)
Definition conts (c : bytes) : Prop := Forall (fun b => 128 <= b < 192) c.

Lemma utf8_shape : forall cp c, utf8 cp c -> exists b c', c = b :: c' /\ ~ (128 <= b < 192) /\ conts c'.
Proof. intros cp c H. destruct H; eexists _, _; (split; [reflexivity|]); (split; [lia|]); repeat (constructor; [lia|]); constructor. Qed.

Lemma unescape_cont : forall s x t rest, unescape s = Ok (x :: t, rest) -> 128 <= x < 192 -> exists s', s = x :: s' /\ unescape s' = Ok (t, rest).
Proof.
  intros s x t rest H X. destruct (unescape_inv _ _ _ H) as [[E _]|[(b & s' & t' & -> & E & _ & _ & _ & U)|[(c & y & s' & t' & C & _ & -> & E & U)|(cp & h & s' & t' & _ & _ & _ & -> & E & U)]]].
  - discriminate.
  - injection E as -> ->. eauto.
  - exfalso. destruct (char_text_utf8 _ _ C) as [cp Uc]. destruct (utf8_shape _ _ Uc) as (b & c' & -> & N & _). cbn [app] in E. injection E as -> _. lia.
  - exfalso. cbn [no_char app] in E. injection E as -> _. lia.
Qed.

Lemma unescape_conts : forall c s t rest, conts c -> unescape s = Ok (c ++ t, rest) -> exists s', s = c ++ s' /\ unescape s' = Ok (t, rest).
Proof.
  intros c s t rest C. revert s. induction C as [|x c X C IH]; intros s H; [exists s; auto|]. cbn [app] in H.
  destruct (unescape_cont _ _ _ _ H X) as (s1 & -> & U). destruct (IH _ U) as (s2 & -> & U2). exists s2. auto.
Qed.

Lemma conts_unescape : forall c s t rest, conts c -> unescape (c ++ s) = Ok (t, rest) -> exists t', t = c ++ t' /\ unescape s = Ok (t', rest).
Proof.
  intros c s t rest C. revert t. induction C as [|x c X C IH]; intros t H; [exists t; auto|]. cbn [app unescape] in H.
  replace (x =? 34) with false in H by lia. replace (x =? 92) with false in H by lia. replace (x <? 32) with false in H by lia.
  apply bind_ok in H as ([t1 r1] & U & H). apply Ok_inj, pair_equal_spec in H as [<- <-]. destruct (IH _ U) as (t' & -> & U'). exists t'. auto.
Qed.

Lemma unescape_lax : forall n s t rest, (length s <= n)%nat -> is_bytes s -> unescape s = Ok (t, rest) ->
  exists u, s = u ++ 34 :: rest /\ lax_chars (concat (runes t)) u.
Proof.
  induction n as [|n IH]; intros s t rest L B H; [destruct s; [discriminate|cbn in L; lia]|].
  destruct (unescape_inv _ _ _ H) as [[-> ->]|[(b & s' & t' & -> & -> & B1 & B2 & B3 & U)|[(c & y & s' & t' & C & Y & -> & -> & U)|(cp & h & s' & t' & F & R & P & -> & -> & U)]]].
  - exists []. split; [reflexivity|]. constructor.
  - apply Forall_cons_iff in B as [Bb B]. cbn [length] in L. unfold is_byte in Bb.
    destruct (runes_step b t') as [(cp & c & r & Uc & E & Er)|(N & Er)]; [lia| |]; rewrite Er; cbn [concat].
    + destruct (utf8_shape _ _ Uc) as (b' & c' & -> & _ & Cc). cbn [app] in E. injection E as <- ->.
      destruct (unescape_conts _ _ _ _ Cc U) as (s2 & -> & U2). apply Forall_app in B as [Bc B].
      destruct (IH s2 r rest) as (u & -> & Lu); [rewrite app_length in L; lia|exact B|exact U2|].
      exists ((b :: c') ++ u). split; [cbn [app]; rewrite <- app_assoc; reflexivity|]. apply lc_char; [|exact Lu].
      destruct (utf8_bytes _ _ Uc) as [[Cp E]|[Cp Cs]]; [injection E as -> ->; apply (ct_plain cp); lia || exact Uc|].
      apply (ct_plain cp); [exact Uc|lia..].
    + destruct (IH s' t' rest) as (u & -> & Lu); [lia|exact B|exact U|]. exists (b :: u). split; [reflexivity|].
      change replacement with no_char. apply lc_bad; [|intros cp c v Uc E|exact Lu].
      * assert (~ b < 128); [|lia]. intro Lb. apply (N b [b] t'); [constructor; lia|reflexivity].
      * destruct (utf8_shape _ _ Uc) as (b' & c' & -> & _ & Cc). cbn [app] in E. injection E as <- ->. rewrite <- app_assoc in U.
        destruct (conts_unescape _ _ _ _ Cc U) as (t2 & -> & _). apply (N cp (b :: c') t2 Uc). reflexivity.
  - apply Forall_app in B as [_ B]. rewrite app_length in L. destruct (IH s' t' rest) as (u & -> & Lu); [lia|exact B|exact U|].
    exists (y ++ u). split; [rewrite <- app_assoc; reflexivity|]. destruct (char_text_utf8 _ _ C) as [cp Uc]. rewrite (runes_char _ _ _ Uc). cbn [concat].
    apply lc_char; assumption.
  - assert (Bs : is_bytes s') by (apply Forall_cons_iff in B as [_ B]; apply Forall_cons_iff in B as [_ B]; apply Forall_app in B as [_ B]; exact B).
    cbn [length] in L. rewrite app_length in L. destruct (IH s' t' rest) as (u & -> & Lu); [lia|exact Bs|exact U|].
    exists (92 :: 117 :: h ++ u). split; [cbn [app]; rewrite <- app_assoc; reflexivity|].
    rewrite (runes_char 65533 no_char t') by (apply (utf8_3 65533); lia). cbn [concat]. apply (lc_half cp); [exact F|exact R| |exact Lu].
    intros (Lo & l & lo & v & -> & Fl & Rl). apply P. split; [exact Lo|]. exists l, lo, (v ++ 34 :: rest). split; [|auto].
    cbn [app]. rewrite <- app_assoc. reflexivity.
Qed.

Lemma conts_before_quote : forall c u rest s, conts c -> u ++ 34 :: rest = c ++ s -> exists v, u = c ++ v.
Proof.
  intros c u rest s C. revert u. induction C as [|x c X C IH]; intros u E; [exists u; reflexivity|].
  destruct u as [|y u]; cbn [app] in E; injection E as E1 E2; [lia|]. destruct (IH _ E2) as [v ->]. exists v. cbn [app]. congruence.
Qed.

Lemma lax_unescape : forall s u, lax_chars s u -> forall rest, exists t, unescape (u ++ 34 :: rest) = Ok (t, rest) /\ concat (runes t) = s.
Proof.
  intros s u H. induction H as [|c x s u C H IH|cp h s u F R P H IH|b s u B N H IH]; intros rest.
  - exists []. split; reflexivity.
  - destruct (IH rest) as (t & U & E). exists (c ++ t). rewrite <- app_assoc. split; [apply unescape_char; assumption|].
    destruct (char_text_utf8 _ _ C) as [cp Uc]. rewrite (runes_char _ _ _ Uc). cbn [concat]. congruence.
  - destruct (IH rest) as (t & U & E). exists (no_char ++ t). split.
    2: { rewrite (runes_char 65533 no_char t) by (apply (utf8_3 65533); lia). cbn [concat]. congruence. }
    destruct (u4_spec _ _ F) as (h1 & h2 & h3 & h4 & -> & E4). cbn [app unescape Z.eqb Pos.eqb]. rewrite E4.
    replace ((55296 <=? cp) && (cp <? 57344)) with true by lia.
    change (fun '(t, rest) => Ok (replacement ++ t, rest)) with (fun '(t, rest) => @Ok (bytes * bytes) (no_char ++ t, rest)).
    assert (K : (do (t, rest) <- unescape (u ++ 34 :: rest); Ok (replacement ++ t, rest)) = Ok (no_char ++ t, rest)) by (rewrite U; reflexivity).
    destruct (u ++ 34 :: rest) as [|x [|y [|l1 [|l2 [|l3 [|l4 r3]]]]]] eqn:Eu; try exact K.
    destruct (u4 l1 l2 l3 l4) as [lo|] eqn:El; [|exact K].
    destruct ((x =? 92) && (y =? 117) && (cp <? 56320) && (56320 <=? lo) && (lo <? 57344)) eqn:C; [|exact K].
    exfalso. apply P. split; [lia|]. apply u4_inv in El as [Fl _]. exists [l1; l2; l3; l4], lo.
    assert (Q : l1 <> 34 /\ l2 <> 34 /\ l3 <> 34 /\ l4 <> 34).
    { inversion Fl as [c1 c2 c3 c4 v1 v2 v3 v4 D1 D2 D3 D4]; subst. destruct D1, D2, D3, D4; lia. }
    replace x with 92 in Eu by lia. replace y with 117 in Eu by lia. clear - Eu Fl C Q.
    do 6 (destruct u as [|? u]; cbn [app] in Eu; [exfalso; injection Eu; intros; subst; lia|injection Eu as -> Eu]). exists u. split; [reflexivity|]. split; [exact Fl|lia].
  - destruct (IH rest) as (t & U & E). exists (b :: t). split.
    + cbn [app unescape]. replace (b =? 34) with false by lia. replace (b =? 92) with false by lia. replace (b <? 32) with false by lia. rewrite U. reflexivity.
    + destruct (runes_step b t) as [(cp & c & r & Uc & Eb & Er)|(N' & Er)]; [lia| |rewrite Er; cbn [concat]; change replacement with no_char; congruence].
      exfalso. destruct (utf8_shape _ _ Uc) as (b' & c' & -> & _ & Cc). cbn [app] in Eb. injection Eb as <- ->.
      destruct (unescape_conts _ _ _ _ Cc U) as (s2 & Es & _). destruct (conts_before_quote _ _ _ _ Cc Es) as [v ->].
      apply (N cp (b :: c') v Uc). reflexivity.
Qed.

Lemma read_quoted_lax : forall s u rest, lax_chars s u -> read_quoted (u ++ 34 :: rest) = Ok (s, rest).
Proof. intros s u rest H. destruct (lax_unescape _ _ H rest) as (t & U & <-). unfold read_quoted. rewrite U. reflexivity. Qed.

Lemma read_quoted_only : forall s t rest, is_bytes s -> read_quoted s = Ok (t, rest) -> exists u, s = u ++ 34 :: rest /\ lax_chars t u.
Proof.
  intros s t rest B H. unfold read_quoted in H. apply bind_ok in H as ([t' rest'] & U & H). apply Ok_inj, pair_equal_spec in H as [<- <-]. apply (unescape_lax (length s)); [lia|exact B|exact U].
Qed.

(** ** Numbers *)

Lemma take_digits_inv : forall s d rest, take_digits s = (d, rest) -> s = d ++ rest /\ Forall is_digit d /\ match rest with c :: _ => is_dec c = false | [] => True end.
Proof.
  induction s as [|c s IH]; intros d rest H; cbn [take_digits] in H; [injection H as <- <-; repeat split; constructor|].
  destruct (is_dec c) eqn:E; [|injection H as <- <-; repeat split; [constructor|exact E]].
  destruct (take_digits s) as [d' r'] eqn:T. injection H as <- <-. destruct (IH _ _ eq_refl) as (-> & F & R). repeat split; [|exact R].
  constructor; [|exact F]. unfold is_dec in E. unfold is_digit. lia.
Qed.

Lemma int_part_inv : forall s i rest, int_part s = Ok (i, rest) -> s = i ++ rest /\ (i = [48] \/ (Forall is_digit i /\ 49 <= hd 0 i)).
Proof.
  intros s i rest H. destruct s as [|c r]; [discriminate|]. cbn [int_part] in H. destruct (c =? 48) eqn:E.
  { apply Ok_inj, pair_equal_spec in H as [<- <-]. split; [cbn [app]; f_equal; lia|auto]. }
  destruct (is_dec c) eqn:D; [|discriminate]. apply Ok_inj in H. destruct (take_digits_inv _ _ _ H) as (Es & F & _). split; [exact Es|]. right. split; [exact F|].
  cbn [take_digits] in H. rewrite D in H. destruct (take_digits r) as [d' r']. injection H as <- <-. cbn [hd]. unfold is_dec in D. lia.
Qed.

Lemma fraction_inv : forall s b rest, fraction s = Ok (b, rest) -> exists f, s = f ++ rest /\ (f = [] \/ (exists ds, f = 46 :: ds /\ digits1 ds)) /\ (b = true <-> f <> []) /\
  match rest with c :: _ => c <> 46 \/ b = true | [] => True end /\ (b = true -> match rest with c :: _ => is_dec c = false | [] => True end).
Proof.
  intros s b rest H. destruct s as [|c r]; cbn [fraction] in H.
  { apply Ok_inj, pair_equal_spec in H as [<- <-]. exists []. repeat split; auto; discriminate. }
  destruct (c =? 46) eqn:E.
  - destruct (take_digits r) as [d r'] eqn:T. destruct (take_digits_inv _ _ _ T) as (-> & F & R). destruct d as [|x d]; [discriminate|]. apply Ok_inj, pair_equal_spec in H as [<- <-].
    exists (46 :: x :: d). split; [cbn [app]; f_equal; lia|]. split; [right; eexists; split; [reflexivity|]; split; [discriminate|exact F]|].
    split; [split; intros; [discriminate|reflexivity]|]. split; [destruct r'; auto|intros _; exact R].
  - apply Ok_inj, pair_equal_spec in H as [<- <-]. exists []. split; [reflexivity|]. split; [auto|]. split; [split; [discriminate|intro K; elim K; reflexivity]|]. split; [left; lia|discriminate].
Qed.

Lemma exponent_inv : forall s b rest, exponent s = Ok (b, rest) ->
  exists e, s = e ++ rest /\ (e = [] \/ (exists m s ds, e = m :: s ++ ds /\ (m = 69 \/ m = 101) /\ (s = [] \/ s = [43] \/ s = [45]) /\ digits1 ds)) /\ (b = true <-> e <> []) /\
  match rest with c :: _ => (c <> 101 /\ c <> 69) \/ b = true | [] => True end /\ (b = true -> match rest with c :: _ => is_dec c = false | [] => True end).
Proof.
  intros s b rest H. destruct s as [|c r]; cbn [exponent] in H.
  { apply Ok_inj, pair_equal_spec in H as [<- <-]. exists []. repeat split; auto; discriminate. }
  destruct ((c =? 101) || (c =? 69)) eqn:E.
  2: { apply Ok_inj, pair_equal_spec in H as [<- <-]. exists []. split; [reflexivity|]. split; [auto|]. split; [split; [discriminate|intro K; elim K; reflexivity]|]. split; [left; lia|discriminate]. }
  set (r' := match r with x :: r1 => if (x =? 43) || (x =? 45) then r1 else r | [] => [] end) in H.
  assert (K : exists sg, r = sg ++ r' /\ (sg = [] \/ sg = [43] \/ sg = [45])).
  { subst r'. destruct r as [|x r1]; [exists []; auto|]. destruct ((x =? 43) || (x =? 45)) eqn:X; [|exists []; auto].
    exists [x]. split; [reflexivity|]. assert (x = 43 \/ x = 45) as [-> | ->] by lia; auto. }
  clearbody r'. destruct K as (sg & -> & Sg). destruct (take_digits r') as [d r2] eqn:T. destruct (take_digits_inv _ _ _ T) as (Er & F & R). destruct d as [|x d]; [discriminate|]. apply Ok_inj, pair_equal_spec in H as [<- <-].
  exists (c :: sg ++ x :: d). split; [cbn [app]; rewrite Er, <- app_assoc; reflexivity|].
  split; [right; exists c, sg, (x :: d); split; [reflexivity|]; split; [lia|]; split; [exact Sg|split; [discriminate|exact F]]|].
  split; [split; intros; [discriminate|reflexivity]|]. split; [destruct r2; auto|intros _; exact R].
Qed.

Lemma number_only : forall s v rest, number s = Ok (v, rest) -> exists t, s = t ++ rest /\ json_in lax_chars v t /\ depth v = 0.
Proof.
  intros s v rest H. unfold number in H.
  set (p := match s with c :: r => if c =? 45 then (true, r) else (false, s) | [] => (false, []) end) in H.
  assert (K : exists sign, s = sign ++ snd p /\ ((fst p = false /\ sign = []) \/ (fst p = true /\ sign = [45]))).
  { subst p. destruct s as [|c r]; [exists []; auto|]. destruct (c =? 45) eqn:E; [|exists []; auto]. exists [45]. split; [cbn [app snd]; f_equal; lia|auto]. }
  destruct p as [neg s1]. cbn [fst snd] in K. destruct K as (sign & -> & Sg). apply bind_ok in H as ([i s2] & I & H). apply bind_ok in H as ([bf s3] & F & H). apply bind_ok in H as ([be s4] & E & H).
  apply Ok_inj, pair_equal_spec in H as [<- <-]. apply int_part_inv in I as [-> I]. apply fraction_inv in F as (f & -> & F & Bf & _). apply exponent_inv in E as (e & -> & E & Be & _).
  exists (sign ++ i ++ f ++ e). split; [rewrite <- !app_assoc; reflexivity|]. change (fold_left (fun v c => v * 10 + (c - 48)) i 0) with (digits_value i).
  destruct (bf || be || (neg && (digits_value i =? 0))) eqn:R.
  - split; [|reflexivity]. apply jt_real. apply rt; [tauto|exact I|exact F|exact E|]. destruct bf; [left; apply Bf; reflexivity|]. destruct be; [right; left; apply Be; reflexivity|].
    right. right. cbn [orb] in R. destruct neg; [|discriminate]. destruct Sg as [[? _]|[_ ->]]; [discriminate|]. split; [reflexivity|].
    destruct I as [-> | [D N]]; [reflexivity|]. exfalso. pose proof (value_pos i D N). lia.
  - split; [|destruct neg; reflexivity]. apply jt_int. destruct bf; [discriminate|]. destruct be; [discriminate|]. cbn [orb] in R.
    destruct f as [|x f]; [|destruct Bf as [_ Bf]; discriminate Bf; discriminate]. destruct e as [|x e]; [|destruct Be as [_ Be]; discriminate Be; discriminate]. rewrite !app_nil_r.
    destruct Sg as [[-> ->] | [-> ->]]; cbn [app].
    + destruct I as [-> | [D N]]; [constructor|]. apply decimal_pos; assumption.
    + destruct I as [-> | [D N]]; [discriminate|]. apply decimal_neg; assumption.
Qed.

(** ** Values *)

Lemma skip_split : forall s, exists w, white w /\ s = w ++ skip s.
Proof.
  induction s as [|c s (w & W & E)]; [exists []; split; [constructor|reflexivity]|]. cbn [skip]. destruct (space c) eqn:S; [|exists []; split; [constructor|reflexivity]].
  exists (c :: w). split; [constructor; [apply space_white, S|exact W]|]. cbn [app]. congruence.
Qed.

Lemma elements_white : forall chars w l t, white w -> elements_in chars l t -> elements_in chars l (w ++ t).
Proof.
  intros chars w l t W H. destruct H as [w1 v s w2 W1 T W2|w1 v s w2 l t W1 T W2 E]; rewrite (app_assoc w w1); [apply et_one|apply et_more]; try assumption; apply Forall_app; auto.
Qed.

Lemma members_white : forall chars w o t, white w -> members_in chars o t -> members_in chars o (w ++ t).
Proof.
  intros chars w o t W H. destruct H as [w1 k kt w2 w3 v s w4 W1 K W2 W3 T W4|w1 k kt w2 w3 v s w4 o t W1 K W2 W3 T W4 E]; rewrite (app_assoc w w1); [apply mt_one|apply mt_more];
    try assumption; apply Forall_app; auto.
Qed.

Lemma depth_list_nonneg : forall l, 0 <= depth_list l.
Proof. induction l as [|v l IH]; [reflexivity|]. cbn [depth_list fold_right]. fold (depth_list l). lia. Qed.
Lemma depth_fields_nonneg : forall o, 0 <= depth_fields o.
Proof. induction o as [|v l IH]; [reflexivity|]. cbn [depth_fields fold_right]. fold (depth_fields l). lia. Qed.

Lemma literal_inv : forall l v s v' rest, literal l v s = Ok (v', rest) -> v' = v /\ s = l ++ rest.
Proof.
  intros l v s v' rest H. unfold literal in H. destruct (has_prefix l s) eqn:P; [|discriminate]. apply Ok_inj, pair_equal_spec in H as [<- <-]. split; [reflexivity|].
  revert s P. induction l as [|c l IH]; intros s P; [reflexivity|]. destruct s as [|x s]; cbn [has_prefix] in P; [discriminate|].
  apply andb_true_iff in P as [P1 P2]. cbn [app length skipn]. rewrite <- IH by exact P2. f_equal. lia.
Qed.

Lemma skip_bytes : forall s, is_bytes s -> is_bytes (skip s).
Proof. intros s B. destruct (skip_split s) as (w & _ & E). rewrite E in B. apply Forall_app in B. apply B. Qed.

Theorem value_only : forall f,
  (forall d s v rest, is_bytes s -> value f d s = Ok (v, rest) -> exists t, s = t ++ rest /\ json_in lax_chars v t /\ (depth v = 0 \/ d + depth v <= 10000)) /\
  (forall d s l rest, is_bytes s -> elems f d s = Ok (l, rest) -> exists t, s = t ++ 93 :: rest /\ elements_in lax_chars l t /\ (depth_list l = 0 \/ d + depth_list l <= 10000)) /\
  (forall d s o rest, is_bytes s -> members f d s = Ok (o, rest) -> exists t, s = t ++ 125 :: rest /\ members_in lax_chars o t /\ (depth_fields o = 0 \/ d + depth_fields o <= 10000)).
Proof.
  induction f as [|f (IHv & IHe & IHm)]; [repeat split; intros; discriminate|]. split; [|split].
  - intros d s v rest B H. destruct s as [|c r]; [discriminate|]. cbn [value] in H. assert (Br : is_bytes r) by (apply Forall_cons_iff in B; apply B).
    destruct (c =? 123) eqn:E123.
    { replace c with 123 by lia. destruct (10000 <=? d) eqn:D; [discriminate|]. destruct (skip_split r) as (w & W & Er). pose proof (skip_bytes _ Br) as Bs. destruct (skip r) as [|x r']; [discriminate|].
      destruct (x =? 125) eqn:X.
      - apply Ok_inj, pair_equal_spec in H as [<- <-]. replace x with 125 in Er by lia. exists (123 :: w ++ [125]). split; [cbn [app]; rewrite <- app_assoc; cbn [app]; congruence|].
        split; [apply jt_object0, W|]. right. change (depth (JObj [])) with 1. lia.
      - apply bind_ok in H as ([o rest'] & M & H). apply Ok_inj, pair_equal_spec in H as [<- <-]. destruct (IHm _ _ _ _ Bs M) as (t & Et & Tt & Dt).
        exists (123 :: (w ++ t) ++ [125]). split; [rewrite Er, Et; cbn [app]; rewrite <- !app_assoc; reflexivity|]. split; [apply jt_object, members_white; assumption|].
        right. change (depth (JObj o)) with (1 + depth_fields o). lia. }
    destruct (c =? 91) eqn:E91.
    { replace c with 91 by lia. destruct (10000 <=? d) eqn:D; [discriminate|]. destruct (skip_split r) as (w & W & Er). pose proof (skip_bytes _ Br) as Bs. destruct (skip r) as [|x r']; [discriminate|].
      destruct (x =? 93) eqn:X.
      - apply Ok_inj, pair_equal_spec in H as [<- <-]. replace x with 93 in Er by lia. exists (91 :: w ++ [93]). split; [cbn [app]; rewrite <- app_assoc; cbn [app]; congruence|].
        split; [apply jt_array0, W|]. right. change (depth (JArr [])) with 1. lia.
      - apply bind_ok in H as ([l rest'] & M & H). apply Ok_inj, pair_equal_spec in H as [<- <-]. destruct (IHe _ _ _ _ Bs M) as (t & Et & Tt & Dt).
        exists (91 :: (w ++ t) ++ [93]). split; [rewrite Er, Et; cbn [app]; rewrite <- !app_assoc; reflexivity|]. split; [apply jt_array, elements_white; assumption|].
        right. change (depth (JArr l)) with (1 + depth_list l). lia. }
    destruct (c =? 34) eqn:E34.
    { replace c with 34 by lia. apply bind_ok in H as ([t rest'] & Q & H). apply Ok_inj, pair_equal_spec in H as [<- <-]. destruct (read_quoted_only _ _ _ Br Q) as (u & -> & L).
      exists (34 :: u ++ [34]). split; [cbn [app]; rewrite <- app_assoc; reflexivity|]. split; [apply jt_string, st, L|auto]. }
    destruct (c =? 116); [apply literal_inv in H as [-> ->]; exists (str "true"); split; [reflexivity|]; split; [constructor|auto]|].
    destruct (c =? 102); [apply literal_inv in H as [-> ->]; exists (str "false"); split; [reflexivity|]; split; [constructor|auto]|].
    destruct (c =? 110); [apply literal_inv in H as [-> ->]; exists (str "null"); split; [reflexivity|]; split; [constructor|auto]|].
    destruct (number_only _ _ _ H) as (t & E & T & D). exists t. auto.
  - intros d s l rest B H. cbn [elems] in H. apply bind_ok in H as ([v r] & V & H). destruct (IHv _ _ _ _ B V) as (t & -> & T & D).
    apply Forall_app in B as [_ Br]. destruct (skip_split r) as (w & W & Er). pose proof (skip_bytes _ Br) as Bs. destruct (skip r) as [|x r']; [discriminate|].
    destruct (x =? 44) eqn:X44.
    + replace x with 44 in Er by lia. apply bind_ok in H as ([l' rest'] & M & H). apply Ok_inj, pair_equal_spec in H as [<- <-]. apply Forall_cons_iff in Bs as [_ Bs].
      destruct (skip_split r') as (w' & W' & Er'). destruct (IHe _ _ _ _ (skip_bytes _ Bs) M) as (t' & Et' & T' & D').
      exists (t ++ w ++ 44 :: w' ++ t'). split; [rewrite Er, Er', Et', <- !app_assoc; cbn [app]; rewrite <- !app_assoc; reflexivity|].
      split; [apply (et_more [] v t w l'); [constructor|exact T|exact W|apply elements_white; assumption]|].
      cbn [depth_list fold_right]. fold (depth_list l'). pose proof (depth_list_nonneg l'). lia.
    + destruct (x =? 93) eqn:X93; [|discriminate]. replace x with 93 in Er by lia. apply Ok_inj, pair_equal_spec in H as [<- <-].
      exists (t ++ w). split; [rewrite Er, <- app_assoc; reflexivity|]. split; [apply (et_one [] v t w); [constructor|exact T|exact W]|]. cbn [depth_list fold_right]. lia.
  - intros d s o rest B H. cbn [members] in H. destruct s as [|q r]; [discriminate|]. destruct (q =? 34) eqn:Q34; [|discriminate]. replace q with 34 by lia. apply Forall_cons_iff in B as [_ B].
    apply bind_ok in H as ([k r1] & K & H). destruct (read_quoted_only _ _ _ B K) as (u & -> & L). apply Forall_app in B as [_ B]. apply Forall_cons_iff in B as [_ B].
    destruct (skip_split r1) as (w2 & W2 & E1). pose proof (skip_bytes _ B) as B1. destruct (skip r1) as [|x r2]; [discriminate|]. destruct (x =? 58) eqn:X; [|discriminate]. replace x with 58 in E1 by lia.
    apply Forall_cons_iff in B1 as [_ B1]. destruct (skip_split r2) as (w3 & W3 & E2). apply bind_ok in H as ([v r3] & V & H). destruct (IHv _ _ _ _ (skip_bytes _ B1) V) as (t & Et & T & D).
    pose proof (skip_bytes _ B1) as B2. rewrite Et in B2. apply Forall_app in B2 as [_ B2]. destruct (skip_split r3) as (w4 & W4 & E3). pose proof (skip_bytes _ B2) as B3.
    destruct (skip r3) as [|y r4]; [discriminate|]. destruct (y =? 44) eqn:Y44.
    + replace y with 44 in E3 by lia. apply bind_ok in H as ([o' rest'] & M & H). apply Ok_inj, pair_equal_spec in H as [<- <-]. apply Forall_cons_iff in B3 as [_ B3].
      destruct (skip_split r4) as (w5 & W5 & E4). destruct (IHm _ _ _ _ (skip_bytes _ B3) M) as (t' & Et' & T' & D').
      exists ((34 :: u ++ [34]) ++ w2 ++ 58 :: w3 ++ t ++ w4 ++ 44 :: w5 ++ t').
      split; [rewrite E1, E2, Et, E3, E4, Et'; cbn [app]; rewrite <- !app_assoc; cbn [app]; rewrite <- !app_assoc; cbn [app]; rewrite <- !app_assoc; reflexivity|].
      split; [apply (mt_more [] k (34 :: u ++ [34]) w2 w3 v t w4 o'); [constructor|apply st, L|exact W2|exact W3|exact T|exact W4|apply members_white; assumption]|].
      cbn [depth_fields fold_right snd]. fold (depth_fields o'). pose proof (depth_fields_nonneg o'). lia.
    + destruct (y =? 125) eqn:Y125; [|discriminate]. replace y with 125 in E3 by lia. apply Ok_inj, pair_equal_spec in H as [<- <-].
      exists ((34 :: u ++ [34]) ++ w2 ++ 58 :: w3 ++ t ++ w4).
      split; [rewrite E1, E2, Et, E3; cbn [app]; rewrite <- !app_assoc; cbn [app]; rewrite <- !app_assoc; reflexivity|].
      split; [apply (mt_one [] k (34 :: u ++ [34]) w2 w3 v t w4); [constructor|apply st, L|exact W2|exact W3|exact T|exact W4]|].
      cbn [depth_fields fold_right snd]. lia.
Qed.

(** C74 *)
Theorem accepted_only : forall s v rest, is_bytes s -> read_text s = Ok (v, rest) ->
  exists w t, s = w ++ t ++ rest /\ white w /\ json_in lax_chars v t /\ depth v <= 10000.
Proof.
  intros s v rest B H. unfold read_text in H. destruct (skip_split s) as (w & W & E).
  destruct (value_only (S (S (length s + length s)))) as (V & _ & _). destruct (V _ _ _ _ (skip_bytes _ B) H) as (t & Et & T & D).
  exists w, t. split; [congruence|]. split; [exact W|]. split; [exact T|]. lia.
Qed.

Theorem accepted_all : forall v t w rest, json_in lax_chars v t -> white w -> depth v <= 10000 -> separated v rest -> read_text (w ++ t ++ rest) = Ok (v, rest).
Proof.
  intros v t w rest T W D S. unfold read_text. rewrite skip_white by exact W. rewrite (skip_text _ _ _ _ T).
  apply (value_in lax_chars); [intros; apply read_quoted_lax; assumption|exact T|rewrite !app_length; lia|lia|apply separated_stops; exact S].
Qed.

(** ** Text in UTF-8 *)

Lemma well_formed_cons : forall x s, x < 128 -> well_formed (x :: s) -> well_formed s.
Proof.
  intros x s X H. inversion H as [|cp c r U W E]; subst. destruct (utf8_bytes _ _ U) as [[_ ->]|[C F]]; [cbn [app] in E; injection E as _ <-; exact W|].
  destruct (utf8_shape _ _ U) as (b & c' & -> & _). cbn [app] in E. injection E as -> _. inversion F; subst. lia.
Qed.

Lemma well_formed_ascii_cons : forall x s, 0 <= x < 128 -> well_formed s -> well_formed (x :: s).
Proof. intros x s X H. apply (wf_cons x [x]); [constructor; exact X|exact H]. Qed.

(** An ASCII character belongs to no other character. *)
Lemma well_formed_split : forall a x b, x < 128 -> well_formed (a ++ x :: b) -> well_formed a /\ well_formed b.
Proof.
  intros a x b X H. remember (a ++ x :: b) as s eqn:E. revert a E. induction H as [|cp c r U W IH]; intros a E; [destruct a; discriminate|].
  destruct (utf8_bytes _ _ U) as [[C ->]|[C F]].
  - destruct a as [|y a]; cbn [app] in E; injection E as -> ->; [split; [constructor|exact W]|]. destruct (IH a eq_refl) as [Wa Wb]. split; [|exact Wb].
    apply (wf_cons y [y]); assumption.
  - assert (K : exists a', a = c ++ a' /\ r = a' ++ x :: b).
    { clear - E F X. revert a E. induction F as [|y c Y F IH]; intros a E; [exists a; auto|]. destruct a as [|z a]; cbn [app] in E; injection E as -> E; [lia|].
      destruct (IH _ E) as (a' & -> & ->). exists a'. auto. }
    destruct K as (a' & -> & ->). destruct (IH a' eq_refl) as [Wa Wb]. split; [apply (wf_cons cp); assumption|exact Wb].
Qed.

Lemma well_formed_tail : forall cp c s, utf8 cp c -> well_formed (c ++ s) -> well_formed s.
Proof.
  intros cp c s U H. inversion H as [E|cp' c' r U' W E]; subst.
  - destruct (utf8_shape _ _ U) as (b & c' & -> & _). discriminate.
  - destruct (utf8_prefix _ _ _ _ _ _ U' U E) as [-> ->]. exact W.
Qed.

(** Text that consists of ASCII characters can be dropped. *)
Lemma ascii_drop : forall a s, Forall (fun c => c < 128) a -> well_formed (a ++ s) -> well_formed s.
Proof. intros a s A. induction A as [|x a X A IH]; intro H; [exact H|]. apply IH, (well_formed_cons x); [exact X|exact H]. Qed.

Lemma ascii_drop_end : forall s a, Forall (fun c => c < 128) a -> well_formed (s ++ a) -> well_formed s.
Proof. intros s a A H. destruct A as [|x a X A]; [rewrite app_nil_r in H; exact H|]. apply (well_formed_split _ _ _ X H). Qed.

Lemma white_ascii : forall w, white w -> Forall (fun c => c < 128) w.
Proof. intros w W. unfold white in W. eapply Forall_impl; [|exact W]. cbv beta. intros. lia. Qed.

Lemma four_hex_ascii : forall h v, four_hex h v -> Forall (fun c => c < 128) h.
Proof. intros h v H. destruct H as [c1 c2 c3 c4 v1 v2 v3 v4 D1 D2 D3 D4]. repeat constructor; [destruct D1|destruct D2|destruct D3|destruct D4]; lia. Qed.

Lemma char_text_drop : forall c t u, char_text c t -> well_formed (t ++ u) -> well_formed u.
Proof.
  intros c t u H W. destruct H as [cp c U A B C|x e H|cp c h H U|hi lo c h l H1 H2 R1 R2 U].
  - apply (well_formed_tail cp c); assumption.
  - apply (ascii_drop [92; e]); [|exact W]. constructor; [lia|constructor; [|constructor]]. cbn [In] in H. decompose [or] H; try contradiction; match goal with K : (_, _) = (_, _) |- _ => injection K as <- <- end; lia.
  - apply (ascii_drop (92 :: 117 :: h)); [|exact W]. repeat (constructor; [lia|]). apply (four_hex_ascii _ _ H).
  - apply (ascii_drop (92 :: 117 :: h ++ 92 :: 117 :: l)); [|exact W]. repeat (constructor; [lia|]). apply Forall_app. split; [apply (four_hex_ascii _ _ H1)|].
    repeat (constructor; [lia|]). apply (four_hex_ascii _ _ H2).
Qed.

Lemma lax_rfc_chars : forall s t, lax_chars s t -> well_formed t -> rfc_chars s t.
Proof.
  intros s t H. induction H as [|c x s u C H IH|cp h s u F R P H IH|b s u B N H IH]; intro W.
  - constructor.
  - apply rc_char; [exact C|]. apply IH, (char_text_drop c x); assumption.
  - apply (rc_half cp); try assumption. apply IH. apply (ascii_drop (92 :: 117 :: h)); [|exact W]. repeat (constructor; [lia|]). apply (four_hex_ascii _ _ F).
  - exfalso. inversion W as [|cp c r U W' E]; subst. apply (N cp c r U). auto.
Qed.

Lemma rfc_lax_chars : forall s t, rfc_chars s t -> lax_chars s t.
Proof. intros s t H. induction H; [constructor|constructor; assumption|econstructor; eassumption]. Qed.

Lemma string_rfc : forall s t, string_in lax_chars s t -> well_formed t -> string_in rfc_chars s t.
Proof. intros s t H W. destruct H as [s t H]. apply st, lax_rfc_chars; [exact H|]. apply (well_formed_cons 34) in W; [|lia]. apply (well_formed_split t 34 []); [lia|exact W]. Qed.

(** The first part of a text that goes on with white space and an ASCII character. *)
Lemma part_well_formed : forall s w x r, white w -> x < 128 -> well_formed (s ++ w ++ x :: r) -> well_formed s /\ well_formed r.
Proof.
  intros s w x r W X H. rewrite app_assoc in H. destruct (well_formed_split _ _ _ X H) as [H1 H2]. split; [|exact H2]. apply (ascii_drop_end s w); [apply white_ascii, W|exact H1].
Qed.

Theorem lax_rfc : forall v s, json_in lax_chars v s -> well_formed s -> json_in rfc_chars v s.
Proof.
  apply (json_in_mut lax_chars
    (fun v s _ => well_formed s -> json_in rfc_chars v s) (fun l s _ => well_formed s -> elements_in rfc_chars l s) (fun o s _ => well_formed s -> members_in rfc_chars o s)).
  - constructor.
  - constructor.
  - constructor.
  - intros n s D _. apply jt_int, D.
  - intros s R _. apply jt_real, R.
  - intros s t S W. apply jt_string, string_rfc; assumption.
  - intros w W _. apply jt_array0, W.
  - intros l s E IH W. apply jt_array, IH. apply (well_formed_cons 91) in W; [|lia]. apply (well_formed_split s 93 []); [lia|exact W].
  - intros w W _. apply jt_object0, W.
  - intros o s E IH W. apply jt_object, IH. apply (well_formed_cons 123) in W; [|lia]. apply (well_formed_split s 125 []); [lia|exact W].
  - intros w1 v s w2 W1 T IH W2 W. apply et_one; [exact W1| |exact W2]. apply IH. apply ascii_drop in W; [|apply white_ascii, W1]. apply (ascii_drop_end s w2); [apply white_ascii, W2|exact W].
  - intros w1 v s w2 l t W1 T IH W2 E IHl W. apply ascii_drop in W; [|apply white_ascii, W1]. apply part_well_formed in W as [Ws Wt]; [|exact W2|lia].
    apply et_more; auto.
  - intros w1 k kt w2 w3 v s w4 W1 K W2 W3 T IH W4 W. apply ascii_drop in W; [|apply white_ascii, W1]. apply part_well_formed in W as [Wk W]; [|exact W2|lia].
    apply ascii_drop in W; [|apply white_ascii, W3]. apply mt_one; auto; [apply string_rfc; assumption|]. apply IH. apply (ascii_drop_end s w4); [apply white_ascii, W4|exact W].
  - intros w1 k kt w2 w3 v s w4 o t W1 K W2 W3 T IH W4 E IHo W. apply ascii_drop in W; [|apply white_ascii, W1]. apply part_well_formed in W as [Wk W]; [|exact W2|lia].
    apply ascii_drop in W; [|apply white_ascii, W3]. apply part_well_formed in W as [Ws Wt]; [|exact W4|lia]. apply mt_more; auto. apply string_rfc; assumption.
Qed.

Theorem rfc_lax : forall v s, json_in rfc_chars v s -> json_in lax_chars v s.
Proof.
  assert (S : forall s t, string_in rfc_chars s t -> string_in lax_chars s t) by (intros s t H; destruct H; constructor; apply rfc_lax_chars; assumption).
  apply (json_in_mut rfc_chars (fun v s _ => json_in lax_chars v s) (fun l s _ => elements_in lax_chars l s) (fun o s _ => members_in lax_chars o s)); intros; constructor; auto.
Qed.

(** A text ends with an ASCII character. *)
Lemma digits_last : forall s, s <> [] -> Forall is_digit s -> exists a x, s = a ++ [x] /\ 0 <= x < 128.
Proof.
  intros s N F. destruct (exists_last N) as (a & x & ->). exists a, x. split; [reflexivity|]. apply Forall_app in F as [_ F]. inversion F as [|? ? X _]; subst. unfold is_digit in X. lia.
Qed.

Lemma text_last : forall chars v s, json_in chars v s -> exists a x, s = a ++ [x] /\ 0 <= x < 128.
Proof.
  assert (Cons : forall p s, (exists a x, s = a ++ [x] /\ 0 <= x < 128) -> exists a x, p ++ s = a ++ [x] /\ 0 <= x < 128).
  { intros p s (a & x & -> & X). exists (p ++ a), x. split; [apply app_assoc|exact X]. }
  assert (Int : forall i, i = [48] \/ (Forall is_digit i /\ 49 <= hd 0 i) -> exists a x, i = a ++ [x] /\ 0 <= x < 128).
  { intros i [-> | [D N]]; [exists [], 48; split; [reflexivity|lia]|]. apply digits_last; [intros ->; cbn in N; lia|exact D]. }
  intros chars v s H. destruct H as [| | |n s D|s R|s t S|w W|l s E|w W|o s E].
  - exists (str "nul"), 108. split; [reflexivity|lia].
  - exists (str "tru"), 101. split; [reflexivity|lia].
  - exists (str "fals"), 101. split; [reflexivity|lia].
  - destruct D as [|s D N|s D N]; [apply Int; auto|apply Int; auto|]. apply (Cons [45]). apply Int; auto.
  - destruct R as [sign i f e H1 H2 H3 H4 H5]. apply Cons. destruct H4 as [-> | (m & s & ds & -> & _ & _ & Ds & Df)].
    + rewrite app_nil_r. destruct H3 as [-> | (ds & -> & Ds & Df)]; [rewrite app_nil_r; apply Int, H2|]. apply Cons. apply (Cons [46]). apply digits_last; assumption.
    + apply Cons, Cons. apply (Cons (m :: s)). apply digits_last; assumption.
  - destruct S as [s t S]. exists (34 :: t), 34. split; [reflexivity|lia].
  - exists (91 :: w), 93. split; [reflexivity|lia].
  - exists (91 :: s), 93. split; [reflexivity|lia].
  - exists (123 :: w), 125. split; [reflexivity|lia].
  - exists (123 :: s), 125. split; [reflexivity|lia].
Qed.

Lemma well_formed_snoc : forall a x, 0 <= x < 128 -> well_formed a -> well_formed (a ++ [x]).
Proof. intros a x X H. induction H as [|cp c r U W IH]; [apply (wf_cons x [x] []); [constructor; exact X|constructor]|]. rewrite <- app_assoc. apply (wf_cons cp); assumption. Qed.

Lemma well_formed_bytes : forall s, well_formed s -> is_bytes s.
Proof.
  intros s H. induction H as [|cp c r U W IH]; [constructor|]. apply Forall_app. split; [|exact IH]. destruct (utf8_bytes _ _ U) as [[C ->]|[C F]].
  - constructor; [|constructor]. destruct (utf8_range _ _ U) as [? _]. unfold is_byte. lia.
  - eapply Forall_impl; [|exact F]. cbv beta. intros. unfold is_byte. lia.
Qed.

Theorem accepted_utf8 : forall s v rest, well_formed s -> read_text s = Ok (v, rest) ->
  exists w t, s = w ++ t ++ rest /\ white w /\ json_in rfc_chars v t /\ depth v <= 10000.
Proof.
  intros s v rest U H. destruct (accepted_only _ _ _ (well_formed_bytes _ U) H) as (w & t & -> & W & T & D). exists w, t. split; [reflexivity|]. split; [exact W|]. split; [|exact D].
  apply lax_rfc; [exact T|]. apply ascii_drop in U; [|apply white_ascii, W]. destruct (text_last _ _ _ T) as (a & x & -> & X). rewrite <- app_assoc in U.
  apply well_formed_snoc; [exact X|]. apply (well_formed_split a x rest); [lia|exact U].
Qed.

(** Whole texts: nothing but white space around the value. *)
Theorem accepted_exactly : forall s v, well_formed s ->
  ((exists rest, white rest /\ read_text s = Ok (v, rest)) <-> (exists w t w', s = w ++ t ++ w' /\ white w /\ white w' /\ json_in rfc_chars v t /\ depth v <= 10000)).
Proof.
  intros s v U. split.
  - intros (rest & W' & H). destruct (accepted_utf8 _ _ _ U H) as (w & t & E & W & T & D). exists w, t, rest. auto.
  - intros (w & t & w' & -> & W & W' & T & D). exists w'. split; [exact W'|]. apply accepted_all; [apply rfc_lax, T|exact W|exact D|].
    assert (E : ends_number w'). { destruct W' as [|c w' C W']; [exact I|]. cbn [ends_number]. unfold is_digit. lia. }
    destruct v; cbn [separated]; auto.
Qed.

Theorem assembled_text : forall env s bs, is_bytes s -> assemble_json_text env s = Ok bs ->
  exists w t rest v, s = w ++ t ++ rest /\ white w /\ json_in lax_chars v t /\ assemble_json env v = Ok bs.
Proof.
  intros env s bs B H. unfold assemble_json_text in H. apply bind_ok in H as ([v rest] & R & H). destruct (accepted_only _ _ _ B R) as (w & t & E & W & T & _).
  exists w, t, rest, v. auto.
Qed.
