(** * UserLexProofs: the items of a template of the user (C100). *)
From Verif Require Import Base Strings Tables Event Track File Utf8 Hex Disassemble Csv SpecDecimal DecimalProofs Template SpecUserTemplate.

(** The items of a text, with any number of steps that is greater than its length *)
Definition lexes (inside : bool) (s : bytes) (l : list token) : Prop := forall f, (length s < f)%nat -> lex f inside s = Some l.

Lemma alnum_name : forall c, name_char c <-> alnum c = true.
Proof. intro c. unfold name_char, alnum. lia. Qed.

Lemma span_all : forall p n r, Forall (fun c => p c = true) n -> match r with c :: _ => p c = false | [] => True end -> span p (n ++ r) = (n, r).
Proof.
  intros p n r F H. induction F as [|c n Hc F IH]; cbn [app].
  - destruct r as [|c r]; [reflexivity|]. cbn [span]. rewrite H. reflexivity.
  - cbn [span]. rewrite Hc, IH. reflexivity.
Qed.

Lemma terminates_stop : forall r, terminates r = true -> match r with c :: _ => alnum c = false | [] => True end.
Proof.
  intros [|c r] H; [exact I|]. unfold terminates, blank, alnum in *. cbn [has_prefix] in H. lia.
Qed.

Lemma lexes_field : forall n r l, good_name n -> terminates r = true -> lexes true r l -> lexes true (46 :: n ++ r) (TField n :: l).
Proof.
  intros n r l [F D] T L f Hf. destruct f as [|f]; [cbn in Hf; lia|]. cbn [length] in Hf. rewrite app_length in Hf.
  cbn [lex negb]. cbn [blank Z.eqb andb orb has_prefix Pos.eqb]. change (blank 46 && has_prefix [45; 125; 125] (n ++ r)) with false. cbn match.
  rewrite (span_all alnum n r).
  - rewrite T. cbn [negb]. destruct n as [|d n]; [destruct D|]. replace (digit d) with false by (unfold digit; lia).
    rewrite L by (cbn [length] in Hf; lia). reflexivity.
  - eapply Forall_impl; [|exact F]. intros c. apply alnum_name.
  - apply terminates_stop, T.
Qed.

Lemma lexes_space : forall r l, has_prefix [45; 125; 125] r = false -> lexes true r l -> lexes true (32 :: r) (TSpace :: l).
Proof.
  intros r l H L f Hf. destruct f as [|f]; [cbn in Hf; lia|]. cbn [length] in Hf. cbn [lex negb].
  change (blank 32) with true. rewrite H. cbn [andb]. change (has_prefix [125; 125] (32 :: r)) with false. cbn match.
  rewrite L by lia. reflexivity.
Qed.

Lemma lexes_open : forall r l, lexes true r l -> lexes true (40 :: r) (TOpen :: l).
Proof.
  intros r l L f Hf. destruct f as [|f]; [cbn in Hf; lia|]. cbn [length] in Hf. cbn [lex negb].
  change (blank 40) with false. change (has_prefix [125; 125] (40 :: r)) with false. cbn [andb]. cbn match. cbn [Z.eqb Pos.eqb].
  rewrite L by lia. reflexivity.
Qed.

Lemma lexes_close : forall r l, lexes true r l -> lexes true (41 :: r) (TClose :: l).
Proof.
  intros r l L f Hf. destruct f as [|f]; [cbn in Hf; lia|]. cbn [length] in Hf. cbn [lex negb].
  change (blank 41) with false. change (has_prefix [125; 125] (41 :: r)) with false. cbn [andb]. cbn match. cbn [Z.eqb Pos.eqb].
  rewrite L by lia. reflexivity.
Qed.

Lemma lexes_right : forall r l, lexes false r l -> lexes true (125 :: 125 :: r) (TRight :: l).
Proof.
  intros r l L f Hf. destruct f as [|f]; [cbn in Hf; lia|]. cbn [length] in Hf. cbn [lex negb].
  change (blank 125) with false. change (has_prefix [125; 125] (125 :: 125 :: r)) with true. cbn [andb tl]. cbn match.
  rewrite L by lia. reflexivity.
Qed.

Lemma quoted_all : forall s r, good_text s -> quoted (s ++ 34 :: r) = Some (s, r).
Proof.
  intros s r F. induction F as [|c s Hc F IH]; [reflexivity|]. cbn [app quoted].
  replace (c =? 34) with false by lia. replace ((c =? 92) || (c =? 10) || (128 <=? c)) with false by lia. rewrite IH. reflexivity.
Qed.

Lemma lexes_string : forall s r l, good_text s -> lexes true r l -> lexes true (34 :: s ++ 34 :: r) (TString s :: l).
Proof.
  intros s r l G L f Hf. destruct f as [|f]; [cbn in Hf; lia|]. cbn [length] in Hf. rewrite app_length in Hf. cbn [length] in Hf. cbn [lex negb].
  change (blank 34) with false. change (has_prefix [125; 125] (34 :: s ++ 34 :: r)) with false. cbn [andb]. cbn match. cbn [Z.eqb Pos.eqb].
  rewrite quoted_all by exact G. rewrite L by lia. reflexivity.
Qed.

(** Names of functions and keywords *)
Lemma lexes_name : forall n r l, n <> [] -> Forall (fun c => 97 <= c <= 122) n -> terminates r = true -> lexes true r l -> lexes true (n ++ r) (TName n :: l).
Proof.
  intros n r l N F T L f Hf. destruct f as [|f]; [lia|]. rewrite app_length in Hf. destruct n as [|c n]; [congruence|]. clear N. cbn [app lex negb].
  assert (Hc : 97 <= c <= 122) by (inversion F; assumption).
  replace (blank c) with false by (unfold blank; lia). cbn [andb].
  replace (has_prefix [125; 125] (c :: n ++ r)) with false by (cbn [has_prefix]; lia). cbn match.
  replace (c =? 124) with false by lia. replace (c =? 40) with false by lia. replace (c =? 41) with false by lia. replace (c =? 34) with false by lia.
  replace (c =? 46) with false by lia. replace (digit c) with false by (unfold digit; lia). replace (alnum c) with true by (unfold alnum; lia). cbn match.
  change (c :: n ++ r) with ((c :: n) ++ r). rewrite (span_all alnum (c :: n) r).
  - rewrite T. cbn [length] in Hf. rewrite L by lia. reflexivity.
  - eapply Forall_impl; [|exact F]. intros x Hx. cbv beta in Hx. unfold alnum. lia.
  - apply terminates_stop, T.
Qed.

Lemma fold_value : forall s a, fold_left (fun n c => 10 * n + (c - 48)) s a = fold_left (fun v c => v * 10 + (c - 48)) s a.
Proof. induction s as [|c s IH]; intro a; [reflexivity|]. cbn [fold_left]. rewrite IH. f_equal. lia. Qed.

Lemma literal_dec : forall n, good_number n -> literal_number (dec n) = Some n.
Proof.
  intros n Hn. unfold good_number in Hn. pose proof (dec_decimal n) as D. remember (dec n) as ds eqn:E. clear E.
  destruct D as [|s F H|s F H].
  - reflexivity.
  - pose proof (value_ge s F H) as G. destruct s as [|d s]; [cbn in H; lia|]. cbn [hd] in H. unfold literal_number.
    replace (d =? 48) with false by lia. cbn [andb].
    assert (B : zlen (d :: s) <= 6).
    { destruct (Z_le_gt_dec (zlen (d :: s)) 6) as [|Q]; [assumption|]. exfalso.
      assert (10 ^ 6 <= 10 ^ (zlen (d :: s) - 1)) by (apply Z.pow_le_mono_r; lia). change (10 ^ 6) with 1000000 in *. lia. }
    replace (6 <? zlen (d :: s)) with false by lia. unfold digits_value. rewrite fold_value. reflexivity.
  - pose proof (value_pos s F H). lia.
Qed.

Lemma dec_digit_list : forall n, good_number n -> exists d ds, dec n = d :: ds /\ Forall (fun c => digit c = true) (d :: ds).
Proof.
  intros n Hn. unfold good_number in Hn. pose proof (dec_decimal n) as D. remember (dec n) as ds eqn:E. clear E.
  destruct D as [|s F H|s F H].
  - exists 48, []. split; [reflexivity|]. repeat constructor.
  - destruct s as [|d s]; [cbn in H; lia|]. exists d, s. split; [reflexivity|]. eapply Forall_impl; [|exact F].
    intros c Hc. unfold is_digit in Hc. unfold digit. lia.
  - pose proof (value_pos s F H). lia.
Qed.

Lemma lexes_number : forall n r l, good_number n -> match r with c :: _ => c = 32 \/ c = 41 \/ c = 125 | [] => False end -> lexes true r l ->
  lexes true (dec n ++ r) (TNumber n :: l).
Proof.
  intros n r l G H L f Hf. destruct f as [|f]; [lia|]. rewrite app_length in Hf. pose proof (literal_dec n G) as LD.
  destruct (dec_digit_list n G) as (d & ds & E & F). rewrite E in *. clear E. cbn [app lex negb].
  assert (Hd : 48 <= d <= 57) by (inversion F; subst; unfold digit in *; lia).
  replace (blank d) with false by (unfold blank; lia). cbn [andb].
  replace (has_prefix [125; 125] (d :: ds ++ r)) with false by (cbn [has_prefix]; lia). cbn match.
  replace (d =? 124) with false by lia. replace (d =? 40) with false by lia. replace (d =? 41) with false by lia. replace (d =? 34) with false by lia.
  replace (d =? 46) with false by lia. replace (digit d) with true by (unfold digit; lia). cbn match.
  change (d :: ds ++ r) with ((d :: ds) ++ r). rewrite (span_all digit (d :: ds) r F).
  - destruct r as [|x r]; [destruct H|]. replace (alnum x || (x =? 46)) with false by (unfold alnum; lia). rewrite LD.
    cbn [length] in Hf. rewrite L by (cbn [length]; lia). reflexivity.
  - destruct r as [|x r]; [exact I|]. unfold digit. lia.
Qed.

Lemma find_left_words : forall s r, (forall a b, s ++ [123] <> a ++ [123; 123] ++ b) -> find_left (s ++ 123 :: 123 :: r) = Some (s, r).
Proof.
  induction s as [|c s IH]; intros r H; [reflexivity|]. cbn [app find_left].
  destruct (has_prefix [123; 123] (c :: s ++ 123 :: 123 :: r)) eqn:E.
  - exfalso. cbn [has_prefix] in E. destruct (Z.eqb_spec 123 c) as [<-|]; [|discriminate]. cbn [andb] in E.
    destruct s as [|d s]; cbn [app] in *.
    + apply (H [] []). reflexivity.
    + destruct (Z.eqb_spec 123 d) as [<-|]; [|discriminate]. apply (H [] (s ++ [123])). reflexivity.
  - rewrite IH; [reflexivity|]. intros a b F. apply (H (c :: a) b). cbn [app]. rewrite F. reflexivity.
Qed.

Lemma lexes_left : forall r l, match r with c :: _ => c <> 45 /\ c <> 47 | [] => False end -> lexes true r l -> lexes false (123 :: 123 :: r) (TLeft :: l).
Proof.
  intros r l H L f Hf. destruct f as [|f]; [cbn in Hf; lia|]. cbn [length] in Hf. cbn [lex negb].
  change (find_left (123 :: 123 :: r)) with (Some (@nil Z, r)). cbn match. destruct r as [|c r]; [destruct H|].
  assert (E : match r with [] => false | d :: _ => (c =? 45) && blank d end = false) by (destruct r; [reflexivity|]; replace (c =? 45) with false by lia; reflexivity).
  rewrite E. cbn match. replace (has_prefix [47; 42] (c :: r)) with false by (cbn [has_prefix]; lia). rewrite L by lia. reflexivity.
Qed.

Lemma lexes_words : forall s r l, good_words s -> match r with c :: _ => c <> 45 /\ c <> 47 | [] => False end -> lexes true r l ->
  lexes false (s ++ 123 :: 123 :: r) (TText s :: TLeft :: l).
Proof.
  intros s r l [N G] H L f Hf. destruct f as [|f]; [lia|]. rewrite app_length in Hf. cbn [length] in Hf. cbn [lex negb].
  rewrite find_left_words by exact G. destruct r as [|c r]; [destruct H|].
  assert (E : match r with [] => false | d :: _ => (c =? 45) && blank d end = false) by (destruct r; [reflexivity|]; replace (c =? 45) with false by lia; reflexivity).
  rewrite E. cbn match. replace (has_prefix [47; 42] (c :: r)) with false by (cbn [has_prefix]; lia). rewrite L by lia.
  destruct s as [|d s]; [congruence|reflexivity].
Qed.

Lemma find_left_end : forall s, (forall a b, s ++ [123] <> a ++ [123; 123] ++ b) -> find_left s = None.
Proof.
  induction s as [|c s IH]; intro H; [reflexivity|]. cbn [find_left].
  destruct (has_prefix [123; 123] (c :: s)) eqn:E.
  - exfalso. cbn [has_prefix] in E. destruct (Z.eqb_spec 123 c) as [<-|]; [|discriminate]. destruct s as [|d s]; [discriminate|].
    cbn [andb] in E. destruct (Z.eqb_spec 123 d) as [<-|]; [|discriminate]. apply (H [] (s ++ [123])). reflexivity.
  - rewrite IH; [reflexivity|]. intros a b F. apply (H (c :: a) b). cbn [app]. rewrite F. reflexivity.
Qed.

Lemma lexes_last : forall s, good_words s -> lexes false s [TText s].
Proof.
  intros s [N G] f Hf. destruct f as [|f]; [lia|]. cbn [lex negb]. rewrite find_left_end by exact G. destruct s; [congruence|reflexivity].
Qed.

Lemma lexes_nothing : lexes false [] [].
Proof. intros f Hf. destruct f as [|f]; [cbn in Hf; lia|reflexivity]. Qed.

(** ** Paths, terms, tests *)

Definition path_tokens (path : list bytes) : list token := map TField path.
Fixpoint term_tokens (inner : bool) (t : term) : list token :=
  let wrap l := if inner then TOpen :: l ++ [TClose] else l in
  match t with
  | Field path => path_tokens path
  | Padded w t => wrap (TName (str "pad") :: TSpace :: TNumber w :: TSpace :: term_tokens true t)
  | Shortened t w => wrap (TName (str "ellipsize") :: TSpace :: term_tokens true t ++ [TSpace; TNumber w])
  | Length path => wrap (TName (str "len") :: TSpace :: path_tokens path)
  | Aligned path => wrap (TName (str "valign") :: TSpace :: path_tokens path)
  | AlignedBy path w => wrap (TName (str "valign") :: TSpace :: path_tokens path ++ [TSpace; TNumber w])
  end.
Definition test_tokens (c : test) : list token :=
  match c with
  | Set_ path => path_tokens path
  | Unset path => TName (str "not") :: TSpace :: path_tokens path
  | OneOf path texts => TName (str "eq") :: TSpace :: path_tokens path ++ flat_map (fun s => [TSpace; TString s]) texts
  | Among path ns => TName (str "eq") :: TSpace :: path_tokens path ++ flat_map (fun n => [TSpace; TNumber n]) ns
  | Differs path s => TName (str "ne") :: TSpace :: path_tokens path ++ [TSpace; TString s]
  end.

(** What may follow: a blank, a closing parenthesis or the end of the action *)
Definition stops (r : bytes) : Prop :=
  match r with
  | c :: r' => (c = 32 /\ match r' with d :: _ => d <> 45 | [] => True end) \/ c = 41 \/ (c = 125 /\ match r' with d :: _ => d = 125 | [] => False end)
  | [] => False
  end.

Lemma stops_terminates : forall r, stops r -> terminates r = true.
Proof.
  intros [|c r] H; [destruct H|]. unfold terminates, blank, stops in *. destruct H as [[-> _]|[->|[-> H]]]; try reflexivity.
  destruct r as [|d r]; [destruct H|]. subst d. reflexivity.
Qed.

Lemma stops_number : forall r, stops r -> match r with c :: _ => c = 32 \/ c = 41 \/ c = 125 | [] => False end.
Proof. intros [|c r] H; [destruct H|]. unfold stops in H. destruct H as [[-> _]|[->|[-> H]]]; auto. Qed.

Lemma path_lexes : forall path r l, Forall good_name path -> path <> [] -> stops r -> lexes true r l -> lexes true (path_text path ++ r) (path_tokens path ++ l).
Proof.
  intros path r l F N S0 L. unfold path_text, path_tokens. revert N. induction F as [|n p G F IH]; intro N; [congruence|].
  cbn [flat_map map app]. rewrite <- app_assoc. destruct p as [|m p].
  - cbn [flat_map app map]. apply lexes_field; [exact G|apply stops_terminates, S0|exact L].
  - apply lexes_field; [exact G|reflexivity|]. apply IH. discriminate.
Qed.

(** Words of the language of templates *)
Ltac word n := apply (lexes_name (str n)); [discriminate|cbn; repeat (constructor; [lia|]); constructor| |].

Lemma path_start : forall path x, path <> [] -> exists y, path_text path ++ x = 46 :: y.
Proof. intros [|n p] x N; [congruence|]. exists (n ++ flat_map (fun n => 46 :: n) p ++ x). unfold path_text. cbn [flat_map app]. rewrite <- app_assoc. reflexivity. Qed.

Lemma term_start : forall t x, good_term t -> exists c y, term_text true t ++ x = c :: y /\ (c = 46 \/ c = 40).
Proof.
  intros [path|w t|t w|path|path|path w] x G; cbn [good_term] in G; [|exists 40; eexists; split; [reflexivity|auto]..].
  destruct (path_start path x (proj1 G)) as [y E]. exists 46, y. auto.
Qed.

Lemma wrap_lexes : forall s toks, (forall r l, stops r -> lexes true r l -> lexes true (s ++ r) (toks ++ l)) ->
  forall (inner : bool) r l, stops r -> lexes true r l ->
    lexes true ((if inner then str "(" ++ s ++ str ")" else s) ++ r) ((if inner then TOpen :: toks ++ [TClose] else toks) ++ l).
Proof.
  intros s toks C inner r l S0 L. destruct inner; [|apply C; assumption]. change (str "(") with [40]. change (str ")") with [41].
  cbn [app]. rewrite <- !app_assoc. apply lexes_open. apply C; [right; left; reflexivity|]. apply lexes_close, L.
Qed.

Lemma number_start : forall n x, good_number n -> has_prefix [45; 125; 125] (dec n ++ x) = false /\ match dec n ++ x with d :: _ => d <> 45 | [] => True end.
Proof.
  intros n x G. destruct (dec_digit_list n G) as (d & ds & E & F). rewrite E. inversion F; subst. unfold digit in H1. cbn [app has_prefix]. split; lia.
Qed.

Lemma term_lexes : forall t inner r l, good_term t -> stops r -> lexes true r l -> lexes true (term_text inner t ++ r) (term_tokens inner t ++ l).
Proof.
  assert (P : forall path x, path <> [] -> has_prefix [45; 125; 125] (path_text path ++ x) = false).
  { intros path x N. destruct (path_start path x N) as [y ->]. reflexivity. }
  induction t as [path|w t IH|t IH w|path|path|path w]; intros inner r l G S0 L; cbn [good_term] in G.
  - destruct G. apply path_lexes; assumption.
  - destruct G as [Gw Gt]. cbn [term_text term_tokens]. apply wrap_lexes; [|exact S0|exact L]. clear r l S0 L. intros r l S0 L.
    change (str "pad ") with (str "pad" ++ [32]). change (str " ") with [32]. rewrite <- !app_assoc. cbn [app].
    word "pad"%string; [reflexivity|]. apply lexes_space; [apply number_start, Gw|].
    apply lexes_number; [exact Gw|auto|]. destruct (term_start t r Gt) as (c & y & E2 & Hc). apply lexes_space.
    + rewrite E2. cbn [has_prefix]. lia.
    + apply IH; assumption.
  - destruct G as [Gw Gt]. cbn [term_text term_tokens]. apply wrap_lexes; [|exact S0|exact L]. clear r l S0 L. intros r l S0 L.
    change (str "ellipsize ") with (str "ellipsize" ++ [32]). change (str " ") with [32]. cbn [app]. rewrite <- !app_assoc. cbn [app].
    word "ellipsize"%string; [reflexivity|]. destruct (term_start t (32 :: dec w ++ r) Gt) as (c & y & E2 & Hc). apply lexes_space.
    + rewrite E2. cbn [has_prefix]. lia.
    + destruct (number_start w r Gw). apply IH; [exact Gt| |].
      * left. split; [reflexivity|assumption].
      * cbn [app]. apply lexes_space; [assumption|]. apply lexes_number; [exact Gw|apply stops_number, S0|exact L].
  - destruct G as [N F]. cbn [term_text term_tokens]. apply wrap_lexes; [|exact S0|exact L]. clear r l S0 L. intros r l S0 L.
    change (str "len ") with (str "len" ++ [32]). rewrite <- !app_assoc. cbn [app]. word "len"%string; [reflexivity|].
    apply lexes_space; [auto|]. apply path_lexes; assumption.
  - destruct G as [N F]. cbn [term_text term_tokens]. apply wrap_lexes; [|exact S0|exact L]. clear r l S0 L. intros r l S0 L.
    change (str "valign ") with (str "valign" ++ [32]). rewrite <- !app_assoc. cbn [app]. word "valign"%string; [reflexivity|].
    apply lexes_space; [auto|]. apply path_lexes; assumption.
  - destruct G as [[N F] Gw]. cbn [term_text term_tokens]. apply wrap_lexes; [|exact S0|exact L]. clear r l S0 L. intros r l S0 L.
    change (str "valign ") with (str "valign" ++ [32]). change (str " ") with [32]. cbn [app]. rewrite <- !app_assoc. cbn [app]. word "valign"%string; [reflexivity|].
    destruct (number_start w r Gw). apply lexes_space; [auto|]. apply path_lexes; [exact F|exact N|left; split; [reflexivity|assumption]|].
    cbn [app]. apply lexes_space; [assumption|]. apply lexes_number; [exact Gw|apply stops_number, S0|exact L].
Qed.

Lemma texts_lexes : forall texts r l, Forall good_text texts -> stops r -> lexes true r l ->
  lexes true (flat_map (fun s => 32 :: 34 :: s ++ [34]) texts ++ r) (flat_map (fun s => [TSpace; TString s]) texts ++ l) /\
  stops (flat_map (fun s => 32 :: 34 :: s ++ [34]) texts ++ r).
Proof.
  intros texts r l F S0 L. induction F as [|s texts G F [IH1 IH2]]; [split; assumption|]. cbn [flat_map app]. rewrite <- !app_assoc. cbn [app]. split.
  - apply lexes_space; [reflexivity|]. apply lexes_string; assumption.
  - left. split; [reflexivity|lia].
Qed.

Lemma numbers_lexes : forall ns r l, Forall good_number ns -> stops r -> lexes true r l ->
  lexes true (flat_map (fun n => 32 :: dec n) ns ++ r) (flat_map (fun n => [TSpace; TNumber n]) ns ++ l) /\
  stops (flat_map (fun n => 32 :: dec n) ns ++ r).
Proof.
  intros ns r l F S0 L. induction F as [|n ns G F [IH1 IH2]]; [split; assumption|]. cbn [flat_map app]. rewrite <- !app_assoc.
  destruct (number_start n (flat_map (fun n => 32 :: dec n) ns ++ r) G). split.
  - apply lexes_space; [assumption|]. apply lexes_number; [exact G|apply stops_number, IH2|exact IH1].
  - left. auto.
Qed.

Lemma test_lexes : forall c r l, good_test c -> stops r -> lexes true r l -> lexes true (test_text c ++ r) (test_tokens c ++ l).
Proof.
  assert (P : forall path x, path <> [] -> has_prefix [45; 125; 125] (path_text path ++ x) = false).
  { intros path x N. destruct (path_start path x N) as [y ->]. reflexivity. }
  intros [path|path|path texts|path ns|path s] r l G S0 L; cbn [good_test] in G; cbn [test_text test_tokens].
  - destruct G. apply path_lexes; assumption.
  - destruct G. change (str "not ") with (str "not" ++ [32]). rewrite <- !app_assoc. cbn [app]. word "not"%string; [reflexivity|].
    apply lexes_space; [auto|]. apply path_lexes; assumption.
  - destruct G as ([N F] & _ & G). change (str "eq ") with (str "eq" ++ [32]). cbn [app]. rewrite <- !app_assoc. cbn [app]. word "eq"%string; [reflexivity|].
    destruct (texts_lexes texts r l G S0 L). apply lexes_space; [auto|]. apply path_lexes; assumption.
  - destruct G as ([N F] & _ & G). change (str "eq ") with (str "eq" ++ [32]). cbn [app]. rewrite <- !app_assoc. cbn [app]. word "eq"%string; [reflexivity|].
    destruct (numbers_lexes ns r l G S0 L). apply lexes_space; [auto|]. apply path_lexes; assumption.
  - destruct G as ([N F] & G). change (str "ne ") with (str "ne" ++ [32]). cbn [app]. rewrite <- !app_assoc. cbn [app]. word "ne"%string; [reflexivity|].
    destruct (texts_lexes [s] r l ltac:(constructor; [exact G|constructor]) S0 L) as [T1 T2]. cbn [flat_map app] in T1, T2. rewrite <- ?app_assoc in T1, T2.
    rewrite ?app_nil_r in T1, T2. cbn [app] in T1, T2. apply lexes_space; [auto|]. apply path_lexes; try assumption; rewrite <- !app_assoc; cbn [app]; assumption.
Qed.

(** ** Templates *)

Fixpoint tokens (T : template) : list token :=
  match T with
  | End => []
  | Words s r => TText s :: tokens r
  | Show t r => TLeft :: term_tokens false t ++ TRight :: tokens r
  | Choose c yes no r =>
      TLeft :: TName (str "if") :: TSpace :: test_tokens c ++ TRight :: tokens yes ++ TLeft :: TName (str "else") :: TRight :: tokens no ++
      TLeft :: TName (str "end") :: TRight :: tokens r
  end.

(** What may follow a template: nothing, or an action *)
Definition action_start (r : bytes) (l : list token) : Prop :=
  (r = [] /\ l = []) \/
  exists x m, r = 123 :: 123 :: x /\ l = TLeft :: m /\ lexes true x m /\ match x with c :: _ => c <> 45 /\ c <> 47 | [] => False end.

Lemma action_lexes : forall r l, action_start r l -> lexes false r l.
Proof. intros r l [[-> ->]|(x & m & -> & -> & L & H)]; [exact lexes_nothing|apply lexes_left; assumption]. Qed.

Lemma right_stops : forall r, stops (str "}}" ++ r).
Proof. intro r. right. right. split; reflexivity. Qed.

Lemma source_lexes : forall T r l, good T -> action_start r l -> lexes false (source T ++ r) (tokens T ++ l) /\
  (match T with Words _ _ => True | _ => action_start (source T ++ r) (tokens T ++ l) end).
Proof.
  induction T as [|s T IH|t T IH|c yes IHy no IHn T IH]; intros r l G A; cbn [good] in G; cbn [source tokens].
  - split; [apply action_lexes, A|exact A].
  - destruct G as (W & N & G). destruct (IH r l G A) as [L S0]. split; [|exact I]. rewrite <- app_assoc. cbn [app].
    assert (A2 : action_start (source T ++ r) (tokens T ++ l)) by (destruct T; try assumption; destruct N).
    destruct A2 as [[-> ->]|(x & m & -> & -> & L2 & H)]; [rewrite app_nil_r; apply lexes_last, W|apply lexes_words; assumption].
  - destruct G as (Gt & G). destruct (IH r l G A) as [L _].
    assert (A2 : action_start ((str "{{" ++ term_text false t ++ str "}}" ++ source T) ++ r) ((TLeft :: term_tokens false t ++ TRight :: tokens T) ++ l)).
    { right. exists (term_text false t ++ str "}}" ++ source T ++ r), (term_tokens false t ++ TRight :: tokens T ++ l). rewrite <- !app_assoc. cbn [app].
      rewrite <- !app_assoc. split; [reflexivity|]. split; [reflexivity|]. split.
      - apply term_lexes; [exact Gt|apply right_stops|]. apply lexes_right, L.
      - destruct t as [path|w t|t w|path|path|path w]; [|cbn; lia..]. destruct (path_start path (str "}}" ++ source T ++ r) (proj1 Gt)) as [y E]. cbn [term_text]. rewrite E. lia. }
    split; [apply action_lexes, A2|exact A2].
  - destruct G as (Gc & Gy & Gn & G). destruct (IH r l G A) as [L _].
    assert (An : action_start (str "{{end}}" ++ source T ++ r) (TLeft :: TName (str "end") :: TRight :: tokens T ++ l)).
    { right. exists (str "end" ++ 125 :: 125 :: source T ++ r), (TName (str "end") :: TRight :: tokens T ++ l). split; [reflexivity|]. split; [reflexivity|].
      split; [|cbn; lia]. word "end"%string; [reflexivity|]. apply lexes_right, L. }
    destruct (IHn _ _ Gn An) as [Ln _].
    assert (Ay : action_start (str "{{else}}" ++ source no ++ str "{{end}}" ++ source T ++ r)
      (TLeft :: TName (str "else") :: TRight :: tokens no ++ TLeft :: TName (str "end") :: TRight :: tokens T ++ l)).
    { right. exists (str "else" ++ 125 :: 125 :: source no ++ str "{{end}}" ++ source T ++ r).
      eexists. split; [reflexivity|]. split; [reflexivity|].
      split; [|cbn; lia]. word "else"%string; [reflexivity|]. apply lexes_right, Ln. }
    destruct (IHy _ _ Gy Ay) as [Ly _].
    assert (A2 : action_start ((str "{{if " ++ test_text c ++ str "}}" ++ source yes ++ str "{{else}}" ++ source no ++ str "{{end}}" ++ source T) ++ r)
      ((TLeft :: TName (str "if") :: TSpace :: test_tokens c ++ TRight :: tokens yes ++ TLeft :: TName (str "else") :: TRight :: tokens no ++
      TLeft :: TName (str "end") :: TRight :: tokens T) ++ l)).
    { right. exists (str "if" ++ 32 :: test_text c ++ str "}}" ++ source yes ++ str "{{else}}" ++ source no ++ str "{{end}}" ++ source T ++ r).
      exists (TName (str "if") :: TSpace :: test_tokens c ++ TRight :: tokens yes ++ TLeft :: TName (str "else") :: TRight :: tokens no ++
      TLeft :: TName (str "end") :: TRight :: tokens T ++ l).
      split; [rewrite <- !app_assoc; reflexivity|]. split; [cbn [app]; rewrite <- !app_assoc; cbn [app]; rewrite <- !app_assoc; cbn [app]; rewrite <- !app_assoc; reflexivity|].
      split; [|cbn; lia]. word "if"%string; [reflexivity|]. apply lexes_space.
      - destruct c as [path|path|path texts|path ns|path s]; try reflexivity. cbn [test_text good_test] in *.
        match goal with |- has_prefix _ (path_text path ++ ?z) = _ => destruct (path_start path z (proj1 Gc)) as [y ->] end. reflexivity.
      - apply test_lexes; [exact Gc|apply right_stops|]. apply lexes_right. exact Ly. }
    split; [apply action_lexes, A2|exact A2].
Qed.

Theorem template_lexes : forall T, good T -> lexes false (source T) (tokens T).
Proof.
  intros T G. destruct (source_lexes T [] [] G) as [L _]; [left; auto|]. rewrite !app_nil_r in L. exact L.
Qed.
