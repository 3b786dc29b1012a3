(** * CsvProofs: the TSV file can be read in one way only. *)
From Verif Require Import Base Strings Tables Event Track File SpecText Utf8 Utf8Proofs Tsv Csv SpecCsv SpecAssemble AssembleProofs SpecTable TsvProofs DisassembleProofs.

(** ** Reading is unambiguous *)

(** What can follow a field. *)
Definition follows (d x : bytes) : Prop := (exists y, x = d ++ y) \/ (exists y, x = 10 :: y).

Lemma separator_head : forall d, separator d -> exists c r, d = c :: r /\ c <> 34 /\ c <> 10 /\ c <> 13 /\ Forall (fun x => 128 <= x < 192) r /\ (r = [] \/ 192 <= c).
Proof.
  intros d (cp & U & N0 & N1 & N2 & N3 & N4).
  destruct U as [cp H|cp H|cp H S|cp H]; eexists; eexists; (split; [reflexivity|]); repeat (split; [lia|]); (split; [|first [left; reflexivity|right; lia]]);
  repeat (constructor; [lia|]); constructor.
Qed.

Lemma plain_prefix : forall d f f' x x', separator d ->
  ~ In 34 f -> ~ In 10 f -> (forall a b, f <> a ++ d ++ b) -> ~ In 34 f' -> ~ In 10 f' -> (forall a b, f' <> a ++ d ++ b) ->
  follows d x -> follows d x' -> f ++ x = f' ++ x' -> f = f' /\ x = x'.
Proof.
  intros d f f' x x' Sd. destruct (separator_head d Sd) as (c0 & r0 & Ed & D1 & D2 & D3 & D4 & D5).
  (* one of the two fields empty *)
  assert (Z : forall g y y', ~ In 10 g -> (forall a b, g <> a ++ d ++ b) -> follows d y -> follows d y' -> y = g ++ y' -> g = []).
  { intros g y y' G1 G2 Fy Fy' E. destruct g as [|c g]; [reflexivity|exfalso]. destruct Fy as [[z ->]|[z ->]].
    2: { cbn in E. injection E as E0 _. apply G1. left. congruence. }
    destruct (Nat.le_gt_cases (length d) (length (c :: g))) as [L|L].
    - apply app_eq_app in E as (l & [[E1 E2]|[E1 E2]]).
      + assert (l = []) by (apply (f_equal (@length Z)) in E1; rewrite app_length in E1; destruct l; [reflexivity|cbn [length] in *; lia]).
        subst l. rewrite app_nil_r in E1. apply (G2 [] []). rewrite app_nil_r. cbn [app]. congruence.
      + apply (G2 [] l). cbn [app]. exact E1.
    - apply app_eq_app in E as (l & [[E1 E2]|[E1 E2]]).
      + rewrite Ed in E1. cbn [app] in E1. injection E1 as -> E1. destruct l as [|e l]; [rewrite app_nil_r in E1; rewrite Ed, E1 in L; cbn [length] in L; lia|].
        rewrite E1 in D4, D5. destruct D5 as [D5|D5]; [destruct g; discriminate|].
        assert (D6 : 128 <= e < 192) by (apply Forall_app in D4 as [_ D4]; inversion D4; assumption).
        destruct Fy' as [[w W]|[w W]]; rewrite W in E2; [rewrite Ed in E2|]; cbn [app] in E2; injection E2 as E2 _; lia.
      + apply (G2 [] l). exact E1. }
  revert f'. induction f as [|c f IH]; intros f' F1 F2 F3 G1 G2 G3 Fx Fx' E.
  - cbn [app] in E. pose proof (Z f' x x' G2 G3 Fx Fx' E) as ->. split; [reflexivity|exact E].
  - destruct f' as [|c' f'].
    + cbn [app] in E. pose proof (Z (c :: f) x' x F2 F3 Fx' Fx (eq_sym E)) as H. discriminate.
    + cbn [app] in E. injection E as -> E. destruct (IH f') as [-> ->]; try assumption.
      * intro H. apply F1. right. exact H.
      * intro H. apply F2. right. exact H.
      * intros a b H. apply (F3 (c' :: a) b). cbn. congruence.
      * intro H. apply G1. right. exact H.
      * intro H. apply G2. right. exact H.
      * intros a b H. apply (G3 (c' :: a) b). cbn. congruence.
      * split; reflexivity.
Qed.

Lemma doubled_prefix : forall f t, doubled f t -> forall f' t' x x', doubled f' t' ->
  hd 0 x <> 34 -> hd 0 x' <> 34 -> t ++ 34 :: x = t' ++ 34 :: x' -> f = f' /\ x = x'.
Proof.
  induction 1 as [|f t D IH|c f t N D IH]; intros f' t' x x' D' Hx Hx' E; destruct D' as [|f' t' D'|c' f' t' N' D']; cbn [app] in E.
  - injection E as <-. auto.
  - injection E as E. subst x. cbn in Hx. congruence.
  - injection E as E _. congruence.
  - injection E as E. subst x'. cbn in Hx'. congruence.
  - injection E as E. destruct (IH _ _ _ _ D' Hx Hx' E) as [-> ->]. auto.
  - injection E as E _. congruence.
  - injection E as E _. congruence.
  - injection E as E _. congruence.
  - injection E as -> E. destruct (IH _ _ _ _ D' Hx Hx' E) as [-> ->]. auto.
Qed.

Lemma follows_head : forall d x, separator d -> follows d x -> hd 0 x <> 34.
Proof.
  intros d x Sd. destruct (separator_head d Sd) as (c & r & -> & D1 & _). intros [[y ->]|[y ->]]; cbn; [exact D1|discriminate].
Qed.

Lemma field_prefix : forall d f t f' t' x x', separator d -> field_text d f t -> field_text d f' t' -> follows d x -> follows d x' ->
  t ++ x = t' ++ x' -> f = f' /\ x = x'.
Proof.
  intros d f t f' t' x x' Sd F F' Fx Fx' E. pose proof (follows_head d x Sd Fx) as Hx. pose proof (follows_head d x' Sd Fx') as Hx'.
  destruct F as [f A1 A2 A3 A4|f t D]; destruct F' as [f' B1 B2 B3 B4|f' t' D'].
  - eapply plain_prefix; try eassumption.
  - exfalso. destruct f as [|c f]; cbn [app] in E; [rewrite E in Hx; cbn in Hx; congruence|]. injection E as E0 _. apply A1. left. congruence.
  - exfalso. destruct f' as [|c f']; cbn [app] in E; [rewrite <- E in Hx'; cbn in Hx'; congruence|]. injection E as E0 _. apply B1. left. congruence.
  - cbn [app] in E. injection E as E. rewrite <- !app_assoc in E. cbn [app] in E. eapply doubled_prefix; eassumption.
Qed.

Lemma separator_not_newline : forall d x y, separator d -> d ++ x <> 10 :: y.
Proof. intros d x y Sd. destruct (separator_head d Sd) as (c & r & -> & _ & D2 & _). cbn [app]. intros E. injection E as E _. congruence. Qed.

Lemma record_prefix : forall d r t, separator d -> record_text d r t -> forall r' t' x x', record_text d r' t' -> t ++ 10 :: x = t' ++ 10 :: x' -> r = r' /\ x = x'.
Proof.
  intros d r t Sd R. induction R as [f t F|f t r u F R IH]; intros r' t' x x' R' E; destruct R' as [f' t' F'|f' t' r' u' F' R'].
  - destruct (field_prefix d f t f' t' (10 :: x) (10 :: x') Sd F F') as [-> E']; [right; eauto|right; eauto|exact E|]. injection E' as <-. auto.
  - exfalso. rewrite <- !app_assoc in E. destruct (field_prefix d f t f' t' (10 :: x) (d ++ u' ++ 10 :: x') Sd F F') as [_ E']; [right; eauto|left; eauto|exact E|].
    symmetry in E'. exact (separator_not_newline _ _ _ Sd E').
  - exfalso. rewrite <- !app_assoc in E. destruct (field_prefix d f t f' t' (d ++ u ++ 10 :: x) (10 :: x') Sd F F') as [_ E']; [left; eauto|right; eauto|exact E|].
    exact (separator_not_newline _ _ _ Sd E').
  - rewrite <- !app_assoc in E. destruct (field_prefix d f t f' t' (d ++ u ++ 10 :: x) (d ++ u' ++ 10 :: x') Sd F F') as [-> E']; [left; eauto|left; eauto|exact E|].
    apply app_inv_head in E'. destruct (IH _ _ _ _ R' E') as [-> ->]. auto.
Qed.

Theorem table_unambiguous : forall d a b s, separator d -> table_text d a s -> table_text d b s -> a = b.
Proof.
  intros d a b s Sd A. revert b. induction A as [|r t rs u R A IH]; intros b B.
  - inversion B as [|? ? ? ? R B' E1 E2]; [reflexivity|]. destruct t; discriminate.
  - inversion B as [E1 E2|r' t' rs' u' R' B' E1 E2]; [destruct t; discriminate|]. subst b.
    destruct (record_prefix d r' t' Sd R' r t u' u R E2) as [-> ->]. f_equal. apply IH. exact B'.
Qed.

(** ** What is written *)

Lemma write_field_text : forall d f, separator d -> field_text d f (write_field d f).
Proof.
  intros d f Sd. unfold write_field. destruct (needs_quotes d f) eqn:Q.
  - apply ft_quoted. clear Q. induction f as [|c f IH]; [constructor|]. cbn [flat_map]. destruct (Z.eqb_spec c 34) as [->|N]; cbn [app]; constructor; assumption.
  - assert (E : existsb (fun c => (c =? 10) || (c =? 13) || (c =? 34)) f = false /\ contains f d = false).
    { destruct f as [|c f].
      - split; [reflexivity|]. destruct (separator_head d Sd) as (x & r & -> & _). reflexivity.
      - unfold needs_quotes in Q. apply orb_false_iff in Q as [Q _]. apply orb_false_iff in Q as [Q Q3]. apply orb_false_iff in Q as [_ Q2]. auto. }
    destruct E as [E1 E2].
    assert (N : forall x, In x f -> (x =? 10) || (x =? 13) || (x =? 34) = false).
    { intros x Hx. destruct ((x =? 10) || (x =? 13) || (x =? 34)) eqn:B; [|reflexivity]. rewrite <- E1. symmetry. apply existsb_exists. exists x. auto. }
    apply ft_plain; try (intro H; apply N in H; discriminate).
    intros a b H. assert (C : contains f d = true) by (apply contains_spec; exists a, b; exact H). congruence.
Qed.

Lemma write_record_text : forall d r, separator d -> r <> [] -> exists t, write_record d r = t ++ [10] /\ record_text d r t.
Proof.
  intros d r Sd N. exists (join d (map (write_field d) r)). split; [reflexivity|].
  induction r as [|f r IH]; [congruence|]. destruct r as [|g r].
  - cbn [map join]. constructor. apply write_field_text. exact Sd.
  - change (join d (map (write_field d) (f :: g :: r))) with (write_field d f ++ d ++ join d (map (write_field d) (g :: r))).
    constructor; [apply write_field_text; exact Sd|apply IH; discriminate].
Qed.

Lemma write_records_text : forall d rs, separator d -> Forall (fun r => r <> []) rs -> table_text d rs (concat (map (write_record d) rs)).
Proof.
  intros d rs Sd F. induction F as [|r rs N F IH]; [constructor|]. cbn [map concat]. destruct (write_record_text d r Sd N) as (t & -> & T).
  rewrite <- app_assoc. constructor; assumption.
Qed.

Lemma bytes_neq : forall a b, a <> b -> bytes_eqb a b = false.
Proof. intros a b N. destruct (bytes_eqb a b) eqn:E; [apply bytes_eqb_eq in E; contradiction|reflexivity]. Qed.

Lemma valid_separator : forall d cp, utf8 cp d -> valid_delim d = true -> separator d.
Proof.
  intros d cp U V. exists cp. split; [exact U|]. unfold valid_delim in V. cbn [existsb] in V. rewrite orb_false_r in V.
  assert (G : forall x, In x [[0]; [34]; [13]; [10]; replacement] -> d <> x).
  { intros x Hx ->. cbn [In] in Hx. repeat (destruct Hx as [<-|Hx]; [vm_compute in V; discriminate|]). destruct Hx. }
  assert (A : forall c, 0 <= c < 128 -> cp = c -> d = [c]) by (intros c Hc ->; destruct U; [reflexivity|lia..]).
  split; [intro E; apply (G [0]); [cbn [In]; auto 8|apply A; [lia|exact E]]|].
  split; [intro E; apply (G [10]); [cbn [In]; auto 8|apply A; [lia|exact E]]|].
  split; [intro E; apply (G [13]); [cbn [In]; auto 8|apply A; [lia|exact E]]|].
  split; [intro E; apply (G [34]); [cbn [In]; auto 8|apply A; [lia|exact E]]|].
  intro E. apply (G replacement); [cbn [In]; auto 8|]. destruct U; subst cp; try lia. reflexivity.
Qed.

Lemma separator_valid : forall d, separator d -> valid_delim d = true.
Proof.
  intros d (cp & U & N0 & N1 & N2 & N3 & N4). unfold valid_delim. cbn [existsb].
  rewrite !bytes_neq; [reflexivity|..]; intro E; try (destruct U; try discriminate; injection E as E; congruence).
  assert (R : utf8 65533 replacement) by (change replacement with [224 + 65533 / 4096; 128 + 65533 / 64 mod 64; 128 + 65533 mod 64]; apply utf8_3; lia).
  subst d. apply N4. clear - U. unfold replacement in U. remember [239; 191; 189] as l. destruct U; try discriminate. pose proof (f_equal (fun l => nth 0 l 0) Heql) as E1. pose proof (f_equal (fun l => nth 1 l 0) Heql) as E2. pose proof (f_equal (fun l => nth 2 l 0) Heql) as E3. cbn [nth] in E1, E2, E3. clear Heql.
  assert (D : cp / 4096 = cp / 64 / 64) by (rewrite Z.div_div by lia; reflexivity). rewrite D in E1. set (q := cp / 64) in *.
  assert (Q : cp = 64 * q + cp mod 64) by (apply Z.div_mod; lia). assert (Q' : q = 64 * (q / 64) + q mod 64) by (apply Z.div_mod; lia). lia.
Qed.

Lemma first_char_runes : forall s c, is_bytes s -> first_char s c -> hd [] (runes s) = c.
Proof.
  intros s c B F. destruct F as [cp c r U|b r N].
  - rewrite (runes_char _ _ _ U). reflexivity.
  - inversion B as [|? ? B0 B1]; subst. destruct (runes_step b r) as [(cp & c & r' & U & E & R)|(_ & R)]; [unfold is_byte in B0; lia| |].
    + exfalso. exact (N cp c r' U E).
    + rewrite R. reflexivity.
Qed.

Lemma delimiter_spec : forall opt d, is_bytes opt -> delimiter opt d -> tsv_delimiter opt = d /\ exists cp, utf8 cp d.
Proof.
  intros opt d B [[[->| ->] ->]|(N1 & N2 & F)].
  - split; [reflexivity|]. exists 9. apply utf8_1. lia.
  - split; [reflexivity|]. exists 9. apply utf8_1. lia.
  - unfold tsv_delimiter. rewrite !bytes_neq by assumption. split; [apply first_char_runes; assumption|].
    destruct F as [cp c r U|]; [eauto|]. exists 65533.
    change [239; 191; 189] with [224 + 65533 / 4096; 128 + 65533 / 64 mod 64; 128 + 65533 mod 64]. apply utf8_3; lia.
Qed.

(** Every option asks for one delimiter. *)
Lemma delimiter_total : forall opt, is_bytes opt -> exists d, delimiter opt d.
Proof.
  intros opt B. destruct (bytes_eqb opt [] || bytes_eqb opt [92; 116]) eqn:E.
  - exists [9]. left. split; [|reflexivity]. apply orb_true_iff in E as [E|E]; apply bytes_eqb_eq in E; auto.
  - apply orb_false_iff in E as [E1 E2].
    assert (N1 : opt <> []) by (intros ->; discriminate). assert (N2 : opt <> [92; 116]) by (intros ->; discriminate).
    destruct opt as [|b r]; [congruence|]. inversion B as [|? ? B0 B1]; subst.
    destruct (runes_step b r) as [(cp & c & r' & U & E & _)|(N & _)]; [unfold is_byte in B0; lia| |].
    + exists c. right. repeat split; try assumption. rewrite E. econstructor. exact U.
    + exists [239; 191; 189]. right. repeat split; try assumption. constructor. exact N.
Qed.

Theorem tsv_text : forall env r s opt d, is_bytes r -> decode env r = Ok s -> f_tracks s <> [] -> is_bytes opt -> delimiter opt d -> separator d ->
  exists t text, tsv_export s = Ok t /\ write_tsv (tsv_delimiter opt) t = Ok text /\ table_text d (titles :: t) text.
Proof.
  intros env r s opt d Hr H N B D Sd. destruct (tsv_export_spec s (decoded_tsv env r s Hr H)) as (t & rows & E & _ & _ & W & _).
  exists t, (concat (map (write_record d) (written_records t))). split; [exact E|]. destruct (delimiter_spec opt d B D) as [-> _].
  unfold write_tsv. rewrite (separator_valid d Sd). split; [reflexivity|]. apply (write_records_text d (titles :: t) Sd).
  constructor; [discriminate|]. clear - W N. induction W as [|x t L W IH]; constructor; [|exact IH]. intros ->. cbn in L. destruct (f_tracks s); [congruence|cbn in L; lia].
Qed.

Theorem tsv_bad_delimiter : forall opt d t, is_bytes opt -> delimiter opt d -> ~ separator d -> write_tsv (tsv_delimiter opt) t = Err.
Proof.
  intros opt d t B D N. destruct (delimiter_spec opt d B D) as [-> [cp U]]. unfold write_tsv. destruct (valid_delim d) eqn:V; [|reflexivity].
  exfalso. apply N. eapply valid_separator; eassumption.
Qed.

Theorem tsv_injective : forall opt d t t' text, is_bytes opt -> delimiter opt d -> Forall (fun r => r <> []) t -> Forall (fun r => r <> []) t' ->
  write_tsv (tsv_delimiter opt) t = Ok text -> write_tsv (tsv_delimiter opt) t' = Ok text -> t = t'.
Proof.
  intros opt d t t' text B D N N' H H'. destruct (delimiter_spec opt d B D) as [E [cp U]]. rewrite E in *. clear E. unfold write_tsv in *.
  destruct (valid_delim d) eqn:V; [|discriminate]. pose proof (valid_separator d cp U V) as Sd. apply Ok_inj in H. apply Ok_inj in H'.
  assert (G : tsv_header :: t = tsv_header :: t').
  { apply (table_unambiguous d _ _ text Sd); [rewrite <- H|rewrite <- H']; apply (write_records_text d (tsv_header :: _) Sd); constructor; try assumption; discriminate. }
  injection G as ->. reflexivity.
Qed.
