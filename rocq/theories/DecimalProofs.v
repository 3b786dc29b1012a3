(** * DecimalProofs: Go's %d writes decimal numerals. *)
From Verif Require Import Base Strings SpecDecimal.

Lemma value_app : forall a b v, fold_left (fun v c => v * 10 + (c - 48)) (a ++ b) v =
  fold_left (fun v c => v * 10 + (c - 48)) b (fold_left (fun v c => v * 10 + (c - 48)) a v).
Proof. intros. apply fold_left_app. Qed.

Lemma digits_facts : forall f n, 0 < n -> n < 2 ^ Z.of_nat f -> 
  Forall is_digit (digits f n) /\ 49 <= hd 0 (digits f n) /\ digits_value (digits f n) = n.
Proof.
  induction f as [|f IH]; intros n Hn Hf; [cbn in Hf; lia|].
  rewrite Nat2Z.inj_succ, Z.pow_succ_r in Hf by lia. cbn [digits]. destruct (Z.ltb_spec n 10).
  - unfold digits_value, is_digit. cbn [fold_left hd]. repeat split; [constructor; [lia|constructor]|lia|lia].
  - destruct (IH (n / 10)) as (I1 & I2 & I3); [lia|lia|]. repeat split.
    + apply Forall_app. split; [assumption|]. constructor; [unfold is_digit; lia|constructor].
    + destruct (digits f (n / 10)); [cbn in I2; lia|]. exact I2.
    + unfold digits_value in *. rewrite value_app, I3. cbn [fold_left]. lia.
Qed.

Lemma log2_fuel : forall n, 0 < n -> n < 2 ^ Z.of_nat (S (Z.to_nat (Z.log2 n))).
Proof.
  intros n Hn. rewrite Nat2Z.inj_succ, Z2Nat.id by apply Z.log2_nonneg. apply Z.log2_spec. assumption.
Qed.

Theorem dec_decimal : forall n, decimal n (dec n).
Proof.
  intro n. unfold dec. destruct (Z.ltb_spec n 0).
  - destruct (digits_facts (S (Z.to_nat (Z.log2 (- n)))) (- n)) as (F1 & F2 & F3); [lia|apply log2_fuel; lia|].
    pose proof (decimal_neg _ F1 F2) as D. rewrite F3, Z.opp_involutive in D. exact D.
  - destruct (Z.eq_dec n 0) as [->|Hz]; [exact decimal_zero|].
    destruct (digits_facts (S (Z.to_nat (Z.log2 n))) n) as (F1 & F2 & F3); [lia|apply log2_fuel; lia|].
    pose proof (decimal_pos _ F1 F2) as D. rewrite F3 in D. exact D.
Qed.

Lemma value_bound : forall s v, Forall is_digit s -> 0 <= v -> 
  v <= fold_left (fun v c => v * 10 + (c - 48)) s v.
Proof.
  induction s as [|c s IH]; intros v H Hv; [cbn; lia|]. inversion H; subst. unfold is_digit in *. cbn [fold_left].
  specialize (IH (v * 10 + (c - 48)) ltac:(assumption) ltac:(lia)). lia.
Qed.

Lemma value_pos : forall s, Forall is_digit s -> 49 <= hd 0 s -> 0 < digits_value s.
Proof.
  intros [|c s] H Hh; [cbn in Hh; lia|]. inversion H; subst. cbn [hd] in Hh. unfold digits_value. cbn [fold_left].
  pose proof (value_bound s (0 * 10 + (c - 48)) ltac:(assumption) ltac:(lia)). lia.
Qed.

(** The number determines the numeral. *)
Lemma value_inj_len : forall a b, Forall is_digit a -> Forall is_digit b -> length a = length b ->
  digits_value a = digits_value b -> a = b.
Proof.
  intro a. induction a as [|c a IH] using rev_ind; intros b Ha Hb L E.
  - destruct b; [reflexivity|discriminate].
  - destruct b as [|d b _] using rev_ind; [rewrite app_length in L; cbn in L; lia|].
    rewrite !app_length in L. cbn [length] in L. apply Forall_app in Ha as [Ha Hc]. apply Forall_app in Hb as [Hb Hd].
    inversion Hc; inversion Hd; subst. unfold is_digit in *. unfold digits_value in E. rewrite !value_app in E. cbn [fold_left] in E.
    fold (digits_value a) in E. fold (digits_value b) in E.
    assert (digits_value a = digits_value b) by lia. rewrite (IH b) by (auto; lia). f_equal. f_equal. lia.
Qed.

Lemma value_ge : forall s, Forall is_digit s -> 49 <= hd 0 s -> 10 ^ (zlen s - 1) <= digits_value s.
Proof.
  intro s. induction s as [|c s IH] using rev_ind; intros H Hh; [cbn in Hh; lia|].
  apply Forall_app in H as [H Hc]. inversion Hc; subst. unfold is_digit in *.
  unfold digits_value. rewrite value_app. cbn [fold_left]. fold (digits_value s).
  destruct s as [|x s]; [cbn in *; lia|]. specialize (IH H Hh). rewrite zlen_app. change (zlen [c]) with 1.
  replace (zlen (x :: s) + 1 - 1) with (Z.succ (zlen (x :: s) - 1)) by lia.
  rewrite Z.pow_succ_r; [lia|]. rewrite zlen_cons. pose proof (zlen_nonneg _ s). lia.
Qed.

Lemma value_lt : forall s, Forall is_digit s -> 0 <= digits_value s < 10 ^ zlen s.
Proof.
  intro s. induction s as [|c s IH] using rev_ind; intros H; [cbn; lia|].
  apply Forall_app in H as [H Hc]. inversion Hc; subst. unfold is_digit in *. specialize (IH H).
  unfold digits_value. rewrite value_app. cbn [fold_left]. fold (digits_value s).
  rewrite zlen_app. change (zlen [c]) with 1. rewrite Z.pow_add_r by (try apply zlen_nonneg; lia). lia.
Qed.

Lemma numeral_unique : forall a b, Forall is_digit a -> Forall is_digit b -> 49 <= hd 0 a -> 49 <= hd 0 b ->
  digits_value a = digits_value b -> a = b.
Proof.
  intros a b Ha Hb H1 H2 E. apply value_inj_len; auto.
  pose proof (value_ge a Ha H1). pose proof (value_ge b Hb H2). pose proof (value_lt a Ha). pose proof (value_lt b Hb).
  pose proof (zlen_nonneg _ a). pose proof (zlen_nonneg _ b).
  assert (zlen a <= zlen b /\ zlen b <= zlen a); [|unfold zlen in *; lia].
  split; apply Znot_gt_le; intro G.
  - assert (10 ^ zlen b <= 10 ^ (zlen a - 1)) by (apply Z.pow_le_mono_r; lia). lia.
  - assert (10 ^ zlen a <= 10 ^ (zlen b - 1)) by (apply Z.pow_le_mono_r; lia). lia.
Qed.

Theorem decimal_unique : forall n s t, decimal n s -> decimal n t -> s = t.
Proof.
  intros n s t Hs Ht. inversion Hs as [|s1 A1 A2 A3|s1 A1 A2 A3]; inversion Ht as [|t1 B1 B2 B3|t1 B1 B2 B3]; subst; auto;
    try (pose proof (value_pos _ A1 A2)); try (pose proof (value_pos _ B1 B2)); try lia.
  - apply numeral_unique; auto.
  - f_equal. apply numeral_unique; auto. lia.
Qed.

Theorem decimal_inj : forall n m s, decimal n s -> decimal m s -> n = m.
Proof.
  intros n m s Hn Hm. inversion Hn as [E1|s1 A1 A2 A3|s1 A1 A2 A3]; inversion Hm as [E2|t1 B1 B2 B3|t1 B1 B2 B3]; subst; try congruence;
    try discriminate; cbn [hd] in *; try lia.
Qed.
