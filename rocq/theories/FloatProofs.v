(** * FloatProofs: how far the printed seconds are from the time. *)
From Coq Require Import QArith Qabs Lqa.
From Verif Require Import Base Strings SpecDecimal DecimalProofs DurationProofs SpecFloat Float.
Open Scope Z_scope.

Lemma nearest_bound : forall a b, 0 < b -> 2 * Z.abs (nearest a b * b - a) <= b.
Proof.
  intros a b B. unfold nearest. pose proof (Z.div_mod a b ltac:(lia)). pose proof (Z.mod_pos_bound a b B).
  destruct (Z.ltb_spec (2 * (a mod b)) b); [replace (a / b * b - a) with (- (a mod b)) by lia; lia|].
  assert (E : (a / b + 1) * b - a = b - a mod b) by lia.
  destruct (Z.ltb_spec b (2 * (a mod b))); [rewrite E; lia|]. destruct (Z.even (a / b)); [replace (a / b * b - a) with (- (a mod b)) by lia; lia|rewrite E; lia].
Qed.

Lemma log2_ratio : forall a b, 0 < a -> 0 < b -> let e0 := Z.log2 a - Z.log2 b in
  let e := if reaches e0 a b then e0 else e0 - 1 in reaches e a b = true.
Proof.
  intros a b A B e0 e. unfold e. destruct (reaches e0 a b) eqn:R; [exact R|].
  destruct (Z.log2_spec a A) as [A1 A2]. destruct (Z.log2_spec b B) as [B1 B2].
  pose proof (Z.log2_nonneg a) as La. pose proof (Z.log2_nonneg b) as Lb. unfold reaches. destruct (Z.leb_spec 0 (e0 - 1)) as [P|P]; apply Z.leb_le.
  - assert (E : 2 ^ Z.log2 a = 2 ^ (Z.succ (Z.log2 b)) * 2 ^ (e0 - 1)) by (rewrite <- Z.pow_add_r by lia; f_equal; unfold e0; lia).
    assert (0 < 2 ^ (e0 - 1)) by (apply Z.pow_pos_nonneg; lia). nia.
  - assert (E : 2 ^ Z.succ (Z.log2 b) = 2 ^ Z.log2 a * 2 ^ (- (e0 - 1))) by (rewrite <- Z.pow_add_r by (unfold e0; lia); f_equal; unfold e0; lia).
    assert (0 < 2 ^ (- (e0 - 1))) by (apply Z.pow_pos_nonneg; lia). nia.
Qed.

Lemma denom_pos : forall v, 0 < denom v.
Proof. intros [m e]. unfold denom. cbn [snd]. destruct (Z.leb_spec 0 e); [lia|]. apply Z.pow_pos_nonneg; lia. Qed.

(** The relative error of rounding is at most 2^-53. *)
Lemma round_bound : forall a b, 0 <= a -> 0 < b -> let v := round64 a b in 0 <= numer v /\
  9007199254740992 * Z.abs (numer v * b - a * denom v) <= a * denom v.
Proof.
  intros a b A B v. unfold v, round64. destruct (Z.eqb_spec a 0) as [-> |N]; [cbn; lia|].
  assert (A' : 0 < a) by lia. pose proof (log2_ratio a b A' B) as R. cbv zeta in R |- *.
  set (e := if reaches (Z.log2 a - Z.log2 b) a b then Z.log2 a - Z.log2 b else Z.log2 a - Z.log2 b - 1) in *. clearbody e.
  set (k := 52 - e).
  set (m := if 0 <=? k then nearest (a * 2 ^ k) b else nearest a (b * 2 ^ (- k))).
  assert (G : 0 <= numer (m, - k) /\ 9007199254740992 * Z.abs (numer (m, - k) * b - a * denom (m, - k)) <= a * denom (m, - k)).
  { unfold numer, denom. cbn [fst snd]. unfold m. destruct (Z.leb_spec 0 k) as [K|K].
    - assert (P : 0 < 2 ^ k) by (apply Z.pow_pos_nonneg; lia). pose proof (nearest_bound (a * 2 ^ k) b B) as NB.
      assert (L : 4503599627370496 * b <= a * 2 ^ k).
      { unfold reaches in R. destruct (Z.leb_spec 0 e) as [E|E]; apply Z.leb_le in R.
        - assert (X : 4503599627370496 = 2 ^ e * 2 ^ k) by (rewrite <- Z.pow_add_r by lia; replace (e + k) with 52 by (unfold k; lia); reflexivity). nia.
        - assert (X : 2 ^ k = 4503599627370496 * 2 ^ (- e)) by (change 4503599627370496 with (2 ^ 52); rewrite <- Z.pow_add_r by lia; f_equal; unfold k; lia). nia. }
      assert (M : 0 <= nearest (a * 2 ^ k) b) by nia.
      destruct (Z.leb_spec 0 (- k)) as [K'|K'].
      + assert (k = 0) by lia. replace k with 0 in * by lia. change (2 ^ 0) with 1 in *. change (2 ^ - 0) with 1. rewrite !Z.mul_1_r in *. split; [lia|]. lia.
      + rewrite Z.opp_involutive. split; [lia|]. lia.
    - destruct (Z.leb_spec 0 (- k)) as [K'|K']; [|lia]. assert (P : 0 < 2 ^ (- k)) by (apply Z.pow_pos_nonneg; lia).
      assert (Pb : 0 < b * 2 ^ (- k)) by nia. pose proof (nearest_bound a (b * 2 ^ (- k)) Pb) as NB.
      assert (L : 4503599627370496 * (b * 2 ^ (- k)) <= a).
      { unfold reaches in R. destruct (Z.leb_spec 0 e) as [E|E]; [|unfold k in K; lia]. apply Z.leb_le in R.
        assert (X : 2 ^ e = 4503599627370496 * 2 ^ (- k)) by (change 4503599627370496 with (2 ^ 52); rewrite <- Z.pow_add_r by lia; f_equal; unfold k; lia). nia. }
      assert (M : 0 <= nearest a (b * 2 ^ (- k))) by nia.
      split; [nia|]. rewrite Z.mul_1_r. replace (nearest a (b * 2 ^ (- k)) * 2 ^ (- k) * b - a) with (nearest a (b * 2 ^ (- k)) * (b * 2 ^ (- k)) - a) by ring. lia. }
  destruct (Z.eqb_spec m 9007199254740992) as [Em|_]; [|exact G]. rewrite Em in G. clear Em m. unfold numer, denom in *. cbn [fst snd] in *.
  destruct (Z.leb_spec 0 (- k)) as [K|K]; destruct (Z.leb_spec 0 (1 - k)) as [K'|K']; try lia.
  - replace (2 ^ (1 - k)) with (2 * 2 ^ (- k)) by (rewrite <- (Z.pow_1_r 2) at 1; rewrite <- Z.pow_add_r by lia; f_equal; lia).
    replace (4503599627370496 * (2 * 2 ^ (- k))) with (9007199254740992 * 2 ^ (- k)) by ring. exact G.
  - assert (Ek : k = 1) by lia. rewrite Ek in *. clear - G A'. change (- - (1)) with 1 in G. change (2 ^ 1) with 2 in G. change (2 ^ (1 - 1)) with 1. split; [lia|]. rewrite !Z.mul_1_r. lia.
  - replace (- (1 - k)) with (k - 1) by lia. rewrite Z.opp_involutive in G. assert (E : 2 ^ k = 2 * 2 ^ (k - 1)) by (rewrite <- (Z.pow_1_r 2) at 2; rewrite <- Z.pow_add_r by lia; f_equal; lia).
    rewrite E in G. assert (0 < 2 ^ (k - 1)) by (apply Z.pow_pos_nonneg; lia). split; [lia|]. lia.
Qed.

(** Fractions as rational numbers *)
Definition frac (a b : Z) : Q := (inject_Z a / inject_Z b)%Q.

Lemma inject_nonzero : forall b, 0 < b -> ~ (inject_Z b == 0)%Q.
Proof. intros b B E. change 0%Q with (inject_Z 0) in E. rewrite inject_Z_injective in E. lia. Qed.

Lemma inject_pos : forall b, 0 < b -> (0 < inject_Z b)%Q.
Proof. intros b B. change 0%Q with (inject_Z 0). rewrite <- Zlt_Qlt. exact B. Qed.

Lemma frac_scale : forall a b, 0 < b -> (frac a b * inject_Z b == inject_Z a)%Q.
Proof. intros a b B. unfold frac. field. apply inject_nonzero, B. Qed.

Lemma frac_nonneg : forall a b, 0 <= a -> 0 < b -> (0 <= frac a b)%Q.
Proof.
  intros a b A B. unfold frac. apply Qle_shift_div_l; [apply inject_pos, B|]. rewrite Qmult_0_l. change 0%Q with (inject_Z 0). rewrite <- Zle_Qle. exact A.
Qed.

Lemma frac_le : forall a b c d k, 0 < b -> 0 < d -> k * (a * d - c * b) <= c * b -> (inject_Z k * (frac a b - frac c d) <= frac c d)%Q.
Proof.
  intros a b c d k B D H. unfold frac. pose proof (inject_pos b B) as PB. pose proof (inject_pos d D) as PD.
  apply (Qmult_le_r _ _ (inject_Z b * inject_Z d)); [apply Qmult_lt_0_compat; assumption|].
  assert (E1 : (inject_Z k * (inject_Z a / inject_Z b - inject_Z c / inject_Z d) * (inject_Z b * inject_Z d) == inject_Z (k * (a * d - c * b)))%Q).
  { unfold Z.sub. rewrite !inject_Z_mult, inject_Z_plus, inject_Z_opp, !inject_Z_mult. field. split; apply inject_nonzero; assumption. }
  assert (E2 : (inject_Z c / inject_Z d * (inject_Z b * inject_Z d) == inject_Z (c * b))%Q) by (rewrite inject_Z_mult; field; apply inject_nonzero; assumption).
  rewrite E1, E2, <- Zle_Qle. exact H.
Qed.

Lemma frac_add : forall w n d, 0 < d -> (frac (w * d + n) d == inject_Z w + frac n d)%Q.
Proof. intros w n d D. unfold frac. rewrite inject_Z_plus, inject_Z_mult. field. apply inject_nonzero, D. Qed.

Definition value (v : Z * Z) : Q := frac (numer v) (denom v).

Lemma round_value : forall a b, 0 <= a -> 0 < b ->
  (0 <= value (round64 a b) /\ 9007199254740992 * (value (round64 a b) - frac a b) <= frac a b /\ 9007199254740992 * (frac a b - value (round64 a b)) <= frac a b)%Q.
Proof.
  intros a b A B. destruct (round_bound a b A B) as [N H]. pose proof (denom_pos (round64 a b)) as D. unfold value.
  split; [apply frac_nonneg; assumption|split].
  - apply (frac_le (numer (round64 a b)) (denom (round64 a b)) a b 9007199254740992 D B). lia.
  - pose proof (frac_le (numer (round64 a b)) (denom (round64 a b)) a b (-9007199254740992) D B ltac:(lia)) as L.
    change (inject_Z (-9007199254740992)) with (- (9007199254740992))%Q in L. lra.
Qed.

Lemma seconds_value : forall t, 0 <= t <= 9223372036854775808 ->
  (0 <= value (seconds t) /\ frac t 1000000000 - value (seconds t) <= (1 # 300000) /\ value (seconds t) - frac t 1000000000 <= (1 # 300000) /\ 0 <= frac t 1000000000 <= 9223372037)%Q.
Proof.
  intros t T. unfold seconds. set (r := t mod 1000000000). set (w := t / 1000000000). set (q := round64 r 1000000000).
  assert (R : 0 <= r < 1000000000) by (unfold r; lia). assert (W : 0 <= w <= 9223372036) by (unfold w; lia).
  destruct (round_value r 1000000000 ltac:(lia) ltac:(lia)) as (Q0 & Q1 & Q2). fold q in Q0, Q1, Q2. pose proof (denom_pos q) as D.
  assert (Nq : 0 <= numer q) by (apply round_bound; lia).
  destruct (round_value (w * denom q + numer q) (denom q) ltac:(nia) D) as (V0 & V1 & V2). rewrite frac_add in V1, V2 by exact D. fold (value q) in V1, V2.
  assert (E : (frac t 1000000000 == inject_Z w + frac r 1000000000)%Q).
  { rewrite <- frac_add by lia. unfold r, w. replace (t / 1000000000 * 1000000000 + t mod 1000000000) with t by lia. reflexivity. }
  assert (W0 : (0 <= inject_Z w <= 9223372036)%Q) by (split; [change 0%Q with (inject_Z 0)|change 9223372036%Q with (inject_Z 9223372036)]; rewrite <- Zle_Qle; lia).
  assert (R0 : (0 <= frac r 1000000000)%Q) by (apply frac_nonneg; lia).
  assert (R1 : (frac r 1000000000 <= 1)%Q) by (unfold frac; apply Qle_shift_div_r; [reflexivity|]; change (1 * inject_Z 1000000000)%Q with (inject_Z 1000000000); rewrite <- Zle_Qle; lia).
  rewrite E. set (F := frac r 1000000000) in *. set (X := inject_Z w) in *. set (Y := value q) in *.
  set (V := value (round64 (w * denom q + numer q) (denom q))) in *. clearbody F X Y V. clear - Q0 Q1 Q2 V0 V1 V2 W0 R0 R1. repeat split; lra.
Qed.

(** What [shortest] finds is read as the number, or is cut off behind its last digit. *)
Lemma shortest_found : forall f p v n p', 0 <= p -> shortest f p v = (n, p') -> p <= p' <= p + Z.of_nat f /\
  (round64 n (10 ^ p') = v \/ (p' = p + Z.of_nat f /\ n = numer v * 10 ^ p' / denom v)).
Proof.
  induction f as [|f IH]; intros p v n p' P H.
  { cbn [shortest] in H. injection H as <- <-. split; [lia|]. right. split; [lia|reflexivity]. }
  cbn [shortest] in H. cbv zeta in H. set (lo := numer v * 10 ^ p / denom v) in *.
  assert (K : forall n0, (fst (round64 n0 (10 ^ p)) =? fst v) && (snd (round64 n0 (10 ^ p)) =? snd v) = true -> round64 n0 (10 ^ p) = v).
  { intros n0 E. apply andb_true_iff in E. destruct E as [E1 E2]. apply Z.eqb_eq in E1, E2. destruct (round64 n0 (10 ^ p)), v. cbn in *. congruence. }
  destruct ((fst (round64 lo (10 ^ p)) =? fst v) && (snd (round64 lo (10 ^ p)) =? snd v)) eqn:E1.
  - destruct ((fst (round64 (lo + 1) (10 ^ p)) =? fst v) && (snd (round64 (lo + 1) (10 ^ p)) =? snd v)) eqn:E2; cbn [andb] in H;
      [destruct (denom v <? 2 * _)|]; injection H as <- <-; (split; [lia|left; apply K; assumption]).
  - destruct ((fst (round64 (lo + 1) (10 ^ p)) =? fst v) && (snd (round64 (lo + 1) (10 ^ p)) =? snd v)) eqn:E2.
    + injection H as <- <-. split; [lia|left; apply K; assumption].
    + destruct (IH (p + 1) v n p' ltac:(lia) H) as [A [B|[B C]]]; (split; [lia|]); [left; exact B|right; split; [lia|exact C]].
Qed.

Lemma shortest_nonneg : forall f p v n p', 0 <= p -> 0 <= numer v -> shortest f p v = (n, p') -> 0 <= n.
Proof.
  induction f as [|f IH]; intros p v n p' P V H; cbn [shortest] in H; cbv zeta in H; pose proof (denom_pos v) as D;
    assert (L : 0 <= numer v * 10 ^ p / denom v) by (apply Z.div_pos; [pose proof (Z.pow_nonneg 10 p); nia|exact D]).
  - injection H as <- <-. exact L.
  - repeat match type of H with (if ?b then _ else _) = _ => destruct b end; try (injection H as <- <-; lia). apply (IH (p + 1) v n p'); [lia|exact V|exact H].
Qed.

Lemma numer_seconds : forall t, 0 <= t -> 0 <= numer (seconds t).
Proof.
  intros t T. unfold seconds. apply round_bound; [|apply denom_pos].
  pose proof (denom_pos (round64 (t mod 1000000000) 1000000000)). assert (0 <= numer (round64 (t mod 1000000000) 1000000000)) by (apply round_bound; lia).
  assert (0 <= t / 1000000000) by lia. nia.
Qed.

Lemma pow10_pos : forall p, 0 <= p -> 0 < 10 ^ p.
Proof. intros p P. apply Z.pow_pos_nonneg; lia. Qed.

Lemma seconds_shortest : forall t n p, 0 <= t <= 9223372036854775808 -> shortest (Z.to_nat 25) 0 (seconds t) = (n, p) ->
  0 <= n /\ 0 <= p /\ 100000 * Z.abs (n * 1000000000 - t * 10 ^ p) <= 1000000000 * 10 ^ p.
Proof.
  intros t n p T H. pose proof (numer_seconds t ltac:(lia)) as NV. pose proof (shortest_nonneg _ _ _ _ _ (Z.le_refl 0) NV H) as N.
  destruct (shortest_found _ _ _ _ _ (Z.le_refl 0) H) as [P F]. split; [exact N|]. split; [lia|].
  destruct (seconds_value t T) as (S0 & S1 & S2 & S3). pose proof (pow10_pos p ltac:(lia)) as PP.
  assert (G : (frac n (10 ^ p) - value (seconds t) <= (1 # 300000) /\ value (seconds t) - frac n (10 ^ p) <= (1 # 300000))%Q).
  { destruct F as [F|[F1 F2]].
    - destruct (round_value n (10 ^ p) N PP) as (R0 & R1 & R2). rewrite F in *. set (X := frac n (10 ^ p)) in *. set (V := value (seconds t)) in *. set (Y := frac t 1000000000) in *.
      clearbody X V Y. clear - R0 R1 R2 S0 S1 S2 S3. split; lra.
    - pose proof (denom_pos (seconds t)) as D. set (d := denom (seconds t)) in *. set (m := numer (seconds t)) in *.
      change (0 + Z.of_nat (Z.to_nat 25)) with 25 in F1. subst p. set (K := 10 ^ 25) in *.
      assert (L : n * d <= m * K < n * d + d) by (rewrite F2; pose proof (Z.div_mod (m * K) d ltac:(lia)); pose proof (Z.mod_pos_bound (m * K) d D); lia).
      assert (PD : (0 < inject_Z d)%Q) by (apply inject_pos, D). assert (PK : (0 < inject_Z K)%Q) by (apply inject_pos, PP).
      assert (E : (value (seconds t) - frac n K == inject_Z (m * K - n * d) / (inject_Z d * inject_Z K))%Q).
      { unfold value, frac. fold m d. unfold Z.sub. rewrite inject_Z_plus, inject_Z_opp, !inject_Z_mult. field. split; apply inject_nonzero; assumption. }
      assert (E0 : (0 <= value (seconds t) - frac n K)%Q).
      { rewrite E. apply Qle_shift_div_l; [apply Qmult_lt_0_compat; assumption|]. rewrite Qmult_0_l. change 0%Q with (inject_Z 0). rewrite <- Zle_Qle. lia. }
      assert (E1 : (value (seconds t) - frac n K <= (1 # 300000))%Q).
      { rewrite E. apply Qle_shift_div_r; [apply Qmult_lt_0_compat; assumption|]. change K with (300000 * 33333333333333333333 + 100000).
        rewrite inject_Z_plus, inject_Z_mult. apply Qle_trans with (inject_Z d * 33333333333333333333)%Q.
        - change 33333333333333333333%Q with (inject_Z 33333333333333333333). rewrite <- inject_Z_mult, <- Zle_Qle. lia.
        - change (inject_Z 300000) with 300000%Q. change (inject_Z 33333333333333333333) with 33333333333333333333%Q. change (inject_Z 100000) with 100000%Q. lra. }
      split; lra. }
  destruct G as [G1 G2].
  assert (Q1 : (frac n (10 ^ p) - frac t 1000000000 <= (1 # 100000))%Q) by lra.
  assert (Q2 : (frac t 1000000000 - frac n (10 ^ p) <= (1 # 100000))%Q) by lra.
  assert (PK : (0 < inject_Z (10 ^ p))%Q) by (apply inject_pos, PP).
  assert (E : (100000 * (frac n (10 ^ p) - frac t 1000000000) * (1000000000 * inject_Z (10 ^ p)) == inject_Z (100000 * (n * 1000000000 - t * 10 ^ p)))%Q).
  { unfold frac, Z.sub. rewrite inject_Z_mult, inject_Z_plus, inject_Z_opp, !inject_Z_mult. change (inject_Z 1000000000) with 1000000000%Q. change (inject_Z 100000) with 100000%Q.
    field. apply inject_nonzero, PP. }
  assert (PM : (0 < 1000000000 * inject_Z (10 ^ p))%Q) by lra.
  assert (U : (100000 * (frac n (10 ^ p) - frac t 1000000000) <= 1 /\ -(1) <= 100000 * (frac n (10 ^ p) - frac t 1000000000))%Q) by (split; lra). destruct U as [U1 U2].
  apply (Qmult_le_r _ _ _ PM) in U1. apply (Qmult_le_r _ _ _ PM) in U2. rewrite E in U1, U2.
  change 1000000000%Q with (inject_Z 1000000000) in U1, U2. change 1%Q with (inject_Z 1) in U1. change (-(1))%Q with (inject_Z (-1)) in U2.
  rewrite <- !inject_Z_mult, <- Zle_Qle in U1, U2. lia.
Qed.

Lemma places_spec : forall p n after, 0 <= n < 10 ^ Z.of_nat p -> exists f, places p n after = f ++ after /\ Forall is_digit f /\ length f = p /\ digits_value f = n.
Proof.
  induction p as [|p IH]; intros n after N.
  { cbn in N. exists []. repeat split; [constructor|]. cbn. lia. }
  assert (E : 10 ^ Z.of_nat (S p) = 10 * 10 ^ Z.of_nat p) by (rewrite Nat2Z.inj_succ, Z.pow_succ_r by lia; reflexivity).
  assert (Q : 0 <= n / 10 < 10 ^ Z.of_nat p) by (split; [lia|apply Z.div_lt_upper_bound; lia]).
  cbn [places]. destruct (IH (n / 10) (48 + n mod 10 :: after) Q) as (f & F1 & F2 & F3 & F4).
  exists (f ++ [48 + n mod 10]). rewrite F1, <- app_assoc. split; [reflexivity|]. split.
  { apply Forall_app. split; [exact F2|]. constructor; [unfold is_digit; lia|constructor]. }
  split; [rewrite app_length, F3; cbn; lia|].
  rewrite digits_value_app, F4. cbn [length]. change (10 ^ Z.of_nat 1) with 10. change (digits_value [48 + n mod 10]) with (0 * 10 + (48 + n mod 10 - 48)). lia.
Qed.

Lemma fixed_fraction : forall n p, 0 <= n -> 0 <= p -> decimal_fraction n p (fixed n p).
Proof.
  intros n p N P. unfold fixed. pose proof (pow10_pos p P) as PP. destruct (Z.eqb_spec p 0) as [-> |NZ].
  { change (10 ^ 0) with 1. rewrite Z.div_1_r, app_nil_r. constructor. apply dec_decimal. }
  destruct (places_spec (Z.to_nat p) (n mod 10 ^ p) []) as (f & F1 & F2 & F3 & F4); [rewrite Z2Nat.id by lia; apply Z.mod_pos_bound, PP|].
  rewrite F1, app_nil_r. assert (L : zlen f = p) by (unfold zlen; lia).
  assert (E : n = n / 10 ^ p * 10 ^ zlen f + digits_value f) by (rewrite L, F4; pose proof (Z.div_mod n (10 ^ p) ltac:(lia)); lia).
  assert (G : decimal_fraction (n / 10 ^ p * 10 ^ zlen f + digits_value f) (zlen f) (dec (n / 10 ^ p) ++ 46 :: f)).
  { apply df_point; [apply dec_decimal|apply Z.div_pos; lia|exact F2|]. intros ->. unfold zlen in L. cbn in L. lia. }
  rewrite <- E, L in G. exact G.
Qed.

Lemma fixed_minus : forall n p, 0 < n -> 0 <= p -> decimal_fraction (- n) p (45 :: fixed n p).
Proof.
  intros n p N P. unfold fixed. pose proof (pow10_pos p P) as PP. destruct (Z.eqb_spec p 0) as [-> |NZ].
  { change (10 ^ 0) with 1. rewrite Z.div_1_r, app_nil_r. constructor. pose proof (dec_decimal n) as D. set (d := dec n) in *. clearbody d. destruct D; [lia|constructor; assumption|].
    pose proof (value_pos s H H0). lia. }
  destruct (places_spec (Z.to_nat p) (n mod 10 ^ p) []) as (f & F1 & F2 & F3 & F4); [rewrite Z2Nat.id by lia; apply Z.mod_pos_bound, PP|].
  rewrite F1, app_nil_r. assert (L : zlen f = p) by (unfold zlen; lia).
  assert (E : n = n / 10 ^ p * 10 ^ zlen f + digits_value f) by (rewrite L, F4; pose proof (Z.div_mod n (10 ^ p) ltac:(lia)); lia).
  assert (G : decimal_fraction (- (n / 10 ^ p * 10 ^ zlen f + digits_value f)) (zlen f) (45 :: dec (n / 10 ^ p) ++ 46 :: f)).
  { apply df_minus; [apply dec_decimal|apply Z.div_pos; lia|exact F2|]. intros ->. unfold zlen in L. cbn in L. lia. }
  rewrite <- E, L in G. exact G.
Qed.

Theorem seconds_printed : forall t, -9223372036854775808 <= t <= 9223372036854775807 -> t mod 1000000 = 0 -> seconds_near t (seconds_text t).
Proof.
  intros t T W. unfold seconds_text. destruct (shortest (Z.to_nat 25) 0 (seconds (Z.abs t))) as [n p] eqn:E.
  destruct (seconds_shortest (Z.abs t) n p ltac:(lia) E) as (N & P & B). pose proof (pow10_pos p P) as PP. destruct (Z.ltb_spec t 0) as [L|L].
  - assert (N0 : 0 < n).
    { destruct (Z.eq_dec n 0) as [-> |]; [|lia]. replace (0 * 1000000000 - Z.abs t * 10 ^ p) with (- (Z.abs t * 10 ^ p)) in B by ring. rewrite Z.abs_opp, Z.abs_mul, Z.abs_involutive, (Z.abs_eq (10 ^ p)) in B by lia. assert (A : 1000000 <= Z.abs t) by lia. nia. }
    exists (- n), p. split; [apply fixed_minus; assumption|].
    replace (- n * 1000000000 - t * 10 ^ p) with (- (n * 1000000000 - Z.abs t * 10 ^ p)) by (replace (Z.abs t) with (- t) by lia; ring). rewrite Z.abs_opp. exact B.
  - exists n, p. split; [apply fixed_fraction; assumption|]. replace (Z.abs t) with t in B by lia. exact B.
Qed.

(** ** The text determines the fraction *)
Lemma decimal_chars : forall n s, decimal n s -> 0 <= n -> s <> [] /\ Forall is_digit s.
Proof.
  intros n s H N. inversion H; subst.
  - split; [discriminate|]. constructor; [unfold is_digit; lia|constructor].
  - split; [intros ->; cbn in *; lia|assumption].
  - pose proof (value_pos s0 H0 H1). lia.
Qed.

Lemma decimal_minus : forall n s, decimal n (45 :: s) -> Forall is_digit s.
Proof. intros n s H. inversion H; subst; [|assumption]. inversion H0; subst. unfold is_digit in *. lia. Qed.

Lemma dot_no_digit : forall x, no_digit (46 :: x).
Proof. intros x. unfold no_digit. unfold is_digit. lia. Qed.

Lemma fraction_minus : forall n p s, decimal_fraction n p (45 :: s) ->
  (p = 0 /\ Forall is_digit s /\ decimal n (45 :: s)) \/ exists w ws f, s = ws ++ 46 :: f /\ decimal w ws /\ 0 <= w /\ Forall is_digit f /\ p = zlen f /\ n = - (w * 10 ^ zlen f + digits_value f).
Proof.
  intros n p s H. inversion H; subst.
  - left. split; [reflexivity|]. split; [|assumption]. eapply decimal_minus, H0.
  - exfalso. destruct (decimal_chars _ _ H1 H2) as [A B]. destruct ws as [|c ws]; [congruence|]. injection H0 as -> _. inversion B; subst. unfold is_digit in *. lia.
  - right. exists w, ws, f. repeat split; assumption.
Qed.

Lemma digits_dot : forall a b f, Forall is_digit a -> a = b ++ 46 :: f -> False.
Proof. intros a b f A ->. apply Forall_app in A. destruct A as [_ A]. inversion A; subst. unfold is_digit in *. lia. Qed.

Lemma decimal_plain : forall n s, decimal n s -> firstn 1 s <> [45] -> Forall is_digit s.
Proof. intros n s D M. destruct D; [constructor; [unfold is_digit; lia|constructor]|assumption|]. exfalso. apply M. reflexivity. Qed.

Theorem fraction_unique : forall n p s n' p', decimal_fraction n p s -> decimal_fraction n' p' s -> n = n' /\ p = p'.
Proof.
  assert (SP : forall w ws f w' ws' f', decimal w ws -> 0 <= w -> Forall is_digit f -> decimal w' ws' -> 0 <= w' -> Forall is_digit f' -> ws ++ 46 :: f = ws' ++ 46 :: f' -> w = w' /\ f = f').
  { intros w ws f w' ws' f' D N F D' N' F' E. destruct (decimal_chars _ _ D N) as [_ A]. destruct (decimal_chars _ _ D' N') as [_ A'].
    destruct (digits_prefix _ _ _ _ A A' (dot_no_digit f) (dot_no_digit f') E) as [-> X]. injection X as ->. split; [eapply decimal_inj; eassumption|reflexivity]. }
  intros n p s n' p' H H'. destruct (list_eq_dec Z.eq_dec (firstn 1 s) [45]) as [M|M].
  { destruct s as [|c r]; [discriminate|]. cbn in M. injection M as ->.
    destruct (fraction_minus _ _ _ H) as [(P & A & D)|(w & ws & f & -> & D & N & F & -> & ->)];
      destruct (fraction_minus _ _ _ H') as [(P' & A' & D')|(w' & ws' & f' & E & D' & N' & F' & -> & ->)].
    - subst. split; [eapply decimal_inj; eassumption|reflexivity].
    - exfalso. exact (digits_dot _ _ _ A E).
    - exfalso. eapply digits_dot; [exact A'|reflexivity].
    - destruct (SP _ _ _ _ _ _ D N F D' N' F' E) as [-> ->]. split; reflexivity. }
  inversion H; subst; try (cbn in M; congruence); inversion H'; subst; try (cbn in M; congruence).
  - split; [eapply decimal_inj; eassumption|reflexivity].
  - exfalso. match goal with D : decimal n (_ ++ _) |- _ => exact (digits_dot _ _ _ (decimal_plain _ _ D M) eq_refl) end.
  - exfalso. match goal with D : decimal n' (_ ++ _) |- _ => exact (digits_dot _ _ _ (decimal_plain _ _ D M) eq_refl) end.
  - match goal with E : _ ++ 46 :: _ = _ ++ 46 :: _ |- _ => edestruct (SP) as [Ew Ef]; [| | | | | |exact E|]; try eassumption end. subst. split; reflexivity.
  - exfalso. match goal with E : 45 :: _ = ?t |- _ => rewrite <- E in M end. apply M. reflexivity.
Qed.

Theorem near_unique : forall t t' s, t mod 1000000 = 0 -> t' mod 1000000 = 0 -> seconds_near t s -> seconds_near t' s -> t = t'.
Proof.
  intros t t' s W W' (n & p & F & B) (n' & p' & F' & B'). destruct (fraction_unique _ _ _ _ _ F F') as [<- <-].
  assert (PP : 0 < 10 ^ p) by (apply pow10_pos; inversion F; subst; unfold zlen; lia).
  assert (D : 100000 * Z.abs ((t - t') * 10 ^ p) <= 2000000000 * 10 ^ p) by (replace ((t - t') * 10 ^ p) with (t * 10 ^ p - t' * 10 ^ p) by ring; lia).
  rewrite Z.abs_mul, (Z.abs_eq (10 ^ p)) in D by lia. assert (Z.abs (t - t') <= 20000) by nia. lia.
Qed.

Theorem seconds_only : forall t, -9223372036854775808 <= t <= 9223372036854775807 -> t mod 1000000 = 0 ->
  seconds_near t (seconds_text t) /\ (forall t', t' mod 1000000 = 0 -> seconds_near t' (seconds_text t) -> t' = t).
Proof. intros t T W. pose proof (seconds_printed t T W) as N. split; [exact N|]. intros t' W' N'. eapply near_unique; eassumption. Qed.

Theorem seconds_inexact : -9223372036854775808 <= 1118000000 <= 9223372036854775807 /\ 1118000000 mod 1000000 = 0 /\
  forall n p, decimal_fraction n p (seconds_text 1118000000) -> n * 1000000000 <> 1118000000 * 10 ^ p.
Proof.
  split; [lia|]. split; [reflexivity|]. intros n p H. assert (E : seconds_text 1118000000 = fixed 11179999999999999 16) by (vm_compute; reflexivity). rewrite E in H.
  destruct (fraction_unique _ _ _ _ _ H (fixed_fraction 11179999999999999 16 ltac:(lia) ltac:(lia))) as [-> ->]. lia.
Qed.
