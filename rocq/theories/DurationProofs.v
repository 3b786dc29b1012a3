(** * DurationProofs: printed notes. *)
From Verif Require Import Base Strings Tables Event Track File SpecDecimal DecimalProofs SpecText HexProofs Utf8 Tsv Notes NotesPrint SpecDuration.

Lemma digits_value_app : forall a b, digits_value (a ++ b) = digits_value a * 10 ^ Z.of_nat (length b) + digits_value b.
Proof.
  intros a b. unfold digits_value. rewrite fold_left_app. generalize (fold_left (fun v c => v * 10 + (c - 48)) a 0). clear a.
  assert (G : forall b x y, fold_left (fun v c => v * 10 + (c - 48)) b (x + y) = x * 10 ^ Z.of_nat (length b) + fold_left (fun v c => v * 10 + (c - 48)) b y).
  { clear. induction b as [|c b IH]; intros x y; cbn [fold_left length]; [change (10 ^ Z.of_nat 0) with 1; lia|].
    replace ((x + y) * 10 + (c - 48)) with (x * 10 + (y * 10 + (c - 48))) by ring. rewrite IH. rewrite Nat2Z.inj_succ, Z.pow_succ_r by lia. ring. }
  intro x. rewrite <- (G b x 0). rewrite Z.add_0_r. reflexivity.
Qed.

(** The loop of fmtFrac after [k] digits. *)
Lemma fmt_frac_inv : forall p v print buf v0 k, 0 <= v -> Forall is_digit buf -> (print = false -> buf = []) -> (print = true -> buf <> []) ->
  v0 * 10 ^ Z.of_nat (length buf) = (v * 10 ^ Z.of_nat (length buf) + digits_value buf) * 10 ^ Z.of_nat k ->
  exists f v', fmt_frac p v print buf = ((match f with [] => [] | _ => 46 :: f end), v') /\ Forall is_digit f /\ 0 <= v' /\ v' = v / 10 ^ Z.of_nat p /\
    v0 * 10 ^ Z.of_nat (length f) = (v' * 10 ^ Z.of_nat (length f) + digits_value f) * 10 ^ Z.of_nat (k + p).
Proof.
  induction p as [|p IH]; intros v print buf v0 k Hv D P1 P2 E.
  - exists buf, v. cbn [fmt_frac]. split.
    { destruct print; [destruct buf; [exfalso; apply P2; reflexivity|reflexivity]|rewrite P1 by reflexivity; reflexivity]. }
    split; [exact D|]. split; [exact Hv|]. change (10 ^ Z.of_nat 0) with 1. rewrite Z.div_1_r. split; [reflexivity|]. rewrite Nat.add_0_r. exact E.
  - cbn [fmt_frac]. set (print' := print || negb (v mod 10 =? 0)). set (buf' := if print' then 48 + v mod 10 :: buf else buf).
    destruct (IH (v / 10) print' buf' v0 (S k)) as (f & v' & E1 & E2 & E3 & E4 & E5).
    + apply Z.div_pos; lia.
    + subst buf'. destruct print'; [constructor; [unfold is_digit; lia|exact D]|exact D].
    + intro Pf. subst buf'. rewrite Pf. apply P1. subst print'. apply orb_false_iff in Pf. apply Pf.
    + intro Pt. subst buf'. rewrite Pt. discriminate.
    + subst buf'. rewrite Nat2Z.inj_succ, Z.pow_succ_r by lia. destruct print' eqn:Pr.
      * cbn [length]. change (48 + v mod 10 :: buf) with ([48 + v mod 10] ++ buf). rewrite digits_value_app.
        change (digits_value [48 + v mod 10]) with (0 * 10 + (48 + v mod 10 - 48)). rewrite Nat2Z.inj_succ, Z.pow_succ_r by lia.
        assert (V : v = 10 * (v / 10) + v mod 10) by (apply Z.div_mod; lia).
        set (q := v / 10) in *. set (m := v mod 10) in *. rewrite V in E. clearbody q m. clear - E.
        set (A := 10 ^ Z.of_nat (length buf)) in *. set (B := 10 ^ Z.of_nat k) in *. clearbody A B.
        replace (v0 * (10 * A)) with (10 * (v0 * A)) by ring. rewrite E. ring.
      * subst print'. apply orb_false_iff in Pr as [-> M]. rewrite (P1 eq_refl) in E |- *. cbn [length] in *. change (10 ^ Z.of_nat 0) with 1 in *.
        change (digits_value []) with 0 in *. assert (V : v = 10 * (v / 10)) by lia. set (q := v / 10) in *. clearbody q. subst v.
        rewrite !Z.mul_1_r, !Z.add_0_r in *. rewrite E. ring.
    + exists f, v'. split; [exact E1|]. split; [exact E2|]. split; [exact E3|]. split.
      * rewrite E4. rewrite Nat2Z.inj_succ, Z.pow_succ_r by lia. rewrite Z.div_div by lia. reflexivity.
      * rewrite E5. f_equal. f_equal. lia.
Qed.

Lemma fmt_frac_spec : forall p v, 0 <= v -> exists f v', fmt_frac p v false [] = ((match f with [] => [] | _ => 46 :: f end), v') /\ Forall is_digit f /\ v' = v / 10 ^ Z.of_nat p /\
    v * 10 ^ Z.of_nat (length f) = (v' * 10 ^ Z.of_nat (length f) + digits_value f) * 10 ^ Z.of_nat p.
Proof.
  intros p v Hv. destruct (fmt_frac_inv p v false [] v 0) as (f & v' & E1 & E2 & _ & E4 & E5); try assumption; try constructor; try discriminate.
  - cbn [length]. change (digits_value []) with 0. change (10 ^ Z.of_nat 0) with 1. lia.
  - exists f, v'. auto.
Qed.

Lemma dec_nonneg : forall n, 0 <= n -> dec n <> [] /\ Forall is_digit (dec n) /\ digits_value (dec n) = n.
Proof.
  intros n Hn. pose proof (dec_decimal n) as D. revert D. generalize (dec n). intros t D. destruct D as [|s H1 H2|s H1 H2].
  - split; [discriminate|]. split; [constructor; [unfold is_digit; lia|constructor]|reflexivity].
  - split; [intros ->; cbn in H2; lia|]. split; [exact H1|reflexivity].
  - pose proof (value_pos s H1 H2). lia.
Qed.

(** A whole part [v], a fraction [f] and a unit. *)
Lemma amount_frac : forall v f u n x, 0 <= v -> Forall is_digit f -> In (u, n) units ->
  x * 10 ^ Z.of_nat (length f) = (v * 10 ^ Z.of_nat (length f) + digits_value f) * n ->
  amount x (dec v ++ (match f with [] => [] | _ => 46 :: f end) ++ u).
Proof.
  intros v f u n x Hv F U E. destruct (dec_nonneg v Hv) as (D1 & D2 & D3). destruct f as [|c f].
  - cbn [app]. apply (am_whole x (dec v) u n); try assumption. cbn [length] in E. change (digits_value []) with 0 in E. change (10 ^ Z.of_nat 0) with 1 in E. rewrite D3. lia.
  - change ((46 :: c :: f) ++ u) with (46 :: (c :: f) ++ u). apply (am_fraction x (dec v) (c :: f) u n); try assumption; [discriminate|].
    rewrite digits_value_app, D3. exact E.
Qed.

Lemma duration_abs : forall u, 0 <= u -> amounts u (
    if u <? 1000000000 then
      if u =? 0 then str "0s"
      else if u <? 1000 then dec u ++ str "ns"
      else if u <? 1000000 then let (f, v) := fmt_frac 3 u false [] in dec v ++ f ++ [194; 181; 115]
      else let (f, v) := fmt_frac 6 u false [] in dec v ++ f ++ str "ms"
    else
      let (f, v) := fmt_frac 9 u false [] in
      let seconds := dec (v mod 60) ++ f ++ str "s" in
      let v := v / 60 in
      if 0 <? v then
        let minutes := dec (v mod 60) ++ str "m" ++ seconds in
        let v := v / 60 in
        if 0 <? v then dec v ++ str "h" ++ minutes else minutes
      else seconds).
Proof.
  intros u Hu. destruct (Z.ltb_spec u 1000000000).
  - apply ams_one. destruct (Z.eqb_spec u 0) as [->|N0].
    { apply (am_whole 0 [48] (str "s") 1000000000); [discriminate|constructor; [unfold is_digit; lia|constructor]|cbn [units In]; auto|reflexivity]. }
    destruct (Z.ltb_spec u 1000).
    { destruct (dec_nonneg u Hu) as (D1 & D2 & D3). apply (am_whole u (dec u) (str "ns") 1); try assumption; [cbn [units In]; auto 8|lia]. }
    destruct (Z.ltb_spec u 1000000).
    + destruct (fmt_frac_spec 3 u Hu) as (f & v & -> & F & V & E). apply (amount_frac v f _ 1000); [subst v; apply Z.div_pos; lia|exact F|cbn [units In]; auto 8|exact E].
    + destruct (fmt_frac_spec 6 u Hu) as (f & v & -> & F & V & E). apply (amount_frac v f _ 1000000); [subst v; apply Z.div_pos; lia|exact F|cbn [units In]; auto 8|exact E].
  - destruct (fmt_frac_spec 9 u Hu) as (f & v & -> & F & V & E). cbv zeta. change (10 ^ Z.of_nat 9) with 1000000000 in *.
    assert (Hv : 0 <= v) by (subst v; apply Z.div_pos; lia). clear V.
    assert (Sec : forall k, k = v / 60 -> amount (u - k * 60000000000) (dec (v mod 60) ++ (match f with [] => [] | _ => 46 :: f end) ++ str "s")).
    { intros k ->. apply (amount_frac (v mod 60) f _ 1000000000); [lia|exact F|cbn [units In]; auto 8|].
      rewrite Z.mul_sub_distr_r, E. assert (V : v = 60 * (v / 60) + v mod 60) by (apply Z.div_mod; lia).
      set (q := v / 60) in *. set (m := v mod 60) in *. rewrite V at 1. clearbody q m. set (A := 10 ^ _). clearbody A. ring. }
    destruct (Z.ltb_spec 0 (v / 60)) as [L|L].
    + assert (Min : forall k, k = v / 60 / 60 -> amounts (u - k * 3600000000000) (dec (v / 60 mod 60) ++ str "m" ++ dec (v mod 60) ++ (match f with [] => [] | _ => 46 :: f end) ++ str "s")).
      { intros k ->. replace (u - v / 60 / 60 * 3600000000000) with ((v / 60 mod 60) * 60000000000 + (u - v / 60 * 60000000000)).
        2: { assert (V : v / 60 = 60 * (v / 60 / 60) + v / 60 mod 60) by (apply Z.div_mod; lia). set (q := v / 60) in *. set (r := q / 60) in *. set (m := q mod 60) in *. clearbody r m. lia. }
        rewrite (app_assoc (dec _) (str "m")). apply ams_more; [|apply ams_one; apply Sec; reflexivity].
        destruct (dec_nonneg (v / 60 mod 60) ltac:(lia)) as (D1 & D2 & D3). apply (am_whole _ _ _ 60000000000); try assumption; [cbn [units In]; auto 8|rewrite D3; reflexivity]. }
      destruct (Z.ltb_spec 0 (v / 60 / 60)) as [L'|L'].
      * replace u with ((v / 60 / 60) * 3600000000000 + (u - v / 60 / 60 * 3600000000000)) by ring.
        rewrite (app_assoc (dec _) (str "h")). apply ams_more; [|apply Min; reflexivity].
        destruct (dec_nonneg (v / 60 / 60) ltac:(lia)) as (D1 & D2 & D3). apply (am_whole _ _ _ 3600000000000); try assumption; [cbn [units In]; auto 8|rewrite D3; reflexivity].
      * specialize (Min (v / 60 / 60) eq_refl). assert (Z0 : v / 60 / 60 = 0) by (assert (0 <= v / 60 / 60) by (apply Z.div_pos; lia); lia).
        rewrite Z0 in Min. rewrite Z.sub_0_r in Min. exact Min.
    + apply ams_one. specialize (Sec (v / 60) eq_refl). assert (Z0 : v / 60 = 0) by (assert (0 <= v / 60) by (apply Z.div_pos; lia); lia). rewrite Z0 in Sec.
      rewrite Z.sub_0_r in Sec. exact Sec.
Qed.

Theorem duration_text : forall d, time_text d (duration_string d).
Proof.
  intro d. unfold duration_string. cbv zeta. pose proof (duration_abs (Z.abs d) ltac:(lia)) as A. cbv zeta in A. destruct (Z.ltb_spec d 0).
  - rewrite <- (Z.opp_involutive d) at 1. replace (- d) with (Z.abs d) by lia. apply tt_neg. exact A.
  - rewrite <- (Z.abs_eq d) at 1 by lia. apply tt_pos. exact A.
Qed.

(** ** One reading only *)

Definition halt (x : bytes) : Prop := match x with [] => True | c :: _ => is_digit c \/ c = 32 \/ c = 10 end.
Definition space_or_end (x : bytes) : Prop := match x with [] => True | c :: _ => c = 32 \/ c = 10 end.
Definition no_digit (x : bytes) : Prop := match x with [] => True | c :: _ => ~ is_digit c end.

Lemma digits_prefix : forall a b x y, Forall is_digit a -> Forall is_digit b -> no_digit x -> no_digit y -> a ++ x = b ++ y -> a = b /\ x = y.
Proof.
  induction a as [|c a IH]; intros b x y A B Nx Ny E.
  - destruct b as [|c b]; [auto|]. cbn [app] in E. subst x. inversion B; subst. cbn [no_digit] in Nx. contradiction.
  - inversion A; subst. destruct b as [|c' b]; cbn [app] in E.
    + subst y. cbn [no_digit] in Ny. contradiction.
    + injection E as -> E. inversion B; subst. destruct (IH b x y) as [-> ->]; auto.
Qed.

Lemma unit_head : forall u n, In (u, n) units -> 0 < n /\ exists c r, u = c :: r /\ ~ is_digit c /\ c <> 46.
Proof.
  intros u n H. vm_compute in H. unfold is_digit.
  repeat (destruct H as [H|H]; [apply pair_equal_spec in H as [<- <-]; split; [lia|]; eexists; eexists; (split; [reflexivity|lia])|]). destruct H.
Qed.

Lemma unit_prefix : forall u n u' n' x x', In (u, n) units -> In (u', n') units -> halt x -> halt x' -> u ++ x = u' ++ x' -> n = n' /\ x = x'.
Proof.
  intros u n u' n' x x' H H' Hx Hx' E. unfold halt, is_digit in *. vm_compute in H. vm_compute in H'.
  repeat (destruct H as [H|H]; [apply pair_equal_spec in H as [<- <-];
    repeat (destruct H' as [H'|H']; [apply pair_equal_spec in H' as [<- <-]; cbn in E; try discriminate;
       first [injection E as <-; split; reflexivity
             |injection E as E; subst; exfalso; lia
             |injection E as E E'; subst; exfalso; cbn in *; lia
             |idtac]|]); destruct H'|]); destruct H.
Qed.

Lemma unit_no_digit : forall u n x, In (u, n) units -> no_digit (u ++ x).
Proof. intros u n x H. destruct (unit_head u n H) as (_ & c & r & -> & D & _). exact D. Qed.

Lemma amount_prefix : forall v s, amount v s -> forall v' s' x x', amount v' s' -> halt x -> halt x' -> s ++ x = s' ++ x' -> v = v' /\ x = x'.
Proof.
  intros v s A v' s' x x' A' Hx Hx' E. destruct A as [v i u n N D U V|v i f u n N D Nf Df U V]; destruct A' as [v' i' u' n' N' D' U' V'|v' i' f' u' n' N' D' Nf' Df' U' V'].
  - rewrite <- !app_assoc in E. apply digits_prefix in E as [-> E]; [|assumption|assumption|eapply unit_no_digit; eassumption|eapply unit_no_digit; eassumption].
    destruct (unit_prefix u n u' n' x x' U U' Hx Hx' E) as [-> ->]. split; [congruence|reflexivity].
  - exfalso. rewrite <- !app_assoc in E. cbn [app] in E. apply digits_prefix in E as [_ E]; [|assumption|assumption|eapply unit_no_digit; eassumption|cbn; unfold is_digit; lia].
    destruct (unit_head u n U) as (_ & c & r & -> & _ & C). cbn [app] in E. injection E as E _. congruence.
  - exfalso. rewrite <- !app_assoc in E. cbn [app] in E. apply digits_prefix in E as [_ E]; [|assumption|assumption|cbn; unfold is_digit; lia|eapply unit_no_digit; eassumption].
    destruct (unit_head u' n' U') as (_ & c & r & -> & _ & C). cbn [app] in E. injection E as E _. congruence.
  - rewrite <- !app_assoc in E. cbn [app] in E. apply digits_prefix in E as [-> E]; [|assumption|assumption|cbn; unfold is_digit; lia|cbn; unfold is_digit; lia].
    injection E as E. rewrite <- !app_assoc in E. apply digits_prefix in E as [-> E]; [|assumption|assumption|eapply unit_no_digit; eassumption|eapply unit_no_digit; eassumption].
    destruct (unit_prefix u n u' n' x x' U U' Hx Hx' E) as [-> ->]. split; [|reflexivity]. rewrite <- V' in V.
    apply Z.mul_reg_r in V; [exact V|]. apply Z.pow_nonzero; lia.
Qed.

Lemma amount_head : forall v s, amount v s -> exists c r, s = c :: r /\ is_digit c.
Proof.
  intros v s A. destruct A as [v i u n N D U V|v i f u n N D Nf Df U V]; (destruct i as [|c i]; [congruence|]); inversion D; subst; cbn [app]; eauto.
Qed.

Lemma amounts_head : forall v s, amounts v s -> exists c r, s = c :: r /\ is_digit c.
Proof. intros v s A. destruct A as [v s A|v s w t A _]; destruct (amount_head _ _ A) as (c & r & -> & D); cbn [app]; eauto. Qed.

Lemma halt_space : forall x, space_or_end x -> halt x.
Proof. intros [|c x] H; [exact I|]. cbn in *. tauto. Qed.

Lemma halt_amounts : forall v s x, amounts v s -> halt (s ++ x).
Proof. intros v s x A. destruct (amounts_head _ _ A) as (c & r & -> & D). left. exact D. Qed.

Lemma space_not_amounts : forall v s x y, amounts v s -> space_or_end x -> x <> s ++ y.
Proof.
  intros v s x y A H E. destruct (amounts_head _ _ A) as (c & r & -> & D). cbn [app] in E. subst x. cbn [space_or_end] in H. unfold is_digit in D. lia.
Qed.

Lemma amounts_prefix : forall v s, amounts v s -> forall v' s' x x', amounts v' s' -> space_or_end x -> space_or_end x' -> s ++ x = s' ++ x' -> v = v' /\ x = x'.
Proof.
  induction 1 as [v s A|v s w t A B IH]; intros v' s' x x' A' Hx Hx' E; destruct A' as [v' s' A'|v' s' w' t' A' B'].
  - apply (amount_prefix v s A v' s' x x' A'); try apply halt_space; assumption.
  - exfalso. rewrite <- app_assoc in E. destruct (amount_prefix v s A v' s' x (t' ++ x') A') as [_ E']; [apply halt_space; exact Hx|eapply halt_amounts; exact B'|exact E|].
    exact (space_not_amounts _ _ _ _ B' Hx E').
  - exfalso. rewrite <- app_assoc in E. destruct (amount_prefix v s A v' s' (t ++ x) x' A') as [_ E']; [eapply halt_amounts; exact B|apply halt_space; exact Hx'|exact E|].
    symmetry in E'. exact (space_not_amounts _ _ _ _ B Hx' E').
  - rewrite <- !app_assoc in E. destruct (amount_prefix v s A v' s' (t ++ x) (t' ++ x') A') as [-> E']; [eapply halt_amounts; exact B|eapply halt_amounts; exact B'|exact E|].
    destruct (IH w' t' x x' B' Hx Hx' E') as [-> ->]. auto.
Qed.

Lemma time_prefix : forall v s v' s' x x', time_text v s -> time_text v' s' -> space_or_end x -> space_or_end x' -> s ++ x = s' ++ x' -> v = v' /\ x = x'.
Proof.
  intros v s v' s' x x' A A' Hx Hx' E. destruct A as [v s A|v s A]; destruct A' as [v' s' A'|v' s' A'].
  - eapply amounts_prefix; eassumption.
  - exfalso. destruct (amounts_head _ _ A) as (c & r & -> & D). cbn [app] in E. injection E as -> _. unfold is_digit in D. lia.
  - exfalso. destruct (amounts_head _ _ A') as (c & r & -> & D). cbn [app] in E. injection E as <- _. unfold is_digit in D. lia.
  - cbn [app] in E. injection E as E. destruct (amounts_prefix v s A v' s' x x' A' Hx Hx' E) as [-> ->]. auto.
Qed.

Lemma spaces_prefix : forall n m x y, hd 0 x <> 32 -> hd 0 y <> 32 -> spaces n ++ x = spaces m ++ y -> x = y.
Proof.
  unfold spaces. induction n as [|n IH]; intros m x y Hx Hy E; destruct m as [|m]; cbn [repeat app] in E.
  - exact E.
  - subst x. cbn in Hx. congruence.
  - subst y. cbn in Hy. congruence.
  - injection E as E. apply (IH m); assumption.
Qed.

Lemma word_prefix : forall a b x y, ~ In 32 a -> ~ In 32 b -> a ++ 32 :: x = b ++ 32 :: y -> a = b /\ x = y.
Proof.
  induction a as [|c a IH]; intros b x y A B E; destruct b as [|c' b]; cbn [app] in E.
  - injection E as ->. auto.
  - injection E as E _. exfalso. apply B. left. congruence.
  - injection E as E _. exfalso. apply A. left. congruence.
  - injection E as -> E. destruct (IH b x y) as [-> ->]; [intro H; apply A; right; exact H|intro H; apply B; right; exact H|exact E|auto].
Qed.

(** A word, spaces, and a label that starts with spaces. *)
Lemma spaces_app : forall n m, spaces n ++ spaces m = spaces (n + m).
Proof. intros. unfold spaces. symmetry. apply repeat_app. Qed.

Lemma label_prefix : forall n n' k l x x', hd 0 l <> 32 -> l <> [] -> spaces n ++ (spaces k ++ l) ++ x = spaces n' ++ (spaces k ++ l) ++ x' -> x = x'.
Proof.
  intros n n' k l x x' Hl Nl E. rewrite <- !app_assoc in E. rewrite !(app_assoc (spaces _) (spaces _)), !spaces_app in E.
  apply spaces_prefix in E; [apply app_inv_head in E; exact E|destruct l; [congruence|exact Hl]|destruct l; [congruence|exact Hl]].
Qed.

Lemma spaces_head : forall n k x, (0 < k)%nat -> space_or_end (spaces n ++ (spaces k ++ x)).
Proof. intros n k x H. destruct n; [destruct k; [lia|]; left; reflexivity|left; reflexivity]. Qed.

Lemma decimal_prefix : forall n s n' s' x x', decimal n s -> decimal n' s' -> space_or_end x -> space_or_end x' -> s ++ x = s' ++ x' -> n = n' /\ x = x'.
Proof.
  assert (G : forall x, space_or_end x -> no_digit x) by (intros [|c x] H; [exact I|cbn in *; unfold is_digit; lia]).
  assert (One : Forall is_digit [48]) by (constructor; [unfold is_digit; lia|constructor]).
  intros n s n' s' x x' D D' Hx Hx' E.
  assert (V : forall n s, decimal n s -> (exists t, s = t /\ Forall is_digit t /\ n = digits_value t) \/ (exists t, s = 45 :: t /\ Forall is_digit t /\ n = - digits_value t)).
  { clear. intros n s D. destruct D as [|s H _|s H _]; [left; exists [48]|left; exists s|right; exists s]; repeat split; try assumption.
    constructor; [unfold is_digit; lia|constructor]. }
  assert (M : forall t y y' z, Forall is_digit t -> space_or_end y -> t ++ y <> (45 :: y') ++ z).
  { clear. intros t y y' z H Hy E. destruct H as [|c t H]; cbn [app] in E; [subst y; cbn in Hy; lia|injection E as -> _; unfold is_digit in H; lia]. }
  destruct (V _ _ D) as [(t & -> & Ft & ->)|(t & -> & Ft & ->)]; destruct (V _ _ D') as [(t' & -> & Ft' & ->)|(t' & -> & Ft' & ->)].
  - apply digits_prefix in E as [-> ->]; auto.
  - exfalso. exact (M t x t' x' Ft Hx E).
  - exfalso. symmetry in E. exact (M t' x' t x Ft' Hx' E).
  - cbn [app] in E. injection E as E. apply digits_prefix in E as [-> ->]; auto.
Qed.

Lemma digit16_det : forall c a b, digit16 c a -> digit16 c b -> a = b.
Proof. intros c a b H H'. inversion H; inversion H'; subst; lia. Qed.

Lemma two_prefix : forall a b c d (x y : bytes), [a; b] ++ x = [c; d] ++ y -> a = c /\ b = d /\ x = y.
Proof. intros a b c d x y E. cbn [app] in E. injection E as E1 E2 E3. auto. Qed.

Lemma note_line_inv : forall x line, note_line x line -> exists c h1 h2 d1 d2 v s e t n1 n2 n3 n4 n5,
  l_name x <> [] /\ ~ In 32 (l_name x) /\ ~ In 10 (l_name x) /\ decimal (l_ch x) c /\ digit16 h1 d1 /\ digit16 h2 d2 /\ l_note x = 16 * d1 + d2 /\
  decimal (l_vel x) v /\ time_text (l_start x) s /\ time_text (l_end x) e /\ time_text (l_dur x) t /\
  line = l_name x ++ spaces n1 ++ str " channel:" ++ c ++ spaces n2 ++ str "  note:" ++ [h1; h2] ++ str "  velocity:" ++ v ++ spaces n3 ++
      str "  start:" ++ s ++ spaces n4 ++ str "  end:" ++ e ++ spaces n5 ++ str "  duration:" ++ t ++ [10].
Proof. intros x line H. destruct H as [x c h1 h2 d1 d2 v s e t n1 n2 n3 n4 n5]. exists c, h1, h2, d1, d2, v, s, e, t, n1, n2, n3, n4, n5.
  repeat (split; [assumption|]). reflexivity. Qed.

Theorem line_unambiguous : forall x y line, note_line x line -> note_line y line -> x = y.
Proof.
  intros x y line A B. apply note_line_inv in A as (c & h1 & h2 & d1 & d2 & v & s & e & t & n1 & n2 & n3 & n4 & n5 & N1 & N2 & N3 & C & H1 & H2 & HN & V & S & E & T & L0).
  apply note_line_inv in B as (c' & h1' & h2' & d1' & d2' & v' & s' & e' & t' & m1 & m2 & m3 & m4 & m5 & M1 & M2 & M3 & C' & H1' & H2' & HN' & V' & S' & E' & T' & L).
  rewrite L in L0. clear L. rename L0 into L.
  change (str " channel:") with (spaces 1 ++ str "channel:") in L. change (str "  note:") with (spaces 2 ++ str "note:") in L.
  change (str "  velocity:") with (spaces 2 ++ str "velocity:") in L. change (str "  start:") with (spaces 2 ++ str "start:") in L.
  change (str "  end:") with (spaces 2 ++ str "end:") in L. change (str "  duration:") with (spaces 2 ++ str "duration:") in L.
  (* name *)
  assert (W : forall n r, spaces n ++ (spaces 1 ++ str "channel:") ++ r = 32 :: spaces n ++ str "channel:" ++ r).
  { intros n r. rewrite app_assoc, app_assoc, spaces_app. replace (n + 1)%nat with (Datatypes.S n) by lia. cbn [spaces repeat app]. rewrite <- !app_assoc. reflexivity. }
  rewrite !W in L. apply word_prefix in L as [LN L]; [|exact M2|exact N2].
  apply spaces_prefix in L; [|discriminate|discriminate]. apply app_inv_head in L.
  (* channel *)
  apply (decimal_prefix _ _ _ _ _ _ C' C) in L as [LC L]; [|rewrite <- ?app_assoc; apply spaces_head; lia|rewrite <- ?app_assoc; apply spaces_head; lia].
  apply label_prefix in L; [|discriminate|discriminate].
  (* note *)
  apply two_prefix in L as (L1 & L2 & L). subst h1' h2'.
  assert (d1' = d1) by (eapply digit16_det; eassumption). assert (d2' = d2) by (eapply digit16_det; eassumption). subst d1' d2'.
  apply app_inv_head in L.
  (* velocity *)
  apply (decimal_prefix _ _ _ _ _ _ V' V) in L as [LV L]; [|rewrite <- ?app_assoc; apply spaces_head; lia|rewrite <- ?app_assoc; apply spaces_head; lia].
  apply label_prefix in L; [|discriminate|discriminate].
  (* times *)
  apply (time_prefix _ _ _ _ _ _ S' S) in L as [LS L]; [|rewrite <- ?app_assoc; apply spaces_head; lia|rewrite <- ?app_assoc; apply spaces_head; lia].
  apply label_prefix in L; [|discriminate|discriminate].
  apply (time_prefix _ _ _ _ _ _ E' E) in L as [LE L]; [|rewrite <- ?app_assoc; apply spaces_head; lia|rewrite <- ?app_assoc; apply spaces_head; lia].
  apply label_prefix in L; [|discriminate|discriminate].
  apply (time_prefix _ _ _ _ _ _ T' T) in L as [LT _]; [|right; reflexivity|right; reflexivity].
  destruct x as [x1 x2 x3 x4 x5 x6 x7], y as [y1 y2 y3 y4 y5 y6 y7]. cbn [l_name l_ch l_note l_vel l_start l_end l_dur] in *. congruence.
Qed.
