(** * FlagConverse: what the program accepts is a documented command line (C73). *)
From Verif Require Import Base Strings Flags SpecCli FlagProofs.

(** ** Numbers *)

Lemma lower_letter : forall c, 97 <= lower c <= 122 -> exists v, alnum c v /\ lower c - 87 = v.
Proof.
  intros c H. unfold lower in *.
  assert (N : 0 <= c).
  { destruct (Z.lt_ge_cases c 0) as [L|]; [|assumption]. assert (Z.lor c 32 < 0) by (apply Z.lor_neg; left; exact L). lia. }
  assert (M : c < 128).
  { destruct (Z.eq_dec c 0) as [-> |NZ]; [lia|]. assert (E : Z.log2 (Z.lor c 32) = Z.max (Z.log2 c) (Z.log2 32)) by (apply Z.log2_lor; lia).
    assert (L : Z.log2 (Z.lor c 32) <= Z.log2 122) by (apply Z.log2_le_mono; lia). change (Z.log2 122) with 6 in L. change (Z.log2 32) with 5 in E.
    assert (c < 2 ^ 7) by (apply Z.log2_lt_pow2; lia). change (2 ^ 7) with 128 in *. lia. }
  assert (B : is_byte c) by (unfold is_byte; lia).
  pose proof (byte_sweep (fun c => negb ((97 <=? Z.lor c 32) && (Z.lor c 32 <=? 122)) || (((97 <=? c) && (c <=? 122) && (Z.lor c 32 =? c)) || ((65 <=? c) && (c <=? 90) && (Z.lor c 32 =? c + 32))))
    ltac:(vm_compute; reflexivity) c B) as S. cbv beta in S.
  assert (C : (97 <= c <= 122 /\ Z.lor c 32 = c) \/ (65 <= c <= 90 /\ Z.lor c 32 = c + 32)) by lia.
  destruct C as [[C E]|[C E]]; rewrite E.
  - exists (c - 87). split; [|reflexivity]. replace c with (97 + ((c - 87) - 10)) at 1 by lia. apply al_lower. lia.
  - exists (c + 32 - 87). split; [|reflexivity]. replace c with (65 + ((c + 32 - 87) - 10)) at 1 by lia. apply al_upper. lia.
Qed.

Lemma digit_read : forall base acc c r n, c <> 95 -> uint_digits base acc (c :: r) = Ok n ->
  exists v, alnum c v /\ v < base /\ uint_digits base (acc * base + v) r = Ok n.
Proof.
  intros base acc c r n N H. cbn [uint_digits] in H. replace (c =? 95) with false in H by lia.
  destruct ((48 <=? c) && (c <=? 57)) eqn:D.
  - cbn [bind] in H. destruct (base <=? c - 48) eqn:L; [discriminate H|]. exists (c - 48). split; [|split; [lia|exact H]].
    replace c with (48 + (c - 48)) at 1 by lia. apply al_digit. lia.
  - destruct ((97 <=? lower c) && (lower c <=? 122)) eqn:A; [|discriminate H]. cbn [bind] in H.
    destruct (lower_letter c ltac:(lia)) as (v & Av & Ev). rewrite Ev in H. destruct (base <=? v) eqn:L; [discriminate H|]. exists v. split; [exact Av|]. split; [lia|exact H].
Qed.

Definition fits (base : Z) (hex : bool) : Prop := base <= 10 \/ (base <= 16 /\ hex = true).

Lemma plain_digits : forall base hex r acc n saw, fits base hex -> uint_digits base acc r = Ok n -> existsb (Z.eqb 95) r = false -> saw <> 95 -> underscores_from hex saw r = true.
Proof.
  intros base hex. induction r as [|c r IH]; intros acc n saw B H E S; cbn [underscores_from]; [lia|]. cbn [existsb] in E.
  destruct (digit_read base acc c r n ltac:(lia) H) as (v & A & L & H'). pose proof (counted_digit _ _ _ _ A L B) as C. unfold counted in C. rewrite C.
  apply (IH _ _ _ B H'); [|lia]. destruct (95 =? c); [discriminate E|exact E].
Qed.

Lemma digits_numeral : forall base hex r, fits base hex -> forall acc n s, numeral base acc s -> uint_digits base acc r = Ok n -> underscores_from hex 48 r = true ->
  numeral base n (s ++ r).
Proof.
  intros base hex r B. remember (length r) as k eqn:K. assert (LE : (length r <= k)%nat) by lia. clear K. revert r LE.
  induction k as [|k IH]; intros [|c r] LE acc n s N H U; cbn [length] in LE; try lia.
  - cbn [uint_digits] in H. apply Ok_inj in H. subst n. rewrite app_nil_r. exact N.
  - cbn [uint_digits] in H. apply Ok_inj in H. subst n. rewrite app_nil_r. exact N.
  - destruct (Z.eq_dec c 95) as [-> |C].
    + cbn [underscores_from] in U. change ((48 <=? 95) && (95 <=? 57)) with false in U.
      replace (hex && (97 <=? lower 95) && (lower 95 <=? 102)) with false in U by (destruct hex; reflexivity). change (95 =? 95) with true in U. change (48 =? 48) with true in U.
      cbn [orb andb] in U. cbn [uint_digits] in H. change (95 =? 95) with true in H. cbv iota in H.
      destruct r as [|c r]; [discriminate U|]. cbn [underscores_from] in U.
      assert (C : c <> 95).
      { intros ->. change ((48 <=? 95) && (95 <=? 57)) with false in U. replace (hex && (97 <=? lower 95) && (lower 95 <=? 102)) with false in U by (destruct hex; reflexivity). discriminate U. }
      destruct (digit_read _ _ _ _ _ C H) as (v & A & L & H'). pose proof (counted_digit _ _ _ _ A L B) as D. unfold counted in D. rewrite D in U.
      replace (s ++ 95 :: c :: r) with ((s ++ str "_" ++ [c]) ++ r) by (rewrite <- !app_assoc; reflexivity). cbn [length] in LE.
      apply (IH r ltac:(lia) (acc * base + v)); [|exact H'|exact U]. apply num_more; auto.
    + destruct (digit_read _ _ _ _ _ C H) as (v & A & L & H'). pose proof (counted_digit _ _ _ _ A L B) as D. unfold counted in D.
      cbn [underscores_from] in U. rewrite D in U.
      replace (s ++ c :: r) with ((s ++ [] ++ [c]) ++ r) by (rewrite <- !app_assoc; reflexivity).
      apply (IH r ltac:(lia) (acc * base + v)); [|exact H'|exact U]. apply num_more; auto.
Qed.

(** The first digit *)
Lemma first_digit : forall base hex c r n, fits base hex -> c <> 95 -> uint_digits base 0 (c :: r) = Ok n -> underscores_from hex 48 r = true -> numeral base n (c :: r).
Proof.
  intros base hex c r n B C H U. destruct (digit_read _ _ _ _ _ C H) as (v & A & L & H'). rewrite Z.mul_0_l in H'.
  apply (digits_numeral base hex r B (0 + v) n [c]); [|exact H'|exact U]. apply num_one; assumption.
Qed.

Lemma after_prefix : forall base hex ds n, fits base hex -> ds <> [] -> uint_digits base 0 ds = Ok n -> underscores_from hex 48 ds = true ->
  exists u s, ds = u ++ s /\ (u = [] \/ u = str "_") /\ numeral base n s.
Proof.
  intros base hex ds n B N H U. destruct ds as [|c r]; [congruence|]. destruct (Z.eq_dec c 95) as [-> |C].
  - cbn [underscores_from] in U. change ((48 <=? 95) && (95 <=? 57)) with false in U.
    replace (hex && (97 <=? lower 95) && (lower 95 <=? 102)) with false in U by (destruct hex; reflexivity). change (95 =? 95) with true in U. change (48 =? 48) with true in U.
    cbn [orb andb] in U. cbn [uint_digits] in H. change (95 =? 95) with true in H. cbv iota in H.
    destruct r as [|c r]; [discriminate U|]. cbn [underscores_from] in U.
    assert (C : c <> 95).
    { intros ->. change ((48 <=? 95) && (95 <=? 57)) with false in U. replace (hex && (97 <=? lower 95) && (lower 95 <=? 102)) with false in U by (destruct hex; reflexivity). discriminate U. }
    exists (str "_"), (c :: r). split; [reflexivity|]. split; [auto|]. destruct (digit_read _ _ _ _ _ C H) as (v & A & L & _).
    pose proof (counted_digit _ _ _ _ A L B) as D. unfold counted in D. rewrite D in U. exact (first_digit base hex c r n B C H U).
  - exists [], (c :: r). split; [reflexivity|]. split; [auto|]. destruct (digit_read _ _ _ _ _ C H) as (v & A & L & _).
    pose proof (counted_digit _ _ _ _ A L B) as D. unfold counted in D. cbn [underscores_from] in U. rewrite D in U. exact (first_digit base hex c r n B C H U).
Qed.

Lemma lower_is : forall c x, 97 <= x <= 122 -> lower c = x -> c = x \/ c = x - 32.
Proof.
  intros c x X E. destruct (lower_letter c ltac:(lia)) as (v & A & V). rewrite E in V. destruct A; lia.
Qed.

Theorem natural_only : forall n s, parse_uint0 s = Ok n -> natural_text n s.
Proof.
  intros n s H. unfold parse_uint0 in H. destruct s as [|z r]; [discriminate H|].
  destruct (base_prefix (z :: r)) as [base ds] eqn:P.
  destruct (uint_digits base 0 ds) as [m| | | |] eqn:D; try discriminate H. cbn [bind] in H.
  destruct (existsb (Z.eqb 95) ds && negb (underscores_ok (z :: r))) eqn:U; [discriminate H|]. apply Ok_inj in H. subst m.
  assert (UF : forall hex saw, fits base hex -> saw <> 95 -> (underscores_ok (z :: r) = true -> underscores_from hex saw ds = true) -> underscores_from hex saw ds = true).
  { intros hex saw F S I. destruct (existsb (Z.eqb 95) ds) eqn:E; [|exact (plain_digits base hex ds 0 n saw F D E S)]. apply I. destruct (underscores_ok (z :: r)); [reflexivity|discriminate U]. }
  clear U. cbn [base_prefix] in P. destruct (z =? 48) eqn:Z48.
  - assert (z = 48) by lia. subst z. clear Z48.
    assert (OLD : (base, ds) = (8, r) -> (underscores_ok (48 :: r) = underscores_from false 94 (48 :: r)) -> natural_text n (48 :: r)).
    { intros E I. apply pair_equal_spec in E as [-> ->]. destruct r as [|c r]; [cbn in D; apply Ok_inj in D; subst; constructor|].
      assert (F8 : fits 8 false) by (left; lia). assert (V : underscores_from false 48 (c :: r) = true).
      { apply UF; [exact F8|lia|]. intro V. rewrite I in V. cbn [underscores_from] in V. change ((48 <=? 48) && (48 <=? 57)) with true in V. cbn [orb] in V. exact V. }
      destruct (after_prefix 8 false (c :: r) n F8 ltac:(discriminate) D V) as (u & s & -> & Uu & N). change (48 :: u ++ s) with (str "0" ++ u ++ s).
      apply (nt_prefix 8); [left; reflexivity|exact Uu|exact N]. }
    destruct r as [|c r]; [injection P as <- <-; apply OLD; reflexivity|]. destruct r as [|y r].
    { injection P as <- <-. cbn [uint_digits] in D. apply OLD; [reflexivity|]. unfold underscores_ok. change (48 =? 48) with true. cbn [andb].
      destruct ((lower c =? 98) || (lower c =? 111) || (lower c =? 120)) eqn:LC; [|reflexivity]. exfalso.
      destruct (Z.eq_dec c 95) as [-> |C]; [discriminate LC|]. destruct (digit_read 8 0 c [] n C D) as (v & A & L & _).
      destruct (digit_alone 8 c v A L ltac:(lia)) as (C1 & C2 & C3). rewrite C1, C2, C3 in LC. discriminate LC. }
    destruct (lower c =? 98) eqn:L98; [|destruct (lower c =? 111) eqn:L111; [|destruct (lower c =? 120) eqn:L120]].
    + injection P as <- <-. assert (F : fits 2 false) by (left; lia). assert (V : underscores_from false 48 (y :: r) = true).
      { apply UF; [exact F|lia|]. intro V. unfold underscores_ok in V. rewrite L98 in V. cbn [Z.eqb Pos.eqb andb orb] in V. replace (lower c =? 120) with false in V by lia. exact V. }
      destruct (after_prefix 2 false (y :: r) n F ltac:(discriminate) D V) as (u & s & -> & Uu & N).
      destruct (lower_is c 98 ltac:(lia) ltac:(lia)) as [-> | ->]; [change (48 :: 98 :: u ++ s) with (str "0b" ++ u ++ s)|change (48 :: 98 - 32 :: u ++ s) with (str "0B" ++ u ++ s)];
      apply (nt_prefix 2); try exact Uu; try exact N; cbn [In]; tauto.
    + injection P as <- <-. assert (F : fits 8 false) by (left; lia). assert (V : underscores_from false 48 (y :: r) = true).
      { apply UF; [exact F|lia|]. intro V. unfold underscores_ok in V. rewrite L111, L98 in V. cbn [Z.eqb Pos.eqb andb orb] in V. replace (lower c =? 120) with false in V by lia. exact V. }
      destruct (after_prefix 8 false (y :: r) n F ltac:(discriminate) D V) as (u & s & -> & Uu & N).
      destruct (lower_is c 111 ltac:(lia) ltac:(lia)) as [-> | ->]; [change (48 :: 111 :: u ++ s) with (str "0o" ++ u ++ s)|change (48 :: 111 - 32 :: u ++ s) with (str "0O" ++ u ++ s)];
      apply (nt_prefix 8); try exact Uu; try exact N; cbn [In]; tauto.
    + injection P as <- <-. assert (F : fits 16 true) by (right; split; [lia|reflexivity]). assert (V : underscores_from true 48 (y :: r) = true).
      { apply UF; [exact F|lia|]. intro V. unfold underscores_ok in V. rewrite L120, L111, L98 in V. cbn [Z.eqb Pos.eqb andb orb] in V. exact V. }
      destruct (after_prefix 16 true (y :: r) n F ltac:(discriminate) D V) as (u & s & -> & Uu & N).
      destruct (lower_is c 120 ltac:(lia) ltac:(lia)) as [-> | ->]; [change (48 :: 120 :: u ++ s) with (str "0x" ++ u ++ s)|change (48 :: 120 - 32 :: u ++ s) with (str "0X" ++ u ++ s)];
      apply (nt_prefix 16); try exact Uu; try exact N; cbn [In]; tauto.
    + injection P as <- <-. apply OLD; [reflexivity|]. unfold underscores_ok. rewrite L98, L111, L120. reflexivity.
  - injection P as <- <-. assert (F : fits 10 false) by (left; lia). assert (C : z <> 95 /\ underscores_from false 48 r = true).
    { assert (V : underscores_from false 94 (z :: r) = true).
      { apply UF; [exact F|lia|]. intro V. unfold underscores_ok in V. destruct r as [|y r]; [exact V|]. rewrite Z48 in V. exact V. }
      assert (C : z <> 95) by (intros ->; discriminate V). split; [exact C|].
      destruct (digit_read _ _ _ _ _ C D) as (v & A & L & _). pose proof (counted_digit 10 z v false A L F) as E. unfold counted in E. cbn [underscores_from] in V. rewrite E in V. exact V. }
    destruct C as [C V]. apply nt_dec; [exact (first_digit 10 false z r n F C D V)|cbn [hd]; lia].
Qed.

Theorem integer_only : forall n s, parse_int0 s = Ok n -> integer_text n s.
Proof.
  intros n s H. unfold parse_int0 in H. destruct s as [|c r]; [discriminate H|].
  destruct (c =? 43) eqn:P; [|destruct (c =? 45) eqn:M].
  - assert (c = 43) by lia. subst c. destruct (parse_uint0 r) as [m| | | |] eqn:E; try discriminate H. cbn [bind] in H.
    destruct (m <=? 9223372036854775807) eqn:L; [|discriminate H]. apply Ok_inj in H. subst m. apply natural_only in E. exact (it_plus n r E ltac:(lia)).
  - assert (c = 45) by lia. subst c. destruct (parse_uint0 r) as [m| | | |] eqn:E; try discriminate H. cbn [bind] in H.
    destruct (m <=? 9223372036854775808) eqn:L; [|discriminate H]. apply Ok_inj in H. subst n. apply natural_only in E. exact (it_minus m r E ltac:(lia)).
  - destruct (parse_uint0 (c :: r)) as [m| | | |] eqn:E; try discriminate H. cbn [bind] in H.
    destruct (m <=? 9223372036854775807) eqn:L; [|discriminate H]. apply Ok_inj in H. subst m. apply natural_only in E. exact (it_plain n _ E ltac:(lia)).
Qed.

Lemma denotes_only : forall k s v, set_value k s = Ok v -> denotes k s v.
Proof.
  intros k s v H. destruct k; cbn [set_value] in H.
  - unfold parse_bool in H. destruct (existsb (bytes_eqb s) [str "1"; str "t"; str "T"; str "TRUE"; str "true"; str "True"]) eqn:E.
    + cbn [bind] in H. apply Ok_inj in H. subst v. apply de_true. apply existsb_exists in E as (x & I & E). apply bytes_eqb_true in E. subst x. cbn [In] in *. tauto.
    + clear E. destruct (existsb (bytes_eqb s) [str "0"; str "f"; str "F"; str "FALSE"; str "false"; str "False"]) eqn:E; [|discriminate H].
      cbn [bind] in H. apply Ok_inj in H. subst v. apply de_false. apply existsb_exists in E as (x & I & E). apply bytes_eqb_true in E. subst x. cbn [In] in *. tauto.
  - apply Ok_inj in H. subst v. constructor.
  - destruct (parse_int0 s) as [n| | | |] eqn:E; try discriminate H. cbn [bind] in H. apply Ok_inj in H. subst v. constructor. apply integer_only. exact E.
Qed.

(** ** Options *)

Lemma cut_splits : forall s n v, cut_equals s = (n, v) -> ~ In 61 n /\ s = n ++ match v with Some x => str "=" ++ x | None => [] end.
Proof.
  induction s as [|c s IH]; intros n v H; cbn [cut_equals] in H; [injection H as <- <-; auto|].
  destruct (c =? 61) eqn:E; [injection H as <- <-; split; [auto|]; assert (c = 61) by lia; subst; reflexivity|].
  destruct (cut_equals s) as [n' v']. injection H as <- <-. destruct (IH _ _ eq_refl) as [I ->]. split; [|reflexivity]. intros [J|J]; [lia|contradiction].
Qed.

Lemma assocb_some : forall formal n (k : kind), assocb n formal = Some k -> In (n, k) formal.
Proof.
  induction formal as [|[m j] formal IH]; intros n k H; cbn [assocb] in H; [discriminate H|].
  destruct (bytes_eqb n m) eqn:E; [apply bytes_eqb_true in E; injection H as ->; subst; left; reflexivity|right; apply IH; exact H].
Qed.

(** An argument that starts with a dash and is neither a dash nor two *)
Lemma option_shape : forall c s', (c =? 45) && bytes_eqb s' [] = false -> let name := if c =? 45 then s' else c :: s' in
  match name with [] => true | x :: _ => (x =? 45) || (x =? 61) end = false ->
  forall n v, name_value name = (n, v) ->
  exists x, dashes x /\ 45 :: c :: s' = x ++ n ++ match v with Some y => str "=" ++ y | None => [] end.
Proof.
  intros c s' H name G n v E. subst name. destruct (c =? 45) eqn:C.
  - assert (c = 45) by lia. subst c. exists (str "--"). split; [right; reflexivity|]. destruct s' as [|x s]; [discriminate G|]. cbn [name_value] in E.
    destruct (cut_equals s) as [m w] eqn:Q. injection E as <- <-. destruct (cut_splits _ _ _ Q) as [_ ->]. reflexivity.
  - exists (str "-"). split; [left; reflexivity|]. cbn [name_value] in E.
    destruct (cut_equals s') as [m w] eqn:Q. injection E as <- <-. destruct (cut_splits _ _ _ Q) as [_ ->]. reflexivity.
Qed.

Theorem parsed_only : forall formal args,
  match parse_flags formal args with
  | Parsed vs rest => options formal args vs rest
  | Quit code => code = 2 \/ (code = 0 /\ asks_help args)
  end.
Proof.
  intros formal args. remember (length args) as k eqn:K. assert (LE : (length args <= k)%nat) by lia. clear K. revert args LE.
  assert (HELP : forall a b, asks_help b -> asks_help (a :: b)).
  { intros a b (x & n & t & D & N & T & I). exists x, n, t. repeat split; try assumption. right. exact I. }
  induction k as [|k IH]; intros [|a r] LE; cbn [length] in LE; try lia; [apply op_none|apply op_none|].
  destruct a as [|dash [|c s']]; [cbn [parse_flags]; apply op_rest; right; cbn; lia| |].
  { cbn [parse_flags]. apply op_rest. destruct (Z.eq_dec dash 45) as [-> |N]; [left; reflexivity|right; exact N]. }
  cbn [parse_flags]. destruct (dash =? 45) eqn:D; cbn [negb]; [|apply op_rest; right; cbn [hd]; lia]. assert (dash = 45) by lia. subst dash. clear D.
  destruct ((c =? 45) && bytes_eqb s' []) eqn:DD.
  { apply andb_true_iff in DD as [D1 D2]. apply bytes_eqb_true in D2. assert (c = 45) by lia. subst. exact (op_dashes formal r). }
  pose proof (option_shape c s' DD) as SH. cbv zeta in SH. destruct (match (if c =? 45 then s' else c :: s') with [] => true | x :: _ => (x =? 45) || (x =? 61) end) eqn:G; [left; reflexivity|].
  specialize (SH eq_refl). destruct (name_value (if c =? 45 then s' else c :: s')) as [n v]. destruct (SH n v eq_refl) as (x & X & ->). clear SH G DD.
  destruct (assocb n formal) as [kd|] eqn:A.
  - apply assocb_some in A.
    assert (IHr := IH r ltac:(lia)).
    destruct v as [y|].
    + assert (Q : match (match set_value kd y with Ok z => match parse_flags formal r with Parsed vs a => Parsed ((n, z) :: vs) a | Quit q => Quit q end | _ => Quit 2 end) with
        | Parsed vs rest => options formal ((x ++ n ++ str "=" ++ y) :: r) vs rest
        | Quit code => code = 2 \/ (code = 0 /\ asks_help ((x ++ n ++ str "=" ++ y) :: r)) end).
      { destruct (set_value kd y) as [z| | | |] eqn:E; try (left; reflexivity). apply denotes_only in E.
        destruct (parse_flags formal r) as [vs rest|q]; [|destruct IHr as [IHr|[IHr I']]; [left; exact IHr|right; split; [exact IHr|apply HELP; exact I']]].
        apply (op_equals formal x n kd); assumption. }
      destruct kd; exact Q.
    + rewrite app_nil_r. destruct kd.
      * cbn [set_value]. change (parse_bool (str "true")) with (Ok true : outcome bool). cbn [bind].
        destruct (parse_flags formal r) as [vs rest|q]; [|destruct IHr as [IHr|[IHr I']]; [left; exact IHr|right; split; [exact IHr|apply HELP; exact I']]].
        apply op_switch; assumption.
      * destruct r as [|y r]; [left; reflexivity|]. cbn [length] in LE. assert (IHr' := IH r ltac:(lia)).
        destruct (set_value KString y) as [z| | | |] eqn:E; try (left; reflexivity). apply denotes_only in E.
        destruct (parse_flags formal r) as [vs rest|q]; [|destruct IHr' as [IHr'|[IHr' I']]; [left; exact IHr'|right; split; [exact IHr'|apply HELP, HELP; exact I']]].
        apply (op_next formal x n KString); try assumption. discriminate.
      * destruct r as [|y r]; [left; reflexivity|]. cbn [length] in LE. assert (IHr' := IH r ltac:(lia)).
        destruct (set_value KInt y) as [z| | | |] eqn:E; try (left; reflexivity). apply denotes_only in E.
        destruct (parse_flags formal r) as [vs rest|q]; [|destruct IHr' as [IHr'|[IHr' I']]; [left; exact IHr'|right; split; [exact IHr'|apply HELP, HELP; exact I']]].
        apply (op_next formal x n KInt); try assumption. discriminate.
  - destruct (bytes_eqb n (str "help") || bytes_eqb n (str "h")) eqn:H; [|left; reflexivity]. right. split; [reflexivity|].
    exists x, n. eexists. split; [exact X|]. split; [apply orb_true_iff in H as [H|H]; apply bytes_eqb_true in H; auto|].
    split; [|left; reflexivity]. destruct v as [y|]; [right; exists y; reflexivity|left; reflexivity].
Qed.
