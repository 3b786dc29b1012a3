(** * FlagProofs: parsing command lines. *)
From Verif Require Import Base Strings Flags SpecCli.

Lemma bytes_eqb_true : forall a b, bytes_eqb a b = true <-> a = b.
Proof.
  induction a as [|x a IH]; intros [|y b]; cbn [bytes_eqb]; split; intro H; try discriminate; try reflexivity.
  - apply andb_true_iff in H as [E H]. apply Z.eqb_eq in E. apply IH in H. congruence.
  - injection H as -> ->. rewrite Z.eqb_refl. cbn. apply IH. reflexivity.
Qed.
Lemma bytes_eqb_same : forall a, bytes_eqb a a = true.
Proof. intro a. apply bytes_eqb_true. reflexivity. Qed.
Lemma bytes_eqb_false : forall a b, a <> b -> bytes_eqb a b = false.
Proof. intros a b H. destruct (bytes_eqb a b) eqn:E; [|reflexivity]. apply bytes_eqb_true in E. contradiction. Qed.

(** ** Numbers *)

Lemma lower_upper : forall v, 10 <= v <= 35 -> lower (65 + (v - 10)) = 97 + (v - 10).
Proof.
  intros v H. pose proof (byte_sweep (fun c => negb ((65 <=? c) && (c <=? 90)) || (lower c =? c + 32)) ltac:(vm_compute; reflexivity) (65 + (v - 10)) ltac:(unfold is_byte; lia)) as E.
  cbv beta in E. lia.
Qed.
Lemma lower_lower : forall v, 10 <= v <= 35 -> lower (97 + (v - 10)) = 97 + (v - 10).
Proof.
  intros v H. pose proof (byte_sweep (fun c => negb ((97 <=? c) && (c <=? 122)) || (lower c =? c)) ltac:(vm_compute; reflexivity) (97 + (v - 10)) ltac:(unfold is_byte; lia)) as E.
  cbv beta in E. lia.
Qed.

Lemma alnum_nonneg : forall c v, alnum c v -> 0 <= v /\ c <> 95.
Proof. intros c v H. destruct H; lia. Qed.

Lemma digit_step : forall base c v acc r, alnum c v -> v < base -> uint_digits base acc (c :: r) = uint_digits base (acc * base + v) r.
Proof.
  intros base c v acc r A L. cbn [uint_digits]. destruct A as [v H|v H|v H].
  - replace (48 + v =? 95) with false by lia. replace ((48 <=? 48 + v) && (48 + v <=? 57)) with true by lia. cbn [bind].
    replace (48 + v - 48) with v by lia. replace (base <=? v) with false by lia. reflexivity.
  - rewrite lower_lower by lia. replace (97 + (v - 10) =? 95) with false by lia. replace ((48 <=? 97 + (v - 10)) && (97 + (v - 10) <=? 57)) with false by lia.
    replace ((97 <=? 97 + (v - 10)) && (97 + (v - 10) <=? 122)) with true by lia. cbn [bind]. replace (97 + (v - 10) - 87) with v by lia. replace (base <=? v) with false by lia. reflexivity.
  - rewrite lower_upper by lia. replace (65 + (v - 10) =? 95) with false by lia. replace ((48 <=? 65 + (v - 10)) && (65 + (v - 10) <=? 57)) with false by lia.
    replace ((97 <=? 97 + (v - 10)) && (97 + (v - 10) <=? 122)) with true by lia. cbn [bind]. replace (97 + (v - 10) - 87) with v by lia. replace (base <=? v) with false by lia. reflexivity.
Qed.

Lemma numeral_app : forall base n s, numeral base n s -> forall acc r, 0 <= acc -> exists k, uint_digits base acc (s ++ r) = uint_digits base k r /\ (acc = 0 -> k = n).
Proof.
  induction 1 as [c v A L|n s u c v N IH U A L]; intros acc r P.
  - exists (acc * base + v). cbn [app]. split; [apply digit_step; assumption|lia].
  - destruct (IH acc (u ++ c :: r) P) as (k & E & K). exists (k * base + v). rewrite <- !app_assoc. cbn [app]. rewrite E. split; [|intro Z0; rewrite (K Z0); reflexivity].
    destruct U as [-> | ->]; [apply digit_step; assumption|]. change (str "_" ++ c :: r) with (95 :: c :: r). cbn [uint_digits]. change (95 =? 95) with true. cbv iota.
    apply digit_step; assumption.
Qed.

Lemma numeral_digits : forall base n s, numeral base n s -> uint_digits base 0 s = Ok n.
Proof.
  intros base n s N. destruct (numeral_app base n s N 0 [] ltac:(lia)) as (k & E & K). rewrite app_nil_r in E. rewrite E, (K eq_refl). reflexivity.
Qed.

Lemma numeral_head : forall base n s, numeral base n s -> exists c r v, s = c :: r /\ alnum c v /\ v < base.
Proof.
  induction 1 as [c v A L|n s u c v N (c' & r & v' & -> & A' & L') U A L]; [exists c, [], v; auto|]. exists c', (r ++ u ++ [c]), v'. auto.
Qed.

(** What [underscores_from] takes for a digit. *)
Definition counted (hex : bool) (c : Z) : bool := ((48 <=? c) && (c <=? 57)) || (hex && (97 <=? lower c) && (lower c <=? 102)).

Lemma counted_digit : forall base c v hex, alnum c v -> v < base -> base <= 10 \/ (base <= 16 /\ hex = true) -> counted hex c = true.
Proof.
  intros base c v hex A L B. unfold counted. destruct A as [v H|v H|v H].
  - replace ((48 <=? 48 + v) && (48 + v <=? 57)) with true by lia. reflexivity.
  - destruct B as [B|[B ->]]; [lia|]. rewrite lower_lower by lia. lia.
  - destruct B as [B|[B ->]]; [lia|]. rewrite lower_upper by lia. lia.
Qed.

Lemma numeral_underscores : forall base n s hex, numeral base n s -> base <= 10 \/ (base <= 16 /\ hex = true) ->
  forall saw r, underscores_from hex saw (s ++ r) = underscores_from hex 48 r.
Proof.
  intros base n s hex N B. induction N as [c v A L|n s u c v N IH U A L]; intros saw r.
  - cbn [app underscores_from]. pose proof (counted_digit _ _ _ _ A L B) as C. unfold counted in C. rewrite C. reflexivity.
  - rewrite <- !app_assoc. rewrite IH. pose proof (counted_digit _ _ _ _ A L B) as C. unfold counted in C. destruct U as [-> | ->].
    + cbn [app underscores_from]. rewrite C. reflexivity.
    + change (str "_" ++ [c] ++ r) with (95 :: c :: r). cbn [underscores_from]. rewrite C.
      change ((48 <=? 95) && (95 <=? 57)) with false. replace (hex && (97 <=? lower 95) && (lower 95 <=? 102)) with false by (destruct hex; reflexivity). reflexivity.
Qed.

Lemma digit_alone : forall base c v, alnum c v -> v < base -> base <= 8 -> lower c =? 98 = false /\ lower c =? 111 = false /\ lower c =? 120 = false.
Proof.
  intros base c v A L B. destruct A as [v H|v H|v H]; [|lia|lia].
  pose proof (byte_sweep (fun c => negb ((48 <=? c) && (c <=? 57)) || ((48 <=? lower c) && (lower c <=? 57))) ltac:(vm_compute; reflexivity) (48 + v) ltac:(unfold is_byte; lia)) as E.
  cbv beta in E. repeat split; lia.
Qed.

Lemma natural_parsed : forall n s, natural_text n s -> parse_uint0 s = Ok n.
Proof.
  assert (G : forall s base ds n, s <> [] -> base_prefix s = (base, ds) -> uint_digits base 0 ds = Ok n -> underscores_ok s = true -> parse_uint0 s = Ok n).
  { intros s base ds n N E H U. unfold parse_uint0. destruct s as [|c s]; [congruence|]. rewrite E, H. cbn [bind]. rewrite U.
    cbn [negb]. rewrite andb_false_r. reflexivity. }
  intros n s H. destruct H as [|n s H Hd|base n s p u P U H].
  - reflexivity.
  - destruct (numeral_head _ _ _ H) as (c & r & v & E & _). rewrite E in Hd. cbn [hd] in Hd. eapply (G s 10 s); [rewrite E; discriminate| |apply numeral_digits; exact H|].
    + rewrite E. cbn [base_prefix]. replace (c =? 48) with false by lia. reflexivity.
    + assert (U : underscores_from false 94 s = true) by (rewrite <- (app_nil_r s); rewrite (numeral_underscores 10 n s false H) by (left; lia); reflexivity).
      unfold underscores_ok. rewrite E in *. destruct r as [|x r]; [exact U|]. replace (c =? 48) with false by lia. exact U.
  - assert (D : uint_digits base 0 (u ++ s) = Ok n).
    { destruct U as [-> | ->]; [apply numeral_digits; exact H|]. change (str "_" ++ s) with (95 :: s). cbn [uint_digits]. change (95 =? 95) with true. cbv iota. apply numeral_digits; exact H. }
    assert (UF : forall hex, base <= 10 \/ (base <= 16 /\ hex = true) -> underscores_from hex 48 (u ++ s) = true).
    { intros hex B. assert (K : forall saw, underscores_from hex saw s = true) by (intro saw; rewrite <- (app_nil_r s), (numeral_underscores base n s hex H B); reflexivity).
      destruct U as [-> | ->]; [apply K|]. change (str "_" ++ s) with (95 :: s). cbn [underscores_from].
      change ((48 <=? 95) && (95 <=? 57)) with false. replace (hex && (97 <=? lower 95) && (lower 95 <=? 102)) with false by (destruct hex; reflexivity). exact (K 95). }
    destruct (numeral_head _ _ _ H) as (c & r & v & E & A & L).
    assert (NE : exists c' r', u ++ s = c' :: r') by (destruct U as [-> | ->]; [exists c, r; exact E|eexists; eexists; reflexivity]).
    destruct P as [P|P].
    + injection P as <- <-. destruct NE as (c' & r' & E'). rewrite E' in *. change (str "0" ++ c' :: r') with (48 :: c' :: r').
      assert (C : lower c' =? 98 = false /\ lower c' =? 111 = false /\ lower c' =? 120 = false).
      { destruct U as [-> | ->]; cbn [app] in E'; [rewrite E in E'; injection E' as <- <-; apply (digit_alone 8 c v A L); lia|].
        change (str "_" ++ s) with (95 :: s) in E'. injection E' as <- <-. repeat split; reflexivity. }
      destruct C as (C1 & C2 & C3). eapply (G _ 8 (c' :: r')); [discriminate| |exact D|].
      * cbn [base_prefix]. change (48 =? 48) with true. cbv iota. destruct r'; [reflexivity|]. rewrite C1, C2, C3. reflexivity.
      * unfold underscores_ok. rewrite C1, C2, C3. cbn [orb]. rewrite andb_false_r. cbn [underscores_from]. change ((48 <=? 48) && (48 <=? 57)) with true. cbn [orb].
        apply UF; left; lia.
    + destruct NE as (c' & r' & E'). rewrite E' in *.
      repeat (destruct P as [P|P]; [injection P as <- <-; (eapply G; [discriminate|cbn; reflexivity|exact D|]); cbn -[underscores_from]; apply UF; lia|]). destruct P.
Qed.

Lemma natural_head : forall n s, natural_text n s -> exists c r, s = c :: r /\ c <> 43 /\ c <> 45.
Proof.
  intros n s H. destruct H as [|n s H Hd|base n s p u P U H].
  - exists 48, []. split; [reflexivity|lia].
  - destruct (numeral_head _ _ _ H) as (c & r & v & -> & A & L). exists c, r. split; [reflexivity|]. destruct A; lia.
  - repeat (destruct P as [P|P]; [injection P as <- <-; eexists; eexists; (split; [reflexivity|]); split; discriminate|]). destruct P.
Qed.

Theorem integer_parsed : forall n s, integer_text n s -> parse_int0 s = Ok n.
Proof.
  intros n s H. destruct H as [n s H L|n s H L|n s H L].
  - destruct (natural_head _ _ H) as (c & r & E & C1 & C2). unfold parse_int0. rewrite E. replace (c =? 43) with false by lia. replace (c =? 45) with false by lia.
    rewrite <- E, (natural_parsed _ _ H). cbn [bind]. replace (n <=? 9223372036854775807) with true by lia. reflexivity.
  - unfold parse_int0. cbn [app str map list_ascii_of_string]. change (Z.of_N (N_of_ascii "+")) with 43. cbn [Z.eqb Pos.eqb]. rewrite (natural_parsed _ _ H). cbn [bind].
    replace (n <=? 9223372036854775807) with true by lia. reflexivity.
  - unfold parse_int0. cbn [app str map list_ascii_of_string]. change (Z.of_N (N_of_ascii "-")) with 45. cbn [Z.eqb Pos.eqb]. rewrite (natural_parsed _ _ H). cbn [bind].
    replace (n <=? 9223372036854775808) with true by lia. reflexivity.
Qed.

Lemma denoted : forall k s v, denotes k s v -> set_value k s = Ok v.
Proof.
  intros k s v H. destruct H as [s H|s H|s|s n H]; cbn [set_value].
  - cbn [In] in H. repeat (destruct H as [<-|H]; [reflexivity|]). destruct H.
  - cbn [In] in H. repeat (destruct H as [<-|H]; [reflexivity|]). destruct H.
  - reflexivity.
  - rewrite (integer_parsed _ _ H). reflexivity.
Qed.

(** ** Options *)

(** Names of flags: not empty, no leading dash, no equals sign; no name twice. *)
Definition good_name (n : bytes) : Prop := n <> [] /\ hd 0 n <> 45 /\ ~ In 61 n.
Definition good_names (formal : list (bytes * kind)) : Prop := Forall (fun x => good_name (fst x)) formal /\ NoDup (map fst formal).

Lemma cut_none : forall n, ~ In 61 n -> cut_equals n = (n, None).
Proof.
  induction n as [|c n IH]; intro H; [reflexivity|]. cbn [cut_equals]. replace (c =? 61) with false by (symmetry; apply Z.eqb_neq; intro; apply H; left; auto).
  rewrite IH; [reflexivity|]. intro I. apply H. right. exact I.
Qed.
Lemma cut_some : forall n s, ~ In 61 n -> cut_equals (n ++ 61 :: s) = (n, Some s).
Proof.
  induction n as [|c n IH]; intros s H; [reflexivity|]. cbn [app cut_equals]. replace (c =? 61) with false by (symmetry; apply Z.eqb_neq; intro; apply H; left; auto).
  rewrite IH; [reflexivity|]. intro I. apply H. right. exact I.
Qed.

Lemma assocb_in : forall formal n (k : kind), NoDup (map fst formal) -> In (n, k) formal -> assocb n formal = Some k.
Proof.
  induction formal as [|[m j] formal IH]; intros n k D I; [destruct I|]. cbn [map fst] in D. inversion D as [|? ? D1 D2]; subst. cbn [assocb].
  destruct I as [E|I]; [injection E as -> ->; rewrite bytes_eqb_same; reflexivity|].
  rewrite bytes_eqb_false; [apply IH; assumption|]. intros ->. apply D1. apply in_map_iff. exists (m, k). auto.
Qed.

(** One option: [t] is the name and what follows it. *)
Lemma parse_one : forall formal x n t v r, dashes x -> good_name n -> name_value (n ++ t) = (n, v) ->
  parse_flags formal ((x ++ n ++ t) :: r) =
    (let set k y rest := match set_value k y with Ok z => match rest with Parsed vs a => Parsed ((n, z) :: vs) a | Quit q => Quit q end | _ => Quit 2 end in
     match assocb n formal with
     | None => if bytes_eqb n (str "help") || bytes_eqb n (str "h") then Quit 0 else Quit 2
     | Some KBool => set KBool (match v with Some y => y | None => str "true" end) (parse_flags formal r)
     | Some k => match v with Some y => set k y (parse_flags formal r) | None => match r with [] => Quit 2 | y :: r' => set k y (parse_flags formal r') end end
     end).
Proof.
  intros formal x n t v r D (N1 & N2 & N3) V. destruct n as [|c n]; [congruence|]. cbn [hd] in N2.
  assert (C61 : c <> 61) by (intros ->; apply N3; left; reflexivity).
  assert (E45 : (c =? 45) = false) by lia. assert (E61 : (c =? 61) = false) by lia. destruct D as [-> | ->].
  - change (str "-" ++ (c :: n) ++ t) with (45 :: c :: n ++ t). change ((c :: n) ++ t) with (c :: n ++ t) in V. cbn [parse_flags Z.eqb Pos.eqb negb].
    rewrite ?E45. cbn [andb orb]. rewrite ?E45, ?E61. cbn [orb]. rewrite V. reflexivity.
  - change (str "--" ++ (c :: n) ++ t) with (45 :: 45 :: c :: n ++ t). change ((c :: n) ++ t) with (c :: n ++ t) in V. cbn [parse_flags Z.eqb Pos.eqb negb andb bytes_eqb].
    rewrite ?E45. cbn [andb orb]. rewrite ?E45, ?E61. cbn [orb]. rewrite V. reflexivity.
Qed.

Lemma name_alone : forall n, good_name n -> name_value (n ++ []) = (n, None).
Proof.
  intros n (N1 & _ & N3). rewrite app_nil_r. destruct n as [|c n]; [congruence|]. cbn [name_value]. rewrite cut_none; [reflexivity|]. intro I. apply N3. right. exact I.
Qed.
Lemma name_equals : forall n s, good_name n -> name_value (n ++ str "=" ++ s) = (n, Some s).
Proof.
  intros n s (N1 & _ & N3). destruct n as [|c n]; [congruence|]. change ((c :: n) ++ str "=" ++ s) with (c :: n ++ 61 :: s). cbn [name_value].
  rewrite cut_some; [reflexivity|]. intro I. apply N3. right. exact I.
Qed.

Theorem options_parsed : forall formal args vs rest, good_names formal -> options formal args vs rest -> parse_flags formal args = Parsed vs rest.
Proof.
  intros formal args vs rest (G & D) H. rewrite Forall_forall in G.
  assert (GN : forall n k, In (n, k) formal -> good_name n) by (intros n k I; exact (G _ I)).
  induction H as [|a r P|r|x n r vs rest X I O IH|x n k s v r vs rest X I E O IH|x n k s v r vs rest X I K E O IH].
  - reflexivity.
  - destruct P as [-> |P]; [reflexivity|]. destruct a as [|c [|c' a]]; [reflexivity|reflexivity|]. cbn [hd] in P. cbn [parse_flags]. replace (c =? 45) with false by lia. reflexivity.
  - reflexivity.
  - pose proof (parse_one formal x n [] None r X (GN _ _ I) (name_alone n (GN _ _ I))) as E. rewrite app_nil_r in E. rewrite E, (assocb_in formal n KBool D I), IH. reflexivity.
  - rewrite (parse_one formal x n (str "=" ++ s) (Some s) r X (GN _ _ I) (name_equals n s (GN _ _ I))). rewrite (assocb_in formal n k D I), IH. cbv zeta.
    destruct k; rewrite (denoted _ _ _ E); reflexivity.
  - pose proof (parse_one formal x n [] None (s :: r) X (GN _ _ I) (name_alone n (GN _ _ I))) as E'. rewrite app_nil_r in E'. rewrite E', (assocb_in formal n k D I). cbv zeta.
    destruct k; [congruence| |]; rewrite IH, (denoted _ _ _ E); reflexivity.
Qed.

Lemma assocb_none : forall (formal : list (bytes * kind)) n, ~ In n (map fst formal) -> assocb n formal = None.
Proof.
  induction formal as [|[m j] formal IH]; intros n I; [reflexivity|]. cbn [map fst In] in I. cbn [assocb]. rewrite bytes_eqb_false by (intros ->; tauto). apply IH. tauto.
Qed.

Theorem misspelt_refused : forall formal args, good_names formal -> misspelt formal args -> parse_flags formal args = Quit 2.
Proof.
  intros formal args (G & D) H. rewrite Forall_forall in G.
  assert (GN : forall n k, In (n, k) formal -> good_name n) by (intros n k I; exact (G _ I)).
  induction H as [x n t r X N1 N2 N3 T I M1 M2|x n r X I O IH|x n k s v r X I E O IH|x n k s v r X I K E O IH].
  - assert (Gn : good_name n) by (repeat split; assumption). destruct T as [-> |(s & ->)].
    + rewrite (parse_one formal x n [] None r X Gn (name_alone n Gn)), (assocb_none formal n I), !bytes_eqb_false by assumption. reflexivity.
    + rewrite (parse_one formal x n (str "=" ++ s) (Some s) r X Gn (name_equals n s Gn)), (assocb_none formal n I), !bytes_eqb_false by assumption. reflexivity.
  - pose proof (parse_one formal x n [] None r X (GN _ _ I) (name_alone n (GN _ _ I))) as E. rewrite app_nil_r in E. rewrite E, (assocb_in formal n KBool D I), IH. reflexivity.
  - rewrite (parse_one formal x n (str "=" ++ s) (Some s) r X (GN _ _ I) (name_equals n s (GN _ _ I))). rewrite (assocb_in formal n k D I), IH. cbv zeta.
    destruct k; rewrite (denoted _ _ _ E); reflexivity.
  - pose proof (parse_one formal x n [] None (s :: r) X (GN _ _ I) (name_alone n (GN _ _ I))) as E'. rewrite app_nil_r in E'. rewrite E', (assocb_in formal n k D I). cbv zeta.
    destruct k; [congruence| |]; rewrite IH, (denoted _ _ _ E); reflexivity.
Qed.

(** ** Values *)

Lemma lasting_last : forall n vs v, lasting n vs v = match last_value n vs with Some x => Some x | None => v end.
Proof.
  induction vs as [|[m x] vs IH]; intro v; [reflexivity|]. cbn [lasting last_value]. rewrite IH. destruct (last_value n vs); [reflexivity|]. destruct (bytes_eqb n m); reflexivity.
Qed.

Lemma settings_last : forall vs vs', same_settings vs vs' -> forall n, last_value n vs = last_value n vs'.
Proof.
  intros vs vs' H n. specialize (H n). rewrite !lasting_last in H. destruct (last_value n vs), (last_value n vs'); congruence.
Qed.
