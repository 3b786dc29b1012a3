(** * Utf8Proofs: characters of strings. *)
From Verif Require Import Base Strings Utf8 SpecText.

Lemma valid2_spec : forall b0 b1, valid2 b0 b1 = true -> utf8 ((b0 - 192) * 64 + (b1 - 128)) [b0; b1].
Proof.
  intros b0 b1 H. unfold valid2, cont in H.
  assert (E : [b0; b1] = [192 + ((b0 - 192) * 64 + (b1 - 128)) / 64; 128 + ((b0 - 192) * 64 + (b1 - 128)) mod 64]) by (repeat (apply f_equal2; [lia|]); reflexivity).
  rewrite E. apply utf8_2. lia.
Qed.

Lemma valid3_spec : forall b0 b1 b2, valid3 b0 b1 b2 = true -> utf8 ((b0 - 224) * 4096 + (b1 - 128) * 64 + (b2 - 128)) [b0; b1; b2].
Proof.
  intros b0 b1 b2 H. unfold valid3, cont in H. 
  assert (E : [b0; b1; b2] = [224 + ((b0 - 224) * 4096 + (b1 - 128) * 64 + (b2 - 128)) / 4096;
    128 + ((b0 - 224) * 4096 + (b1 - 128) * 64 + (b2 - 128)) / 64 mod 64; 128 + ((b0 - 224) * 4096 + (b1 - 128) * 64 + (b2 - 128)) mod 64]).
  { repeat (apply f_equal2; [lia|]); reflexivity. }
  rewrite E. apply utf8_3; [|]; destruct (b0 =? 224) eqn:E0; destruct (b0 =? 237) eqn:E1; lia.
Qed.

Lemma valid4_spec : forall b0 b1 b2 b3, valid4 b0 b1 b2 b3 = true ->
  utf8 ((b0 - 240) * 262144 + (b1 - 128) * 4096 + (b2 - 128) * 64 + (b3 - 128)) [b0; b1; b2; b3].
Proof.
  intros b0 b1 b2 b3 H. unfold valid4, cont in H.
  set (cp := (b0 - 240) * 262144 + (b1 - 128) * 4096 + (b2 - 128) * 64 + (b3 - 128)).
  assert (E : [b0; b1; b2; b3] = [240 + cp / 262144; 128 + cp / 4096 mod 64; 128 + cp / 64 mod 64; 128 + cp mod 64]).
  { unfold cp. repeat (apply f_equal2; [lia|]); reflexivity. }
  rewrite E. apply utf8_4. unfold cp. destruct (b0 =? 240) eqn:E0; destruct (b0 =? 244) eqn:E1; lia.
Qed.

Lemma utf8_valid : forall cp c, utf8 cp c ->
  (exists b0, c = [b0] /\ 0 <= b0 < 128) \/
  (exists b0 b1, c = [b0; b1] /\ 128 <= b0 /\ valid2 b0 b1 = true) \/
  (exists b0 b1 b2, c = [b0; b1; b2] /\ 224 <= b0 /\ valid3 b0 b1 b2 = true) \/
  (exists b0 b1 b2 b3, c = [b0; b1; b2; b3] /\ 240 <= b0 /\ valid4 b0 b1 b2 b3 = true).
Proof.
  intros cp c H. destruct H.
  - left. eauto.
  - right. left. do 2 eexists. split; [reflexivity|]. split; [lia|]. unfold valid2, cont. lia.
  - right. right. left. do 3 eexists. split; [reflexivity|]. split; [lia|]. unfold valid3, cont.
    destruct (224 + cp / 4096 =? 224) eqn:E0; destruct (224 + cp / 4096 =? 237) eqn:E1; lia.
  - right. right. right. do 4 eexists. split; [reflexivity|]. split; [lia|]. unfold valid4, cont.
    destruct (240 + cp / 262144 =? 240) eqn:E0; destruct (240 + cp / 262144 =? 244) eqn:E1; lia.
Qed.

Lemma valid2_low : forall b0 b1, 224 <= b0 -> valid2 b0 b1 = false.
Proof. intros. unfold valid2. lia. Qed.
Lemma valid3_low : forall b0 b1 b2, 240 <= b0 -> valid3 b0 b1 b2 = false.
Proof. intros. unfold valid3. destruct (b0 =? 224), (b0 =? 237); lia. Qed.

Lemma runes_char : forall cp c r, utf8 cp c -> runes (c ++ r) = c :: runes r.
Proof.
  intros cp c r H. destruct (utf8_valid cp c H) as [(b0 & -> & B)|[(b0 & b1 & -> & L & V)|[(b0 & b1 & b2 & -> & L & V)|(b0 & b1 & b2 & b3 & -> & L & V)]]]; cbn [app runes].
  - replace (b0 <? 128) with true by lia. reflexivity.
  - replace (b0 <? 128) with false by lia. rewrite V. reflexivity.
  - replace (b0 <? 128) with false by lia. rewrite valid2_low by lia. rewrite V. reflexivity.
  - replace (b0 <? 128) with false by lia. rewrite valid2_low, valid3_low by lia. rewrite V. reflexivity.
Qed.

(** The first character. *)
Lemma runes_step : forall b0 r0, 0 <= b0 ->
  (exists cp c r, utf8 cp c /\ b0 :: r0 = c ++ r /\ runes (b0 :: r0) = c :: runes r) \/
  ((forall cp c r', utf8 cp c -> b0 :: r0 <> c ++ r') /\ runes (b0 :: r0) = replacement :: runes r0).
Proof.
  intros b0 r0 B.
  assert (Bad : b0 >= 128 ->
    (forall b1 r1, r0 = b1 :: r1 -> valid2 b0 b1 = false) ->
    (forall b1 b2 r2, r0 = b1 :: b2 :: r2 -> valid3 b0 b1 b2 = false) ->
    (forall b1 b2 b3 r3, r0 = b1 :: b2 :: b3 :: r3 -> valid4 b0 b1 b2 b3 = false) ->
    forall cp c r', utf8 cp c -> b0 :: r0 <> c ++ r').
  { intros L V2 V3 V4 cp c r' H E.
    destruct (utf8_valid cp c H) as [(x0 & -> & X)|[(x0 & x1 & -> & X & V)|[(x0 & x1 & x2 & -> & X & V)|(x0 & x1 & x2 & x3 & -> & X & V)]]];
      cbn [app] in E; injection E as -> E.
    - lia.
    - rewrite (V2 _ _ E) in V. discriminate.
    - rewrite (V3 _ _ _ E) in V. discriminate.
    - rewrite (V4 _ _ _ _ E) in V. discriminate. }
  destruct (b0 <? 128) eqn:E0.
  { left. exists b0, [b0], r0. split; [apply utf8_1; lia|]. split; [reflexivity|]. cbn [runes]. rewrite E0. reflexivity. }
  destruct r0 as [|b1 r1].
  { right. split; [|cbn [runes]; rewrite E0; reflexivity]. apply Bad; [lia|intros; discriminate..]. }
  destruct (valid2 b0 b1) eqn:E1.
  { left. eexists _, [b0; b1], r1. split; [apply valid2_spec, E1|]. split; [reflexivity|]. cbn [runes]. rewrite E0, E1. reflexivity. }
  destruct r1 as [|b2 r2].
  { right. split; [|cbn [runes]; rewrite E0, E1; reflexivity]. apply Bad; [lia|intros; congruence|intros; discriminate..]. }
  destruct (valid3 b0 b1 b2) eqn:E2.
  { left. eexists _, [b0; b1; b2], r2. split; [apply valid3_spec, E2|]. split; [reflexivity|]. cbn [runes]. rewrite E0, E1, E2. reflexivity. }
  destruct r2 as [|b3 r3].
  { right. split; [|cbn [runes]; rewrite E0, E1, E2; reflexivity]. apply Bad; [lia|intros; congruence|intros; congruence|intros; discriminate]. }
  destruct (valid4 b0 b1 b2 b3) eqn:E3.
  { left. eexists _, [b0; b1; b2; b3], r3. split; [apply valid4_spec, E3|]. split; [reflexivity|]. cbn [runes]. rewrite E0, E1, E2, E3. reflexivity. }
  right. split; [|cbn [runes]; rewrite E0, E1, E2, E3; reflexivity]. apply Bad; [lia|intros; congruence..].
Qed.

Lemma utf8_nonempty : forall cp c, utf8 cp c -> (1 <= length c)%nat.
Proof. intros cp c H. destruct H; cbn; lia. Qed.

Lemma runes_chars : forall s, is_bytes s -> chars s (length (runes s)).
Proof.
  intro s. remember (length s) as n eqn:E. assert (L : (length s <= n)%nat) by lia. clear E. revert s L.
  induction n as [|n IH]; intros s L B; (destruct s as [|b0 r0]; [constructor|]); cbn [length] in L; [lia|].
  apply Forall_cons_iff in B as [B0 B]. destruct (runes_step b0 r0) as [(cp & c & r & U & E & R)|(N & R)]; [unfold is_byte in B0; lia| |].
  - rewrite R, E. cbn [length]. pose proof (utf8_nonempty _ _ U) as K. apply (chars_cons cp); [exact U|]. apply IH.
    + apply (f_equal (@length Z)) in E. rewrite app_length in E. cbn [length] in E. lia.
    + assert (D : is_bytes (c ++ r)) by (rewrite <- E; constructor; auto). apply Forall_app in D. apply D.
  - rewrite R. cbn [length]. apply chars_bad; [exact N|]. apply IH; [lia|exact B].
Qed.

Lemma utf8_prefix : forall cp c cp' c' r r', utf8 cp c -> utf8 cp' c' -> c ++ r = c' ++ r' -> c = c' /\ r = r'.
Proof.
  intros cp c cp' c' r r' H H' E. apply (f_equal runes) in E as R. rewrite (runes_char _ _ _ H), (runes_char _ _ _ H') in R.
  injection R as -> _. apply app_inv_head in E. auto.
Qed.

Lemma chars_det : forall s n m, chars s n -> chars s m -> n = m.
Proof.
  intros s n m H. revert m. induction H as [|cp c r n U H IH|b r n N H IH]; intros m K.
  - inversion K as [|cp c r n U H E|]; subst; [reflexivity|]. exfalso. apply utf8_nonempty in U. destruct c; cbn in *; [lia|discriminate].
  - inversion K as [E|cp' c' r' n' U' H' E|b r' n' N H' E]; subst.
    + exfalso. apply utf8_nonempty in U. destruct c; cbn in *; [lia|discriminate].
    + destruct (utf8_prefix _ _ _ _ _ _ U' U E) as [-> ->]. f_equal. apply IH, H'.
    + exfalso. apply (N cp c r U). auto.
  - inversion K as [|cp' c' r' n' U' H' E|b' r' n' N' H' E]; subst.
    + exfalso. apply (N cp' c' r' U'). auto.
    + f_equal. apply IH, H'.
Qed.

Lemma well_formed_runes : forall s, well_formed s -> concat (runes s) = s.
Proof. intros s H. induction H as [|cp c r U H IH]; [reflexivity|]. rewrite (runes_char _ _ _ U). cbn [concat]. congruence. Qed.

Lemma runes_well_formed : forall s, is_bytes s -> well_formed (concat (runes s)).
Proof.
  intro s. remember (length s) as n eqn:E. assert (L : (length s <= n)%nat) by lia. clear E. revert s L.
  induction n as [|n IH]; intros s L B; (destruct s as [|b0 r0]; [constructor|]); cbn [length] in L; [lia|].
  apply Forall_cons_iff in B as [B0 B]. destruct (runes_step b0 r0) as [(cp & c & r & U & E & R)|(N & R)]; [unfold is_byte in B0; lia| |].
  - rewrite R. cbn [concat]. pose proof (utf8_nonempty _ _ U) as K. apply (wf_cons cp); [exact U|]. apply IH.
    + apply (f_equal (@length Z)) in E. rewrite app_length in E. cbn [length] in E. lia.
    + assert (D : is_bytes (c ++ r)) by (rewrite <- E; constructor; auto). apply Forall_app in D. apply D.
  - rewrite R. cbn [concat]. apply (wf_cons 65533); [|apply IH; [lia|exact B]].
    change replacement with [224 + 65533 / 4096; 128 + 65533 / 64 mod 64; 128 + 65533 mod 64]. apply utf8_3; lia.
Qed.

Lemma well_formed_iff : forall s, is_bytes s -> (well_formed s <-> concat (runes s) = s).
Proof. intros s B. split; [apply well_formed_runes|]. intro E. rewrite <- E. apply runes_well_formed, B. Qed.

(** ASCII *)
Definition ascii (s : bytes) : Prop := Forall (fun c => c < 128) s.

Lemma runes_ascii_app : forall a b, ascii a -> runes (a ++ b) = map (fun c => [c]) a ++ runes b.
Proof.
  intros a b H. induction H as [|c a L H IH]; [reflexivity|]. cbn [app runes map].
  replace (c <? 128) with true by lia. rewrite IH. reflexivity.
Qed.

Lemma runes_ascii : forall a, ascii a -> runes a = map (fun c => [c]) a.
Proof. intros a H. rewrite <- (app_nil_r a) at 1. rewrite runes_ascii_app by exact H. apply app_nil_r. Qed.

Lemma concat_singles : forall a : bytes, concat (map (fun c => [c]) a) = a.
Proof. induction a as [|c a IH]; [reflexivity|]. cbn. congruence. Qed.

Lemma runes_short : forall s, (length (runes s) <= length s)%nat.
Proof.
  intro s. remember (length s) as n eqn:E. assert (L : (length s <= n)%nat) by lia. rewrite E. clear E. revert s L.
  induction n as [|n IH]; intros s L; (destruct s as [|b0 r0]; [cbn; lia|]); cbn [length] in L; [lia|].
  cbn [runes]. 
  assert (Z : forall x, (length (x :: runes r0) <= length (b0 :: r0))%nat) by (intro x; cbn [length]; specialize (IH r0); lia).
  destruct (b0 <? 128); [apply Z|]. destruct r0 as [|b1 r1]; [apply Z|].
  destruct (valid2 b0 b1); [cbn [length] in *; specialize (IH r1); lia|]. destruct r1 as [|b2 r2]; [apply Z|].
  destruct (valid3 b0 b1 b2); [cbn [length] in *; specialize (IH r2); lia|]. destruct r2 as [|b3 r3]; [apply Z|].
  destruct (valid4 b0 b1 b2 b3); [cbn [length] in *; specialize (IH r3); lia|]. apply Z.
Qed.
