From Verif Require Import Base Vlq SpecVlq.

(** Closed form of the encoder below 2^28. *)
Definition vlq_closed (v : Z) : bytes :=
  if v <? 128 then [v]
  else if v <? 16384 then [128 + v / 128; v mod 128]
  else if v <? 2097152 then [128 + v / 16384; 128 + (v / 128) mod 128; v mod 128]
  else [128 + v / 2097152; 128 + (v / 16384) mod 128; 128 + (v / 128) mod 128; v mod 128].

Lemma lor128 : forall x, 0 <= x < 128 -> Z.lor 128 x = 128 + x.
Proof.
  intros x H.
  pose proof (byte_sweep (fun x => if x <? 128 then Z.lor 128 x =? 128 + x else true)
                ltac:(vm_compute; reflexivity) x ltac:(unfold is_byte; lia)) as E.
  cbn beta in E. destruct (Z.ltb_spec x 128); lia.
Qed.

Lemma lor0 : forall x, Z.lor 0 x = x.
Proof. reflexivity. Qed.

(** Equality of explicit lists, element by element. *)
Ltac list_lia := repeat match goal with |- _ :: _ = _ :: _ => f_equal end; try reflexivity; lia.

Lemma vlq_encode_closed : forall v, 0 <= v <= vlq_max -> vlq_encode v = vlq_closed v.
Proof.
  intros v Hv. unfold vlq_max in Hv. unfold vlq_encode, vlq_closed.
  cbn [vlq_loop nth upd skipn]. rewrite !land7f, !shr7, !lor0.
  destruct (Z.eqb_spec (v / 128) 0) as [E1|E1].
  { destruct (Z.ltb_spec v 128); [|lia]. list_lia. }
  destruct (Z.ltb_spec v 128); [lia|].
  rewrite !lor128 by lia.
  destruct (Z.eqb_spec (v / 128 / 128) 0) as [E2|E2].
  { destruct (Z.ltb_spec v 16384); [|lia]. list_lia. }
  destruct (Z.ltb_spec v 16384); [lia|].
  destruct (Z.eqb_spec (v / 128 / 128 / 128) 0) as [E3|E3].
  { destruct (Z.ltb_spec v 2097152); [|lia]. list_lia. }
  destruct (Z.ltb_spec v 2097152); [lia|].
  destruct (Z.eqb_spec (v / 128 / 128 / 128 / 128) 0) as [E4|E4]; [|lia].
  list_lia.
Qed.

Lemma vlq_closed_string : forall v, 0 <= v <= vlq_max -> vlq_string (vlq_closed v).
Proof.
  intros v Hv. unfold vlq_max in Hv. unfold vlq_closed.
  destruct (Z.ltb_spec v 128); [apply vs_last; lia|].
  destruct (Z.ltb_spec v 16384); [apply vs_more; [lia|]; apply vs_last; lia|].
  destruct (Z.ltb_spec v 2097152).
  - apply vs_more; [lia|]. apply vs_more; [lia|]. apply vs_last; lia.
  - apply vs_more; [lia|]. apply vs_more; [lia|]. apply vs_more; [lia|]. apply vs_last; lia.
Qed.

Lemma vlq_closed_denotes : forall v, 0 <= v <= vlq_max -> vlq_denotes (vlq_closed v) = v.
Proof.
  intros v Hv. unfold vlq_max in Hv. unfold vlq_closed.
  destruct (Z.ltb_spec v 128); [cbn; lia|].
  destruct (Z.ltb_spec v 16384); [cbn [vlq_denotes length]; change (128 ^ Z.of_nat 1) with 128; change (128 ^ Z.of_nat 0) with 1; lia|].
  destruct (Z.ltb_spec v 2097152); cbn [vlq_denotes length];
    change (128 ^ Z.of_nat 3) with 2097152; change (128 ^ Z.of_nat 2) with 16384;
    change (128 ^ Z.of_nat 1) with 128; change (128 ^ Z.of_nat 0) with 1; lia.
Qed.

Lemma vlq_string_length : forall bs, vlq_string bs -> (1 <= length bs)%nat.
Proof. intros bs H; destruct H; cbn; lia. Qed.

Lemma vlq_denotes_nonneg : forall bs, 0 <= vlq_denotes bs.
Proof.
  induction bs as [|b r IH]; cbn [vlq_denotes]; [lia|].
  assert (0 <= 128 ^ Z.of_nat (length r)) by (apply Z.pow_nonneg; lia). nia.
Qed.

Lemma vlq_denotes_bound : forall bs, vlq_denotes bs < 128 ^ Z.of_nat (length bs).
Proof.
  induction bs as [|b r IH]; cbn [vlq_denotes length]; [cbn; lia|].
  rewrite Nat2Z.inj_succ, Z.pow_succ_r by lia.
  assert (0 < 128 ^ Z.of_nat (length r)) by (apply Z.pow_pos_nonneg; lia).
  assert (b mod 128 <= 127) by lia. nia.
Qed.

(** The encoding is the shortest one for its value. *)
Lemma vlq_closed_minimal : forall v bs, 0 <= v <= vlq_max ->
  vlq_denotes bs = v -> vlq_string bs -> (length (vlq_closed v) <= length bs)%nat.
Proof.
  intros v bs Hv Hd Hs. pose proof (vlq_denotes_bound bs) as Hb. rewrite Hd in Hb.
  pose proof (vlq_string_length _ Hs) as Hl.
  unfold vlq_max in Hv. unfold vlq_closed.
  assert (P : forall n, (length bs <= n)%nat -> v < 128 ^ Z.of_nat n).
  { intros n Hn. eapply Z.lt_le_trans; [exact Hb|]. apply Z.pow_le_mono_r; lia. }
  destruct (Z.ltb_spec v 128); [cbn; lia|].
  destruct (le_lt_dec (length bs) 1) as [L|L].
  { specialize (P 1%nat L). change (128 ^ Z.of_nat 1) with 128 in P. lia. }
  destruct (Z.ltb_spec v 16384); [cbn; lia|].
  destruct (le_lt_dec (length bs) 2) as [L2|L2].
  { specialize (P 2%nat L2). change (128 ^ Z.of_nat 2) with 16384 in P. lia. }
  destruct (Z.ltb_spec v 2097152); [cbn; lia|].
  destruct (le_lt_dec (length bs) 3) as [L3|L3].
  { specialize (P 3%nat L3). change (128 ^ Z.of_nat 3) with 2097152 in P. lia. }
  cbn. lia.
Qed.

(** ** Reader *)

Lemma vlq_read_spec : forall bs rest acc, vlq_string bs -> 0 <= acc ->
  vlq_read acc (bs ++ rest) =
  Some ((acc * 128 ^ Z.of_nat (length bs) + vlq_denotes bs) mod 4294967296, rest).
Proof.
  intros bs rest acc Hs. revert acc rest.
  induction Hs as [b Hb|b bs Hb Hs IH]; intros acc rest Ha; cbn [app vlq_read].
  - rewrite shl7, land7f, land80 by (unfold is_byte; lia).
    replace (b <? 128) with true by lia. cbn [length vlq_denotes].
    change (128 ^ Z.of_nat 1) with 128. change (128 ^ Z.of_nat 0) with 1.
    f_equal. f_equal. rewrite Zplus_mod_idemp_l. f_equal. lia.
  - rewrite shl7, land7f, land80 by (unfold is_byte; lia).
    replace (b <? 128) with false by lia.
    rewrite IH by lia. cbn [length vlq_denotes].
    rewrite Nat2Z.inj_succ, Z.pow_succ_r by lia.
    f_equal. f_equal.
    set (p := 128 ^ Z.of_nat (length bs)).
    rewrite Zplus_mod_idemp_l.
    rewrite <- Zplus_mod_idemp_l, Zmult_mod_idemp_l, Zplus_mod_idemp_l.
    f_equal. ring.
Qed.

(** The reader fails exactly if every byte is a continuation byte. *)
Lemma vlq_read_none : forall r acc, is_bytes r ->
  (vlq_read acc r = None <-> Forall (fun b => 128 <= b) r).
Proof.
  induction r as [|b r IH]; intros acc Hr; cbn [vlq_read].
  - split; auto.
  - inversion Hr as [|? ? Hb Hr']; subst.
    rewrite land80 by assumption.
    destruct (Z.ltb_spec b 128) as [L|L].
    + split; [discriminate|]. intro F. inversion F; subst. lia.
    + rewrite IH by assumption. split; intro F; [constructor; assumption|inversion F; assumption].
Qed.

(** Every byte stream either consists of continuation bytes only or has a unique VLQ prefix. *)
Lemma vlq_split : forall r, is_bytes r ->
  Forall (fun b => 128 <= b) r \/ exists bs rest, r = bs ++ rest /\ vlq_string bs.
Proof.
  induction r as [|b r IH]; intros Hr; [left; constructor|].
  inversion Hr as [|? ? Hb Hr']; subst. unfold is_byte in Hb.
  destruct (Z_lt_le_dec b 128) as [L|L].
  - right. exists [b], r. split; [reflexivity|]. apply vs_last. lia.
  - destruct (IH Hr') as [F|(bs & rest & E & S)].
    + left. constructor; assumption.
    + right. exists (b :: bs), rest. subst. split; [reflexivity|]. apply vs_more; [lia|assumption].
Qed.

Lemma vlq_string_is_bytes : forall bs, vlq_string bs -> is_bytes bs.
Proof. intros bs H; induction H; repeat constructor; try assumption; unfold is_byte; lia. Qed.

(** Round trip, stream form. *)
Lemma vlq_read_encode : forall v rest, 0 <= v <= vlq_max ->
  vlq_read 0 (vlq_encode v ++ rest) = Some (v, rest).
Proof.
  intros v rest Hv. rewrite vlq_encode_closed by assumption.
  rewrite vlq_read_spec; [|apply vlq_closed_string; assumption|lia].
  rewrite vlq_closed_denotes by assumption. unfold vlq_max in Hv.
  rewrite Z.mul_0_l, Z.add_0_l, Z.mod_small by lia. reflexivity.
Qed.

Lemma stream_vlq_encode : forall v rest, 0 <= v <= vlq_max ->
  stream_vlq (vlq_encode v ++ rest) = Ok (v, rest).
Proof. intros. unfold stream_vlq. rewrite vlq_read_encode by assumption. reflexivity. Qed.

Lemma slice_vlq_encode : forall v rest, 0 <= v <= vlq_max ->
  slice_vlq (vlq_encode v ++ rest) = Ok (v, rest).
Proof. intros. unfold slice_vlq. rewrite vlq_read_encode by assumption. reflexivity. Qed.

Lemma vlq_encode_length : forall v, 0 <= v <= vlq_max -> (1 <= length (vlq_encode v) <= 4)%nat.
Proof.
  intros v Hv. rewrite vlq_encode_closed by assumption. unfold vlq_closed.
  repeat match goal with |- context[if ?c then _ else _] => destruct c end; cbn; lia.
Qed.

Lemma vlq_encode_is_bytes : forall v, 0 <= v <= vlq_max -> is_bytes (vlq_encode v).
Proof.
  intros v Hv. rewrite vlq_encode_closed by assumption.
  apply vlq_string_is_bytes, vlq_closed_string, Hv.
Qed.

Lemma vlq_encode_not_nil : forall v, vlq_encode v <> [].
Proof.
  intro v. unfold vlq_encode. cbn [vlq_loop nth upd skipn].
  repeat match goal with |- context[if ?c then _ else _] => destruct c end; discriminate.
Qed.

(** The encoder's output for a five-byte value: the first byte has no continuation bit. *)
Lemma vlq_encode_big : forall v, vlq_max < v < 4294967296 ->
  exists b0 r, vlq_encode v = b0 :: r /\ length r = 4%nat /\ 0 <= b0 < 128 /\ b0 = v / 268435456.
Proof.
  intros v Hv. unfold vlq_max in Hv. unfold vlq_encode.
  cbn [vlq_loop nth upd skipn]. rewrite !land7f, !shr7, !lor0.
  destruct (Z.eqb_spec (v / 128) 0); [lia|].
  destruct (Z.eqb_spec (v / 128 / 128) 0); [lia|].
  destruct (Z.eqb_spec (v / 128 / 128 / 128) 0); [lia|].
  destruct (Z.eqb_spec (v / 128 / 128 / 128 / 128) 0); [lia|].
  eexists _, _. split; [reflexivity|]. cbn [length]. lia.
Qed.

(** ** Length-prefixed fields *)

Lemma stream_vlf_encode : forall data rest, zlen data <= vlq_max ->
  stream_vlf (vlf_encode data ++ rest) = Ok (data, rest).
Proof.
  intros data rest H. unfold stream_vlf, vlf_encode.
  pose proof (zlen_nonneg _ data). unfold vlq_max in H.
  rewrite Z.mod_small by lia. rewrite <- app_assoc, stream_vlq_encode by (unfold vlq_max; lia).
  cbn [bind]. rewrite zlen_app. pose proof (zlen_nonneg _ rest).
  destruct (Z.ltb_spec (zlen data + zlen rest) (zlen data)); [lia|].
  unfold zlen. rewrite Nat2Z.id, firstn_app_exact, skipn_app_exact. reflexivity.
Qed.

Lemma slice_vlf_encode : forall data rest, zlen data <= vlq_max ->
  slice_vlf (vlf_encode data ++ rest) = Ok data.
Proof.
  intros data rest H. unfold slice_vlf, vlf_encode.
  pose proof (zlen_nonneg _ data). unfold vlq_max in H.
  rewrite Z.mod_small by lia. rewrite <- app_assoc, slice_vlq_encode by (unfold vlq_max; lia).
  cbn [bind]. rewrite zlen_app. pose proof (zlen_nonneg _ rest).
  destruct (Z.ltb_spec (zlen data + zlen rest) (zlen data)); [lia|].
  unfold zlen. rewrite Nat2Z.id, firstn_app_exact. reflexivity.
Qed.

(** What the reader consumes and what the slice reader sees of the same bytes. *)
Lemma vlq_read_suffix : forall r acc v rest, vlq_read acc r = Some (v, rest) ->
  exists bs, r = bs ++ rest /\ bs <> [] /\ forall rest', vlq_read acc (bs ++ rest') = Some (v, rest').
Proof.
  induction r as [|b r IH]; intros acc v rest H; cbn [vlq_read] in H; [discriminate|].
  destruct (Z.land b 128 =? 0) eqn:E.
  - injection H as <- <-. exists [b]. split; [reflexivity|]. split; [discriminate|].
    intro rest'. cbn [app vlq_read]. rewrite E. reflexivity.
  - apply IH in H as (bs & -> & Hn & HH). exists (b :: bs). split; [reflexivity|].
    split; [discriminate|]. intro rest'. cbn [app vlq_read]. rewrite E. apply HH.
Qed.

Lemma vlq_read_range : forall r acc v rest, vlq_read acc r = Some (v, rest) -> 0 <= v < 4294967296.
Proof.
  induction r as [|b r IH]; intros acc v rest H; cbn [vlq_read] in H; [discriminate|].
  destruct (Z.land b 128 =? 0).
  - injection H as <- <-. apply Z.mod_pos_bound. lia.
  - eapply IH, H.
Qed.

(** The index version of the slice reader is the stream reader with another error. *)
Lemma range_vlq_read : forall r pre acc,
  range_vlq (pre ++ r) (length pre) acc r = match vlq_read acc r with Some p => Ok p | None => Err end.
Proof.
  induction r as [|b r IH]; intros pre acc; cbn [range_vlq vlq_read]; [reflexivity|].
  destruct (Z.land b 128 =? 0).
  - f_equal. f_equal. replace (pre ++ b :: r) with ((pre ++ [b]) ++ r) by (rewrite <- app_assoc; reflexivity).
    replace (S (length pre)) with (length (pre ++ [b])) by (rewrite app_length; cbn; lia). apply skipn_app_exact.
  - specialize (IH (pre ++ [b])). rewrite <- app_assoc, app_length in IH. cbn [app length] in IH.
    rewrite Nat.add_1_r in IH. apply IH.
Qed.

Lemma slice_vlq_range : forall bs, range_vlq bs 0 0 bs = slice_vlq bs.
Proof. intro bs. apply (range_vlq_read bs [] 0). Qed.

(** C01 *)
Lemma delta_roundtrip : forall v rest, 0 <= v <= 268435455 ->
  stream_vlq (vlq_encode v ++ rest) = Ok (v, rest) /\
  slice_vlq (vlq_encode v ++ rest) = Ok (v, rest) /\
  (1 <= length (vlq_encode v) <= 4)%nat /\
  vlq_string (vlq_encode v) /\
  forall bs, vlq_string bs -> vlq_denotes bs = v -> (length (vlq_encode v) <= length bs)%nat.
Proof.
  intros v rest H. split; [apply stream_vlq_encode, H|]. split; [apply slice_vlq_encode, H|].
  split; [apply vlq_encode_length, H|]. rewrite vlq_encode_closed by exact H.
  split; [apply vlq_closed_string, H|]. intros bs Hs Hd. apply vlq_closed_minimal; auto.
Qed.

(** C02 *)
Lemma big_delta_corrupted : forall v rest, 268435455 < v < 4294967296 ->
  exists r, vlq_encode v = v / 268435456 :: r /\ length r = 4%nat /\
    stream_vlq (vlq_encode v ++ rest) = Ok (v / 268435456, r ++ rest).
Proof.
  intros v rest H. destruct (vlq_encode_big v H) as (b0 & r & E & Hl & Hb & ->).
  exists r. split; [exact E|]. split; [exact Hl|]. rewrite E. unfold stream_vlq. cbn [app vlq_read].
  rewrite land80 by (unfold is_byte; lia). destruct (Z.ltb_spec (v / 268435456) 128); [|lia].
  cbn [Z.eqb]. rewrite land7f. f_equal. f_equal. change (Z.shiftl 0 7) with 0. lia.
Qed.

(** C03 *)
Lemma vlq_reader : forall r, is_bytes r ->
  (forall bs rest, r = bs ++ rest -> vlq_string bs ->
     stream_vlq r = Ok (vlq_denotes bs mod 4294967296, rest) /\
     slice_vlq r = Ok (vlq_denotes bs mod 4294967296, rest)) /\
  (stream_vlq r = Eof <-> Forall (fun b => 128 <= b) r) /\
  (slice_vlq r = Err <-> Forall (fun b => 128 <= b) r) /\
  (Forall (fun b => 128 <= b) r \/ exists bs rest, r = bs ++ rest /\ vlq_string bs) /\
  range_vlq r 0 0 r = slice_vlq r.
Proof.
  intros r Hr. unfold stream_vlq, slice_vlq. split; [|split; [|split; [|split]]].
  - intros bs rest -> Hs. rewrite vlq_read_spec by (auto; lia). rewrite Z.mul_0_l, Z.add_0_l. split; reflexivity.
  - rewrite <- (vlq_read_none r 0 Hr). destruct (vlq_read 0 r); split; congruence.
  - rewrite <- (vlq_read_none r 0 Hr). destruct (vlq_read 0 r); split; congruence.
  - apply vlq_split, Hr.
  - apply slice_vlq_range.
Qed.

(** C04 *)
Lemma vlf_roundtrip : forall data rest, zlen data <= 268435455 ->
  stream_vlf (vlf_encode data ++ rest) = Ok (data, rest) /\
  slice_vlf (vlf_encode data ++ rest) = Ok data /\
  exists l, vlf_encode data = l ++ data /\ vlq_string l /\ vlq_denotes l = zlen data.
Proof.
  intros data rest H. split; [apply stream_vlf_encode, H|]. split; [apply slice_vlf_encode, H|].
  pose proof (zlen_nonneg _ data). exists (vlq_encode (zlen data)). unfold vlf_encode.
  rewrite Z.mod_small by lia. rewrite vlq_encode_closed by (unfold vlq_max; lia).
  split; [reflexivity|]. split; [apply vlq_closed_string|apply vlq_closed_denotes]; unfold vlq_max; lia.
Qed.
