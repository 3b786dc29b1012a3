(** * HexProofs: hexadecimal text and the hex column of the disassembly. *)
From Verif Require Import Base Strings Vlq SpecVlq Utf8 Hex Disassemble SpecText Utf8Proofs.

(** Two digits per byte, separated by spaces. *)
Fixpoint hexsp (bs : bytes) : bytes :=
  match bs with
  | [] => []
  | b :: r => match r with [] => hex2 b | _ => hex2 b ++ 32 :: hexsp r end
  end.

Lemma hexsp_cons : forall b x r, hexsp (b :: x :: r) = hexdigit (b / 16) :: hexdigit (b mod 16) :: 32 :: hexsp (x :: r).
Proof. reflexivity. Qed.

Lemma digit16_hexdigit : forall v, 0 <= v < 16 -> digit16 (hexdigit v) v.
Proof.
  intros v H. unfold hexdigit. destruct (v <? 10) eqn:E; [apply digit16_num; lia|].
  replace (55 + v) with (65 + (v - 10)) by lia. apply digit16_let. lia.
Qed.

Lemma hexsp_form : forall bs, is_bytes bs -> hex_form bs (hexsp bs).
Proof.
  intros bs H. induction H as [|b r B H IH]; [constructor|]. unfold is_byte in B.
  assert (E : b = 16 * (b / 16) + b mod 16) by lia.
  destruct r as [|x r]; [|rewrite hexsp_cons]; rewrite E at 1; constructor; try (apply digit16_hexdigit; lia). exact IH.
Qed.

Lemma hexdigit_ge : forall v, 0 <= v -> 48 <= hexdigit v.
Proof. intros v H. unfold hexdigit. destruct (v <? 10); lia. Qed.

Lemma hexdigit_ne32 : forall v, 0 <= v -> (hexdigit v =? 32) = false.
Proof. intros v H. pose proof (hexdigit_ge v H). lia. Qed.

Lemma hex_concat : forall bs, bs <> [] -> concat (map (fun b => hex2 b ++ [32]) bs) = hexsp bs ++ [32].
Proof.
  induction bs as [|b r IH]; intro N; [congruence|]. destruct r as [|x r]; [reflexivity|].
  change (concat (map (fun b => hex2 b ++ [32]) (b :: x :: r))) with ((hex2 b ++ [32]) ++ concat (map (fun b => hex2 b ++ [32]) (x :: r))).
  rewrite IH by discriminate. reflexivity.
Qed.

Lemma hexsp_head : forall b r, is_byte b -> trim_spaces_left (hexsp (b :: r) ++ [32]) = hexsp (b :: r) ++ [32].
Proof.
  intros b r B. unfold is_byte in B.
  assert (E : exists t, hexsp (b :: r) = hexdigit (b / 16) :: t) by (destruct r; eexists; reflexivity).
  destruct E as [t ->]. cbn [app trim_spaces_left]. rewrite hexdigit_ne32 by lia. reflexivity.
Qed.

Lemma hexsp_tail : forall bs, is_bytes bs -> bs <> [] -> exists t v, 0 <= v /\ hexsp bs = t ++ [hexdigit v].
Proof.
  intros bs H. induction H as [|b r B H IH]; intro N; [congruence|]. unfold is_byte in B. destruct r as [|x r].
  - exists [hexdigit (b / 16)], (b mod 16). split; [lia|reflexivity].
  - destruct IH as (t & v & V & E); [discriminate|]. exists (hexdigit (b / 16) :: hexdigit (b mod 16) :: 32 :: t), v.
    split; [exact V|]. rewrite hexsp_cons, E. reflexivity.
Qed.

Lemma hex_string_hexsp : forall bs, is_bytes bs -> hex_string bs = hexsp bs.
Proof.
  intros [|b r] H; [reflexivity|]. unfold hex_string. rewrite hex_concat by discriminate. unfold trim_spaces.
  rewrite hexsp_head by (inversion H; auto). rewrite rev_app_distr. cbn [rev app trim_spaces_left].
  destruct (hexsp_tail (b :: r) H) as (t & v & V & E); [discriminate|]. rewrite E, rev_app_distr. cbn [rev app].
  change (32 =? 32) with true. cbn iota.
  assert (T : trim_spaces_left (hexdigit v :: rev t) = hexdigit v :: rev t) by (cbn [trim_spaces_left]; rewrite hexdigit_ne32 by exact V; reflexivity).
  rewrite T. cbn [rev]. rewrite rev_involutive. reflexivity.
Qed.

Lemma hex_string_form : forall bs, is_bytes bs -> hex_form bs (hex_string bs).
Proof. intros bs H. rewrite hex_string_hexsp by exact H. apply hexsp_form, H. Qed.

Lemma digit16_parse : forall c v, digit16 c v -> from_hex_char c = Some v /\ is_space c = false.
Proof.
  intros c v H. destruct H; unfold from_hex_char, is_space.
  - replace ((48 <=? 48 + v) && (48 + v <=? 57)) with true by lia. split; [f_equal; lia|lia].
  - replace ((48 <=? 65 + (v - 10)) && (65 + (v - 10) <=? 57)) with false by lia.
    replace ((97 <=? 65 + (v - 10)) && (65 + (v - 10) <=? 102)) with false by lia.
    replace ((65 <=? 65 + (v - 10)) && (65 + (v - 10) <=? 70)) with true by lia. split; [f_equal; lia|lia].
Qed.

Lemma parse_hex_form : forall bs s, hex_form bs s -> parse_hex s = Ok bs.
Proof.
  intros bs s H. unfold parse_hex. induction H as [|c d a b C D|c d a b x xs s C D H IH].
  - reflexivity.
  - destruct (digit16_parse _ _ C) as [C1 C2], (digit16_parse _ _ D) as [D1 D2]. cbn [filter]. rewrite C2, D2.
    cbn [negb decode_hex]. rewrite C1, D1. reflexivity.
  - destruct (digit16_parse _ _ C) as [C1 C2], (digit16_parse _ _ D) as [D1 D2]. cbn [filter]. rewrite C2, D2.
    change (negb (is_space 32)) with false. cbn [negb decode_hex]. rewrite C1, D1. cbn [filter] in IH. rewrite IH. reflexivity.
Qed.

Lemma parse_hex_string : forall bs, is_bytes bs -> parse_hex (hex_string bs) = Ok bs.
Proof. intros bs H. apply parse_hex_form, hex_string_form, H. Qed.

Lemma hex_json : forall bs, is_bytes bs -> hex_of_json (hex_to_json bs) = Ok bs.
Proof.
  intros bs H. unfold hex_of_json, hex_to_json. unfold is_bytes in H. rewrite Forall_forall in H.
  assert (F : forallb (fun n => (0 <=? n) && (n <? 18446744073709551616)) bs = true).
  { apply forallb_forall. intros x I. specialize (H x I). unfold is_byte in H. lia. }
  rewrite F. f_equal. rewrite <- (map_id bs) at 2. apply map_ext_in. intros x I. specialize (H x I).
  unfold is_byte in H. lia.
Qed.

(** ** The column *)

Lemma hexdigit_ascii : forall v, v < 16 -> hexdigit v < 128.
Proof. intros v H. unfold hexdigit. destruct (v <? 10); lia. Qed.

Lemma hexsp_ascii : forall bs, is_bytes bs -> ascii (hexsp bs).
Proof.
  intros bs H. induction H as [|b r B H IH]; [constructor|]. unfold is_byte in B.
  destruct r as [|x r]; [|rewrite hexsp_cons]; repeat (constructor; [first [apply hexdigit_ascii; lia | lia]|]); [constructor|exact IH].
Qed.

Lemma hexsp_length : forall bs, bs <> [] -> length (hexsp bs) = (3 * length bs - 1)%nat.
Proof.
  induction bs as [|b r IH]; intro N; [congruence|]. destruct r as [|x r]; [reflexivity|].
  rewrite hexsp_cons. cbn [length] in *. rewrite IH by discriminate. lia.
Qed.

Lemma hexsp_firstn : forall n bs, (0 < n)%nat -> (n <= length bs)%nat -> firstn (3 * n - 1) (hexsp bs) = hexsp (firstn n bs).
Proof.
  intros n bs. revert n. induction bs as [|b r IH]; intros n N L; [cbn in L; lia|].
  destruct r as [|x r].
  - cbn [length] in L. replace n with 1%nat by lia. reflexivity.
  - rewrite hexsp_cons. destruct n as [|[|n]]; [lia|reflexivity|].
    replace (3 * S (S n) - 1)%nat with (3 + (3 * S n - 1))%nat by lia. cbn [Nat.add firstn].
    rewrite (IH (S n)) by (cbn [length] in *; lia). reflexivity.
Qed.

Lemma vlq_width_spec : forall d r, vlq_string d -> vlq_width (d ++ r) = Ok (zlen d).
Proof.
  intros d r H. induction H as [b B|b bs B H IH]; cbn [app vlq_width].
  - rewrite land80 by (unfold is_byte; lia). replace (b <? 128) with true by lia. reflexivity.
  - rewrite land80 by (unfold is_byte; lia). replace (b <? 128) with false by lia. rewrite IH. cbn [bind]. rewrite zlen_cons. f_equal. lia.
Qed.

Lemma spaces3 : forall n, concat (repeat (str "   ") n) = spaces (3 * n).
Proof.
  induction n as [|n IH]; [reflexivity|]. replace (3 * S n)%nat with (3 + 3 * n)%nat by lia. unfold spaces in *. rewrite repeat_app, <- IH. reflexivity.
Qed.

Lemma ascii_spaces : forall n, ascii (spaces n).
Proof. intro n. apply Forall_forall. intros x I. apply repeat_spec in I. lia. Qed.

Lemma runes_ellipsis : runes [226; 128; 166] = [[226; 128; 166]].
Proof. reflexivity. Qed.

Lemma chars_app_ascii : forall a b n, is_bytes a -> ascii a -> chars b n -> chars (a ++ b) (length a + n).
Proof.
  intros a b n B H K. induction H as [|c a L H IH]; [exact K|]. apply Forall_cons_iff in B as [B0 B].
  cbn [app length Nat.add]. change (c :: a ++ b) with ([c] ++ (a ++ b)). apply (chars_cons c); [|apply IH; exact B].
  apply utf8_1. unfold is_byte in B0. lia.
Qed.

Lemma chars_ascii : forall a, is_bytes a -> ascii a -> chars a (length a).
Proof. intros a B H. rewrite <- (app_nil_r a) at 1. replace (length a) with (length a + 0)%nat by lia. apply chars_app_ascii; auto. constructor. Qed.

Lemma chars_ellipsis : chars [226; 128; 166] 1.
Proof.
  change [226; 128; 166] with ([224 + 8230 / 4096; 128 + 8230 / 64 mod 64; 128 + 8230 mod 64] ++ []).
  apply (chars_cons 8230); [apply utf8_3; lia|constructor].
Qed.

Lemma is_bytes_spaces : forall n, is_bytes (spaces n).
Proof. intro n. apply Forall_forall. intros x I. apply repeat_spec in I. unfold is_byte. lia. Qed.

Lemma hexsp_is_bytes : forall bs, is_bytes bs -> is_bytes (hexsp bs).
Proof.
  intros bs H. pose proof (hexsp_ascii bs H) as A.
  assert (P : Forall (fun c => 0 <= c) (hexsp bs)).
  { clear A. induction H as [|b r B H IH]; [constructor|]. unfold is_byte in B.
    assert (P : forall v, 0 <= v -> 0 <= hexdigit v) by (intros v V; pose proof (hexdigit_ge v V); lia).
    destruct r as [|x r]; [|rewrite hexsp_cons]; repeat (constructor; [first [apply P; lia | lia]|]); [constructor|exact IH]. }
  unfold ascii, is_bytes in *. rewrite Forall_forall in *. intros x I. specialize (A x I). specialize (P x I). unfold is_byte. cbn beta in *. lia.
Qed.

Lemma pad_ascii : forall w s, ascii s -> zlen s <= w -> pad w s = s ++ spaces (Z.to_nat (w - zlen s)).
Proof.
  intros w s A L. unfold pad. rewrite (runes_ascii s A), zlen_map.
  replace (w <? zlen s) with false by lia. reflexivity.
Qed.

Lemma ellipsize_ascii : forall s n, ascii s -> 0 < n -> ellipsize s n = if zlen s <=? n then s else firstn (Z.to_nat (n - 1)) s ++ [226; 128; 166].
Proof.
  intros s n A N. unfold ellipsize. replace (n <=? 0) with false by lia. cbv zeta. rewrite (runes_ascii s A), zlen_map, concat_singles.
  destruct (zlen s <=? n); [reflexivity|]. rewrite firstn_map, concat_singles. reflexivity.
Qed.

(** The column: 42 characters; the first [n] bytes after [i] empty cells, 14 cells in all at most. *)
Lemma hex_column_spec : forall d r, vlq_string d -> is_bytes (d ++ r) ->
  exists col n shown, hex_column (d ++ r) = Ok col /\ chars col 42 /\
    hex_form (firstn n (d ++ r)) shown /\
    ((n = length (d ++ r) /\ exists k, col = spaces (3 * (3 - length d)) ++ shown ++ spaces k) \/
     ((0 < n < length (d ++ r))%nat /\ (n + (3 - length d) = 14)%nat /\ col = spaces (3 * (3 - length d)) ++ shown ++ [226; 128; 166])).
Proof.
  intros d r V B. set (bs := d ++ r) in *. set (i := (3 - length d)%nat).
  assert (Nd : (1 <= length d)%nat) by (destruct V; cbn; lia).
  assert (NE : bs <> []) by (unfold bs; destruct d; [cbn in Nd; lia|discriminate]).
  assert (Lb : (1 <= length bs)%nat) by (destruct bs; [congruence|cbn; lia]).
  assert (Li : (i <= 2)%nat) by (unfold i; lia).
  set (x := spaces (3 * i) ++ hexsp bs).
  assert (A : ascii x) by (apply Forall_app; split; [apply ascii_spaces|apply hexsp_ascii, B]).
  assert (BX : is_bytes x) by (apply Forall_app; split; [apply is_bytes_spaces|apply hexsp_is_bytes, B]).
  assert (LX : zlen x = 3 * Z.of_nat (i + length bs) - 1).
  { unfold x, zlen. rewrite app_length. unfold spaces. rewrite repeat_length, hexsp_length by exact NE. lia. }
  assert (E : hex_column bs = Ok (pad 42 (ellipsize x 42))).
  { unfold hex_column, valign. unfold bs at 1. rewrite (vlq_width_spec d r V). cbn [bind]. do 3 f_equal. unfold x. rewrite hex_string_hexsp by exact B. f_equal.
    destruct (zlen d <? 3) eqn:C; unfold zlen in *.
    - rewrite spaces3. f_equal. unfold i. lia.
    - replace i with 0%nat by (unfold i; lia). reflexivity. }
  rewrite ellipsize_ascii in E by (auto; lia). destruct (zlen x <=? 42) eqn:C.
  - rewrite pad_ascii in E by (auto; lia). eexists _, (length bs), (hexsp bs). split; [exact E|]. split.
    + replace 42%nat with (length (x ++ spaces (Z.to_nat (42 - zlen x)))).
      * apply chars_ascii; apply Forall_app; split; first [exact BX|exact A|apply is_bytes_spaces|apply ascii_spaces].
      * rewrite app_length. unfold spaces. rewrite repeat_length. unfold zlen in *. lia.
    + rewrite firstn_all. split; [apply hexsp_form, B|]. left. split; [reflexivity|]. eexists. unfold x. rewrite <- app_assoc. reflexivity.
  - assert (Ln : (14 - i <= length bs)%nat) by lia.
    assert (F : firstn 41 x = spaces (3 * i) ++ hexsp (firstn (14 - i) bs)).
    { unfold x. rewrite firstn_app. unfold spaces at 1. rewrite firstn_all2 by (rewrite repeat_length; lia). fold (spaces (3 * i)). f_equal.
      unfold spaces. rewrite repeat_length. replace (41 - 3 * i)%nat with (3 * (14 - i) - 1)%nat by lia. apply hexsp_firstn; lia. }
    change (Z.to_nat (42 - 1)) with 41%nat in E. rewrite F in E.
    set (y := spaces (3 * i) ++ hexsp (firstn (14 - i) bs)) in *.
    assert (By : is_bytes (firstn (14 - i) bs)) by (rewrite <- (firstn_skipn (14 - i) bs) in B; apply Forall_app in B; apply B).
    assert (Ay : ascii y) by (apply Forall_app; split; [apply ascii_spaces|apply hexsp_ascii, By]).
    assert (By' : is_bytes y) by (apply Forall_app; split; [apply is_bytes_spaces|apply hexsp_is_bytes, By]).
    assert (Ly : length y = 41%nat).
    { rewrite <- F, firstn_length. unfold zlen in *. lia. }
    assert (P : pad 42 (y ++ [226; 128; 166]) = y ++ [226; 128; 166]).
    { unfold pad. rewrite runes_ascii_app by exact Ay. rewrite runes_ellipsis.
      assert (Z : zlen (map (fun c => [c]) y ++ [[226; 128; 166]]) = 42) by (rewrite zlen_app, zlen_map; unfold zlen; rewrite Ly; reflexivity).
      rewrite Z. change (42 <? 42) with false. cbn iota. replace (Z.to_nat (42 - 42)) with 0%nat by lia. apply app_nil_r. }
    rewrite P in E. eexists _, (14 - i)%nat, (hexsp (firstn (14 - i) bs)). split; [exact E|]. split; [|split].
    + replace 42%nat with (length y + 1)%nat by (rewrite Ly; reflexivity). apply chars_app_ascii; auto. apply chars_ellipsis.
    + apply hexsp_form, By.
    + right. split; [lia|]. split; [fold i; lia|]. unfold y. fold i. rewrite <- app_assoc. reflexivity.
Qed.

Lemma hex_both : forall bs, is_bytes bs -> hex_form bs (hex_string bs) /\ parse_hex (hex_string bs) = Ok bs /\
  forall s, hex_form bs s -> parse_hex s = Ok bs.
Proof. intros bs H. split; [apply hex_string_form, H|]. split; [apply parse_hex_string, H|]. intros s F. apply parse_hex_form, F. Qed.
