(** * ColumnsProofs: the columns of the listing of the notes. *)
From Coq Require Import Permutation.
From Verif Require Import Base Strings Tables Event SpecHistory Track File SpecDecimal DecimalProofs SpecText HexProofs SpecNote Utf8 Utf8Proofs Tsv TsvProofs SpecTranspose Transpose Notes
  NotesPrint SpecNotes NotesProofs NotesTimeProofs SpecDuration DurationProofs NotesPrintProofs SpecDecoded DecodedProofs SpecColumns.

(** ** Lengths of texts *)

Lemma digits_least : forall s v, Forall is_digit s -> v * 10 ^ Z.of_nat (length s) <= fold_left (fun v c => v * 10 + (c - 48)) s v.
Proof.
  induction s as [|c s IH]; intros v F; [cbn [length fold_left]; lia|]. pose proof (Forall_inv F) as Hc. apply Forall_inv_tail in F. cbn [length fold_left].
  specialize (IH (v * 10 + (c - 48)) F). rewrite Nat2Z.inj_succ, Z.pow_succ_r by lia. unfold is_digit in Hc.
  pose proof (Z.pow_pos_nonneg 10 (Z.of_nat (length s)) ltac:(lia) ltac:(lia)). nia.
Qed.

Lemma dec_width : forall w n, 0 <= n < 10 ^ Z.of_nat w -> (1 <= w)%nat -> (length (dec n) <= w)%nat.
Proof.
  intros w n N W. pose proof (dec_decimal n) as D. remember (dec n) as t eqn:Et. clear Et. destruct D as [|s F H|s F H]; [cbn [length]; lia| |].
  all: destruct s as [|c s]; [cbn in H; lia|]; cbn [hd] in H; pose proof (Forall_inv F) as Hc; pose proof (Forall_inv_tail F) as Fs;
    unfold digits_value in N; cbn [fold_left] in N; pose proof (digits_least s (0 * 10 + (c - 48)) Fs) as G; unfold is_digit in Hc;
    pose proof (Z.pow_pos_nonneg 10 (Z.of_nat (length s)) ltac:(lia) ltac:(lia)) as P0.
  - destruct (Nat.le_gt_cases (length (c :: s)) w) as [L|L]; [exact L|exfalso]. cbn [length] in L.
    assert (P : 10 ^ Z.of_nat w <= 10 ^ Z.of_nat (length s)) by (apply Z.pow_le_mono_r; lia). nia.
  - exfalso. nia.
Qed.

(** The last digits of a multiple are not printed. *)
Lemma frac_zeros : forall k p v, fmt_frac (k + p) (v * 10 ^ Z.of_nat k) false [] = fmt_frac p v false [].
Proof.
  induction k as [|k IH]; intros p v; [cbn [Nat.add]; f_equal; change (Z.of_nat 0) with 0; rewrite Z.pow_0_r; lia|]. cbn [Nat.add fmt_frac].
  rewrite Nat2Z.inj_succ, Z.pow_succ_r by lia. replace (v * (10 * 10 ^ Z.of_nat k)) with (v * 10 ^ Z.of_nat k * 10) by lia.
  rewrite Z_mod_mult, Z_div_mult by lia. cbn [orb negb]. change (0 =? 0) with true. cbn [negb]. apply IH.
Qed.

Lemma frac_width : forall p v print buf f w, fmt_frac p v print buf = (f, w) -> (length f <= p + length buf + 1)%nat /\ w = v / 10 ^ Z.of_nat p.
Proof.
  induction p as [|p IH]; intros v print buf f w H; cbn [fmt_frac] in H.
  - apply pair_equal_spec in H as [<- <-]. split; [destruct print; cbn [length]; lia|]. change (Z.of_nat 0) with 0. rewrite Z.pow_0_r, Z.div_1_r. reflexivity.
  - apply IH in H as [H1 H2]. split.
    + destruct (print || negb (v mod 10 =? 0)); cbn [length] in *; lia.
    + rewrite H2, Nat2Z.inj_succ, Z.pow_succ_r by lia. rewrite Z.div_div by (try lia; apply Z.pow_pos_nonneg; lia). reflexivity.
Qed.

(** Whole milliseconds up to ten minutes and ten seconds need nine characters. *)
Lemma duration_width : forall k, 0 <= k < 610000 -> (length (duration_string (1000000 * k)) <= 9)%nat.
Proof.
  intros k K. unfold duration_string. cbv zeta. rewrite Z.abs_eq by lia. destruct (Z.ltb_spec (1000000 * k) 0); [lia|].
  destruct (Z.ltb_spec (1000000 * k) 1000000000) as [L|L].
  - destruct (Z.eqb_spec (1000000 * k) 0); [cbn; lia|]. destruct (Z.ltb_spec (1000000 * k) 1000); [lia|]. destruct (Z.ltb_spec (1000000 * k) 1000000); [lia|].
    replace (fmt_frac 6 (1000000 * k) false []) with (fmt_frac 0 k false []) 
      by (rewrite <- (frac_zeros 6 0 k); change (10 ^ Z.of_nat 6) with 1000000; rewrite (Z.mul_comm k); reflexivity).
    cbn [fmt_frac]. rewrite app_nil_l, app_length. pose proof (dec_width 3 k ltac:(cbn; lia) ltac:(lia)). cbn [length str]. cbn. lia.
  - replace (fmt_frac 9 (1000000 * k) false []) with (fmt_frac 3 k false []) 
      by (rewrite <- (frac_zeros 6 3 k); change (10 ^ Z.of_nat 6) with 1000000; rewrite (Z.mul_comm k); reflexivity).
    destruct (fmt_frac 3 k false []) as [f w] eqn:E. apply frac_width in E as [E1 ->]. cbn [length] in E1. change (10 ^ Z.of_nat 3) with 1000.
    set (m := k / 1000 / 60). set (r := (k / 1000) mod 60).
    assert (M : 0 <= m <= 10 /\ (m = 10 -> r < 10) /\ 0 <= r < 60) by (unfold m, r; lia). destruct M as (M & M10 & R). clearbody m r.
    pose proof (dec_width 2 r ltac:(cbn; lia) ltac:(lia)) as W.
    destruct (Z.ltb_spec 0 m).
    + replace (m / 60) with 0 by lia. cbn [Z.ltb Z.compare]. rewrite !app_length. change (length (str "m")) with 1%nat. change (length (str "s")) with 1%nat.
      destruct (Z.eq_dec m 10) as [->|N].
      * pose proof (dec_width 1 r ltac:(cbn; lia) ltac:(lia)). change (length (dec (10 mod 60))) with 2%nat. lia.
      * rewrite (Z.mod_small m) by lia. pose proof (dec_width 1 m ltac:(cbn; lia) ltac:(lia)). lia.
    + rewrite !app_length. change (length (str "s")) with 1%nat. lia.
Qed.

(** ** Characters *)

Lemma chars_app_spaces : forall f w, is_bytes f -> zlen (runes f) <= w -> chars (left_justify w f) (Z.to_nat w).
Proof.
  intros w f B L. unfold left_justify.
  replace (Z.to_nat f) with (length (runes w) + length (repeat 32%Z (Z.to_nat (f - zlen (runes w)))))%nat.
  - apply runes_app_ascii; [exact B|apply ascii_spaces|apply is_bytes_spaces].
  - rewrite repeat_length. unfold zlen in *. lia.
Qed.

Lemma column : forall f w, is_bytes f -> (length f <= w)%nat -> chars (left_justify (Z.of_nat w) f) w.
Proof.
  intros f w B L. pose proof (chars_app_spaces f (Z.of_nat w) B) as C. rewrite Nat2Z.id in C. apply C. pose proof (runes_short f). unfold zlen. lia.
Qed.

(** ** Columns of plain characters *)

Definition plain (s : bytes) : Prop := Forall (fun c => 0 <= c < 128) s.

Lemma plain_ascii : forall s, plain s -> ascii s /\ is_bytes s.
Proof. intros s P. split; (eapply Forall_impl; [|exact P]); cbv beta; unfold is_byte; intros; lia. Qed.

Lemma plain_app : forall a b, plain a -> plain b -> plain (a ++ b).
Proof. intros a b A B. apply Forall_app. auto. Qed.

Lemma plain_digits : forall s, Forall is_digit s -> plain s.
Proof. intros s H. eapply Forall_impl; [|exact H]. unfold is_digit. cbv beta. intros; lia. Qed.

Lemma plain_dec : forall n, plain (dec n).
Proof.
  intro n. destruct (dec_decimal n) as [|s H _|s H _]; [repeat constructor; lia|apply plain_digits, H|]. constructor; [lia|apply plain_digits, H].
Qed.

Lemma plain_by : forall s, forallb (fun c => (0 <=? c) && (c <? 128)) s = true -> plain s.
Proof. intros s H. rewrite forallb_forall in H. apply Forall_forall. intros c Hc. apply H in Hc. lia. Qed.

Lemma plain_frac : forall p v f w, 0 <= v -> fmt_frac p v false [] = (f, w) -> plain f.
Proof.
  intros p v f w V H. destruct (fmt_frac_spec p v V) as (g & w' & E & D & _). rewrite E in H. apply pair_equal_spec in H as [<- _].
  destruct g; [constructor|]. constructor; [lia|]. apply plain_digits, D.
Qed.

Lemma plain_duration : forall k, 0 <= k -> plain (duration_string (1000000 * k)).
Proof.
  intros k K. unfold duration_string. cbv zeta. rewrite Z.abs_eq by lia. destruct (Z.ltb_spec (1000000 * k) 0); [lia|].
  destruct (Z.ltb_spec (1000000 * k) 1000000000) as [L|L].
  - destruct (Z.eqb_spec (1000000 * k) 0); [apply plain_by; reflexivity|]. destruct (Z.ltb_spec (1000000 * k) 1000); [lia|]. destruct (Z.ltb_spec (1000000 * k) 1000000); [lia|].
    destruct (fmt_frac 6 (1000000 * k) false []) as [f w] eqn:E. apply plain_frac in E; [|lia].
    repeat apply plain_app; [apply plain_dec|exact E|apply plain_by; reflexivity].
  - destruct (fmt_frac 9 (1000000 * k) false []) as [f w] eqn:E. apply plain_frac in E; [|lia].
    assert (S0 : plain (dec (w mod 60) ++ f ++ str "s")) by (repeat apply plain_app; [apply plain_dec|exact E|apply plain_by; reflexivity]).
    assert (M : plain (dec (w / 60 mod 60) ++ str "m" ++ dec (w mod 60) ++ f ++ str "s")) by (repeat apply plain_app; [apply plain_dec|apply plain_by; reflexivity|exact (plain_dec _)|exact E|apply plain_by; reflexivity]).
    destruct (0 <? w / 60); [|exact S0]. destruct (0 <? w / 60 / 60); [|exact M]. apply plain_app; [apply plain_dec|]. apply plain_app; [apply plain_by; reflexivity|exact M].
Qed.

Lemma plain_column : forall w f, plain f -> (length f <= w)%nat -> plain (left_justify (Z.of_nat w) f) /\ length (left_justify (Z.of_nat w) f) = w.
Proof.
  intros w f P L. unfold left_justify. destruct (plain_ascii f P) as [A _]. rewrite (runes_ascii f A). split.
  - apply plain_app; [exact P|]. apply Forall_forall. intros c Hc. apply repeat_spec in Hc. lia.
  - rewrite app_length, repeat_length. unfold zlen. rewrite map_length. lia.
Qed.

Lemma plain_hex2 : forall n, 0 <= n < 256 -> plain (hex2 n) /\ length (hex2 n) = 2%nat.
Proof.
  intros n N. split; [|reflexivity]. unfold hex2. pose proof (digit16_hexdigit (n / 16) ltac:(lia)) as A. pose proof (digit16_hexdigit (n mod 16) ltac:(lia)) as B.
  assert (G : forall c v, digit16 c v -> 0 <= c < 128) by (intros c v D; destruct D; lia).
  constructor; [exact (G _ _ A)|]. constructor; [exact (G _ _ B)|constructor].
Qed.

(** ** Names have four characters at the most *)

Definition four_characters (c4 fl : bool) : bool :=
  forallb (fun n => zlen (runes (nth (Z.to_nat (Z.of_nat n mod 12)) (if fl then Flats else Sharps) [] ++ dec (Z.of_nat n / 12 - (if c4 then 2 else 1)))) <=? 4) (seq 0 256).

Lemma name_width : forall env fl n, 0 <= n < 256 -> zlen (runes (format_note env fl n)) <= 4 /\ is_bytes (format_note env fl n).
Proof.
  intros env fl n N. unfold format_note. split.
  - assert (F : four_characters (env_c4 env) fl = true) by (destruct (env_c4 env), fl; vm_compute; reflexivity).
    unfold four_characters in F. rewrite forallb_forall in F. specialize (F (Z.to_nat n) ltac:(apply in_seq; lia)). rewrite Z2Nat.id in F by lia. lia.
  - apply Forall_app. split; [|apply plain_ascii, plain_dec].
    assert (G : forallb (fun s => forallb (fun c => (0 <=? c) && (c <? 256)) s) (if fl then Flats else Sharps) = true) by (destruct fl; vm_compute; reflexivity).
    rewrite forallb_forall in G. destruct (nth_in_or_default (Z.to_nat (n mod 12)) (if fl then Flats else Sharps) []) as [I|E]; [|rewrite E; constructor].
    apply G in I. rewrite forallb_forall in I. apply Forall_forall. intros c Hc. apply I in Hc. unfold is_byte. lia.
Qed.

(** ** Lines *)

Definition short_note (n : note_out) : Prop :=
  is_bytes (o_name n) /\ zlen (runes (o_name n)) <= 4 /\ 0 <= o_ch n < 16 /\ 0 <= o_note n < 256 /\ 0 <= o_vel n < 128.

Lemma stands_behind : forall f w t label rest n, is_bytes f -> zlen (runes f) <= Z.of_nat w -> plain t -> n = (w + length t)%nat ->
  stands_at label n (left_justify (Z.of_nat w) f ++ t ++ label ++ rest).
Proof.
  intros f w t label rest n B L P ->. exists (left_justify (Z.of_nat w) f ++ t), rest. split; [rewrite <- app_assoc; reflexivity|].
  unfold left_justify. rewrite <- app_assoc.
  replace (w + length t)%nat with (length (runes f) + length (repeat 32%Z (Z.to_nat (Z.of_nat w - zlen (runes f))) ++ t))%nat.
  - assert (Q : plain (repeat 32 (Z.to_nat (Z.of_nat w - zlen (runes f))) ++ t)).
    { apply plain_app; [|exact P]. apply Forall_forall. intros c Hc. apply repeat_spec in Hc. lia. }
    destruct (plain_ascii _ Q). apply runes_app_ascii; assumption.
  - rewrite app_length, repeat_length. unfold zlen in *. lia.
Qed.

Lemma line_columns : forall n, short_note n -> 0 <= o_start n < 610000000000 -> 0 <= o_end n < 610000000000 ->
  stands_at (str " channel:") 4 (print_note n) /\ stands_at (str "  note:") 15 (print_note n) /\ stands_at (str "  velocity:") 24 (print_note n) /\
  stands_at (str "  start:") 38 (print_note n) /\ stands_at (str "  end:") 55 (print_note n) /\ stands_at (str "  duration:") 70 (print_note n).
Proof.
  intros n (B & W & C & N & V) S0 E0. unfold print_note. rewrite !truncate_whole. unfold whole_ms. rewrite !(Z.quot_div_nonneg (o_start n)), !(Z.quot_div_nonneg (o_end n)) by lia.
  assert (D1 := duration_width (o_start n / 1000000) ltac:(lia)). assert (P1 := plain_duration (o_start n / 1000000) ltac:(lia)).
  assert (D2 := duration_width (o_end n / 1000000) ltac:(lia)). assert (P2 := plain_duration (o_end n / 1000000) ltac:(lia)).
  assert (Wc := dec_width 2 (o_ch n) ltac:(cbn; lia) ltac:(lia)). assert (Wv := dec_width 3 (o_vel n) ltac:(cbn; lia) ltac:(lia)).
  destruct (plain_column 2 _ (plain_dec (o_ch n)) Wc) as [Pc Lc]. destruct (plain_column 3 _ (plain_dec (o_vel n)) Wv) as [Pv Lv].
  destruct (plain_column 9 _ P1 D1) as [Ps Ls]. destruct (plain_column 9 _ P2 D2) as [Pe Le]. destruct (plain_hex2 (o_note n) N) as [Ph Lh].
  change (Z.of_nat 2) with 2 in *. change (Z.of_nat 3) with 3 in *. change (Z.of_nat 9) with 9 in *.
  set (c := left_justify 2 (dec (o_ch n))) in *. set (h := hex2 (o_note n)) in *. set (v := left_justify 3 (dec (o_vel n))) in *.
  set (s := left_justify 9 (duration_string (1000000 * (o_start n / 1000000)))) in *. set (e := left_justify 9 (duration_string (1000000 * (o_end n / 1000000)))) in *.
  set (d := duration_string _). clearbody c h v s e d. change 4 with (Z.of_nat 4).
  assert (Q1 : plain (str " channel:" ++ c)) by (apply plain_app; [apply plain_by; reflexivity|exact Pc]).
  assert (Q2 : plain ((str " channel:" ++ c) ++ str "  note:" ++ h)) by (apply plain_app; [exact Q1|apply plain_app; [apply plain_by; reflexivity|exact Ph]]).
  assert (Q3 : plain (((str " channel:" ++ c) ++ str "  note:" ++ h) ++ str "  velocity:" ++ v)) by (apply plain_app; [exact Q2|apply plain_app; [apply plain_by; reflexivity|exact Pv]]).
  assert (Q4 : plain ((((str " channel:" ++ c) ++ str "  note:" ++ h) ++ str "  velocity:" ++ v) ++ str "  start:" ++ s)) by (apply plain_app; [exact Q3|apply plain_app; [apply plain_by; reflexivity|exact Ps]]).
  assert (Q5 : plain (((((str " channel:" ++ c) ++ str "  note:" ++ h) ++ str "  velocity:" ++ v) ++ str "  start:" ++ s) ++ str "  end:" ++ e)) by (apply plain_app; [exact Q4|apply plain_app; [apply plain_by; reflexivity|exact Pe]]).
  split; [|split; [|split; [|split; [|split]]]].
  - apply (stands_behind (o_name n) 4 []); [exact B|exact W|constructor|reflexivity].
  - rewrite !(app_assoc (str " channel:")). apply stands_behind; [exact B|exact W|exact Q1|rewrite app_length, Lc; reflexivity].
  - match goal with |- stands_at _ _ (_ ++ ?x) => replace x with (((str " channel:" ++ c) ++ str "  note:" ++ h) ++ str "  velocity:" ++ (v ++ str "  start:" ++ s ++ str "  end:" ++ e ++ str "  duration:" ++ d ++ [10])) by (rewrite <- !app_assoc; reflexivity) end.
    apply stands_behind; [exact B|exact W|exact Q2|rewrite !app_length, Lc, Lh; reflexivity].
  - match goal with |- stands_at _ _ (_ ++ ?x) => replace x with ((((str " channel:" ++ c) ++ str "  note:" ++ h) ++ str "  velocity:" ++ v) ++ str "  start:" ++ (s ++ str "  end:" ++ e ++ str "  duration:" ++ d ++ [10])) by (rewrite <- !app_assoc; reflexivity) end.
    apply stands_behind; [exact B|exact W|exact Q3|rewrite !app_length, Lc, Lh, Lv; reflexivity].
  - match goal with |- stands_at _ _ (_ ++ ?x) => replace x with (((((str " channel:" ++ c) ++ str "  note:" ++ h) ++ str "  velocity:" ++ v) ++ str "  start:" ++ s) ++ str "  end:" ++ (e ++ str "  duration:" ++ d ++ [10])) by (rewrite <- !app_assoc; reflexivity) end.
    apply stands_behind; [exact B|exact W|exact Q4|rewrite !app_length, Lc, Lh, Lv, Ls; reflexivity].
  - match goal with |- stands_at _ _ (_ ++ ?x) => replace x with ((((((str " channel:" ++ c) ++ str "  note:" ++ h) ++ str "  velocity:" ++ v) ++ str "  start:" ++ s) ++ str "  end:" ++ e) ++ str "  duration:" ++ (d ++ [10])) by (rewrite <- !app_assoc; reflexivity) end.
    apply stands_behind; [exact B|exact W|exact Q5|rewrite !app_length, Lc, Lh, Lv, Ls, Le; reflexivity].
Qed.

(** ** Notes of files *)

Definition made_of (P : nevent -> Prop) (env : env) (steps : Z) (o : note_out) : Prop := exists a e, is_on a /\ P a /\ o = finished env steps a e.

Lemma note_list_made : forall (P : nevent -> Prop) env steps order, (forall l, Permutation l (order l)) ->
  forall es p ns, Forall P es -> Forall (fun x => is_on (snd x) /\ P (snd x)) p -> note_list env steps order p es = Ok ns -> Forall (made_of P env steps) ns.
Proof.
  intros P env steps order O. induction es as [|e es IH]; intros p ns R Q H; [apply Ok_inj in H; subst; constructor|].
  pose proof (Forall_inv R) as Re. apply Forall_inv_tail in R.
  assert (Fin : forall k out p', finish env steps p k e = (out, p') -> Forall (made_of P env steps) out /\ Forall (fun x => is_on (snd x) /\ P (snd x)) p').
  { intros k out p' F. unfold finish in F. destruct (find_key k p) as [on|] eqn:Fk.
    - apply pair_equal_spec in F as [<- <-]. split.
      + constructor; [|constructor]. assert (I : is_on on /\ P on).
        { clear - Fk Q. induction p as [|[k' x] p IH]; cbn [find_key] in Fk; [discriminate|]. pose proof (Forall_inv Q). apply Forall_inv_tail in Q. destruct (key_eqb k k'); [injection Fk as <-; assumption|auto]. }
        destruct I. exists on, e. auto.
      + unfold drop_key. apply Forall_forall. intros x Hx. apply filter_In in Hx as [Hx _]. rewrite Forall_forall in Q. auto.
    - apply pair_equal_spec in F as [<- <-]. split; [constructor|exact Q]. }
  cbn [note_list] in H. destruct (ne_body e) eqn:Eb; try (exact (IH p ns R Q H)).
  all: try (destruct (finish env steps p _ e) as [out p'] eqn:F; destruct (Fin _ _ _ F) as [F1 F2];
    destruct (note_list env steps order p' es) as [ms| | | |] eqn:N; try discriminate; cbn [bind] in H; apply Ok_inj in H; subst ns;
    apply Forall_app; split; [exact F1|exact (IH p' ms R F2 N)]).
  - match type of H with context [0 <? ?v] => destruct (0 <? v) end.
    + destruct (find_key _ p); [exact (IH p ns R Q H)|]. match type of H with context [?c <? 16] => destruct (c <? 16) end; [|discriminate]. refine (IH _ ns R _ H). constructor; [|exact Q].
      cbn [snd]. split; [unfold is_on; rewrite Eb; exact I|exact Re].
    + destruct (finish env steps p _ e) as [out p'] eqn:F; destruct (Fin _ _ _ F) as [F1 F2];
      destruct (note_list env steps order p' es) as [ms| | | |] eqn:N; try discriminate; cbn [bind] in H; apply Ok_inj in H; subst ns;
      apply Forall_app; split; [exact F1|exact (IH p' ms R F2 N)].
  - match type of H with context [note_list env steps order ?q es] => set (q' := q) in *; destruct (note_list env steps order q' es) as [ms| | | |] eqn:N end; try discriminate.
    cbn [bind] in H. apply Ok_inj in H. subst ns. apply Forall_app. split.
    + apply Forall_forall. intros x Hx. unfold finish_all in Hx. apply in_flat_map in Hx as (ch & _ & Hx). apply in_map_iff in Hx as (on & <- & Hx).
      apply (Permutation_in _ (Permutation_sym (O _))) in Hx. apply in_map_iff in Hx as (y & <- & Hy). apply filter_In in Hy as [Hy _].
      rewrite Forall_forall in Q. destruct (Q _ Hy). exists (snd y), e. auto.
    + refine (IH q' ms R _ N). apply Forall_forall. intros x Hx. apply filter_In in Hx as [Hx _]. rewrite Forall_forall in Q. auto.
Qed.

Definition note_in_range (e : nevent) : Prop :=
  match ne_body e with NoteOn ch n v => 0 <= ch < 16 /\ 0 <= n_value n < 256 /\ 0 <= v < 128 | _ => True end.

Lemma decoded_notes : forall env r s t t0 ppqn es, is_bytes r -> decode env r = Ok s -> In t (f_tracks s) -> In t0 (f_tracks s) ->
  build_track_events (t_events t) (tempo_events (t_events t0)) ppqn = Ok es -> Forall note_in_range es.
Proof.
  intros env r s t t0 ppqn es Hr H Ht Ht0 E. pose proof (decoded_file env r s Hr H) as F. rewrite Forall_forall in F.
  apply Forall_forall. intros e He. destruct (build_in _ _ _ _ e E He) as (x & Hx & Ex). unfold note_in_range. rewrite <- Ex.
  assert (D : decoded_body env (e_body x)).
  { apply in_app_or in Hx as [Hx|Hx].
    - destruct (F t Ht) as (_ & _ & G). rewrite Forall_forall in G. apply (G x Hx).
    - destruct (F t0 Ht0) as (_ & _ & G). rewrite Forall_forall in G. apply filter_In in Hx. apply (G x (proj1 Hx)). }
  destruct (e_body x); cbn in *; try exact I. tauto.
Qed.

Lemma extracted_short : forall env steps order r s notes, (forall l, Permutation l (order l)) -> is_bytes r -> decode env r = Ok s ->
  extract env steps order s = Ok notes -> Forall short_note notes.
Proof.
  intros env steps order r s notes O Hr D H. pose proof (decoded_notes env r s) as R. unfold extract in H. destruct (f_tracks s) as [|t0 ts]; [discriminate|].
  destruct ts as [|t1 ts]; [destruct (f_mthd s); apply Ok_inj in H; subst; constructor|]. destruct (f_mthd s) as [h|]; [|discriminate].
  remember (t1 :: ts) as us eqn:Eu. clear Eu. apply tracks_notes_inv in H as (nss & -> & F).
  assert (R' : forall t ppqn es, In t us -> build_track_events (t_events t) (tempo_events (t_events t0)) ppqn = Ok es -> Forall note_in_range es).
  { intros t ppqn es It B. exact (R t t0 ppqn es Hr D (or_intror It) (or_introl eq_refl) B). }
  clear R. induction F as [|t ns us nss (es & B & N) F IH]; [constructor|]. cbn [concat]. apply Forall_app. split.
  - apply (note_list_made note_in_range) in N; [|exact O|eapply R'; [left; reflexivity|exact B]|constructor].
    eapply Forall_impl; [|exact N]. intros o (a & e & A & P & ->). unfold is_on in A. unfold note_in_range in P. unfold finished. destruct (ne_body a); try contradiction.
    destruct P as (P1 & P2 & P3). unfold short_note. cbn [o_name o_ch o_note o_vel].
    destruct (name_width env (ne_flats a) (note_transpose (n_value n) steps) (transpose_byte _ _)) as [W B']. split; [exact B'|]. split; [exact W|]. split; [exact P1|]. split; [apply transpose_byte|exact P3].
  - apply IH. intros t' ppqn es' It. apply R'. right. exact It.
Qed.

Theorem columns : forall env steps order r s notes, (forall l, Permutation l (order l)) -> is_bytes r -> decode env r = Ok s ->
  extract env steps order s = Ok notes -> Forall (fun n => 0 <= o_start n < 610000000000 /\ 0 <= o_end n < 610000000000) notes ->
  in_columns note_labels (map print_note notes).
Proof.
  intros env steps order r s notes O Hr D H T. pose proof (extracted_short env steps order r s notes O Hr D H) as Q.
  assert (L : Forall (fun n => stands_at (str " channel:") 4 (print_note n) /\ stands_at (str "  note:") 15 (print_note n) /\ stands_at (str "  velocity:") 24 (print_note n) /\
    stands_at (str "  start:") 38 (print_note n) /\ stands_at (str "  end:") 55 (print_note n) /\ stands_at (str "  duration:") 70 (print_note n)) notes).
  { apply Forall_forall. intros n Hn. rewrite Forall_forall in Q, T. destruct (T n Hn). apply line_columns; auto. }
  unfold in_columns, note_labels. constructor; [exists 4%nat|constructor; [exists 15%nat|constructor; [exists 24%nat|constructor; [exists 38%nat|constructor; [exists 55%nat|constructor; [exists 70%nat|constructor]]]]]];
    apply Forall_map; (eapply Forall_impl; [|exact L]); cbv beta; intros n HL; tauto.
Qed.

(** ** Out of line *)

(** The places where the label stands. *)
Definition places (label line : bytes) : list nat :=
  flat_map (fun k => if bytes_eqb (firstn (length label) (skipn k line)) label then [length (runes (firstn k line))] else []) (seq 0 (S (length line))).

Lemma stands_places : forall label n line, is_bytes line -> stands_at label n line -> In n (places label line).
Proof.
  intros label n line B (a & b & -> & C). apply Forall_app in B as [B _]. unfold places. apply in_flat_map. exists (length a). split.
  - apply in_seq. rewrite app_length. lia.
  - rewrite skipn_app, skipn_all, Nat.sub_diag. cbn [skipn app]. rewrite !firstn_app, !firstn_all, !Nat.sub_diag, !firstn_O, !app_nil_r, bytes_eqb_refl.
    left. eapply chars_det; [apply runes_chars; exact B|exact C].
Qed.

Lemma out_of_columns : forall labels lines l x y, In l labels -> In x lines -> In y lines -> is_bytes x -> is_bytes y ->
  forallb (fun n => negb (existsb (Nat.eqb n) (places l y))) (places l x) = true -> ~ in_columns labels lines.
Proof.
  intros labels lines l x y Hl Hx Hy Bx By F C. unfold in_columns in C. rewrite Forall_forall in C. destruct (C l Hl) as (n & G). rewrite Forall_forall in G.
  pose proof (stands_places l n x Bx (G x Hx)) as Ix. pose proof (stands_places l n y By (G y Hy)) as Iy. rewrite forallb_forall in F. apply F in Ix.
  assert (E : existsb (Nat.eqb n) (places l y) = true) by (apply existsb_exists; exists n; split; [exact Iy|apply Nat.eqb_refl]). rewrite E in Ix. discriminate.
Qed.

Lemma printed_lines : forall env steps order s notes, (forall l, Permutation l (order l)) -> extract env steps order s = Ok notes ->
  print_notes notes = concat (map print_note notes) /\ Forall2 note_line (map shown notes) (map print_note notes).
Proof.
  intros env steps order s notes O H. split; [reflexivity|]. apply extract_from in H; [|exact O].
  clear - H. induction H as [|n notes (fl & a & b & R & N & _) _ IH]; [constructor|]. cbn [map]. constructor; [|exact IH].
  apply print_note_line; rewrite ?N; [apply name_not_empty|apply name_no_char; auto|apply name_no_char; auto|exact R].
Qed.
