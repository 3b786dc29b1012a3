(** * TsvProofs: the table and its written forms. *)
From Verif Require Import Base Strings Tables Event Track File Utf8 Hex Tsv SpecDecimal SpecText SpecTable DecimalProofs Utf8Proofs HexProofs.

(** ** Cells *)

Lemma upd_length : forall A i (x : A) l, length (upd i x l) = length l.
Proof. intros A i x l. revert i. induction l as [|y l IH]; intros [|i]; cbn; auto. Qed.

Lemma upd_nth : forall A i (x : A) l j d, (i < length l)%nat -> nth j (upd i x l) d = if (j =? i)%nat then x else nth j l d.
Proof.
  intros A i x l. revert i. induction l as [|y l IH]; intros [|i] j d H; cbn [length] in H; try lia.
  - destruct j; reflexivity.
  - destruct j; [reflexivity|]. cbn [upd nth]. rewrite IH by lia. reflexivity.
Qed.

Definition rect (t : list (list bytes)) (rows cols : nat) : Prop := length t = rows /\ Forall (fun r => length r = cols) t.

Lemma rect_row : forall t R C r, rect t R C -> (r < R)%nat -> length (nth r t []) = C.
Proof. intros t R C r [L F] H. rewrite Forall_forall in F. apply F. apply nth_In. lia. Qed.

Lemma rect_repeat : forall R C, rect (repeat (repeat [] C) R) R C.
Proof.
  intros R C. split; [apply repeat_length|]. apply Forall_forall. intros x I. apply repeat_spec in I. subst. apply repeat_length.
Qed.

Lemma cell_repeat : forall R C r c, cell (repeat (repeat [] C) R) r c = [].
Proof.
  intros R C r c. unfold cell. assert (E : nth r (repeat (repeat ([] : bytes) C) R) [] = repeat [] C \/ nth r (repeat (repeat ([] : bytes) C) R) [] = []).
  { revert r. induction R as [|R IH]; intros [|r]; cbn; auto. }
  destruct E as [->| ->]; [|destruct c; reflexivity]. clear. revert c. induction C as [|C IH]; intros [|c]; cbn; auto.
Qed.

Lemma set_cell_ok : forall t R C row col v, rect t R C -> (row < R)%nat -> (col < C)%nat ->
  exists t', set_cell t row col v = Ok t' /\ rect t' R C /\
    forall r c, cell t' r c = if ((r =? row) && (c =? col))%nat then v else cell t r c.
Proof.
  intros t R C row col v H Hr Hc. unfold set_cell. pose proof (rect_row t R C row H Hr) as L. destruct H as [LT F].
  rewrite (nth_error_nth' t []) by lia. rewrite (nth_error_nth' (nth row t []) []) by lia. eexists. split; [reflexivity|].
  split.
  - split; [rewrite upd_length; exact LT|]. clear - F L. revert row L. induction F as [|x l E F IH]; intros [|row] L; cbn [upd nth] in *; constructor; auto.
    rewrite upd_length. exact E.
  - intros r c. unfold cell. rewrite upd_nth by lia. destruct (r =? row)%nat eqn:E; [|reflexivity].
    apply Nat.eqb_eq in E. subst r. rewrite upd_nth by lia. reflexivity.
Qed.

Lemma set_cells_ok : forall vs t R C row col, rect t R C -> (row < R)%nat -> (col + length vs <= C)%nat ->
  exists t', set_cells t row col vs = Ok t' /\ rect t' R C /\
    forall r c, cell t' r c = if ((r =? row) && (col <=? c) && (c <? col + length vs))%nat then nth (c - col) vs [] else cell t r c.
Proof.
  induction vs as [|v vs IH]; intros t R C row col H Hr Hc; cbn [set_cells length] in *.
  - exists t. split; [reflexivity|]. split; [exact H|]. intros r c. replace ((r =? row) && (col <=? c) && (c <? col + 0))%nat with false by lia. reflexivity.
  - destruct (set_cell_ok t R C row col v H Hr) as (t1 & E1 & R1 & C1); [lia|]. rewrite E1. cbn [bind].
    destruct (IH t1 R C row (S col) R1 Hr) as (t2 & E2 & R2 & C2); [lia|]. exists t2. split; [exact E2|]. split; [exact R2|].
    intros r c. rewrite C2, C1. destruct (r =? row)%nat eqn:E; [|reflexivity]. cbn [andb].
    destruct ((S col <=? c) && (c <? S col + length vs))%nat eqn:E3.
    + replace ((col <=? c) && (c <? col + S (length vs)))%nat with true by lia. replace (c - col)%nat with (S (c - S col)) by lia. reflexivity.
    + destruct (c =? col)%nat eqn:E4.
      * replace ((col <=? c) && (c <? col + S (length vs)))%nat with true by lia. replace (c - col)%nat with 0%nat by lia. reflexivity.
      * replace ((col <=? c) && (c <? col + S (length vs)))%nat with false by lia. reflexivity.
Qed.

Lemma tsv_header_length : length tsv_header = 7%nat.
Proof. reflexivity. Qed.

Lemma fields_length : forall e, length (fields e) = 7%nat.
Proof. intro e. unfold fields. destruct (e_body e); reflexivity. Qed.

Lemma set_titles_ok : forall ts t R C i, rect t R C -> (0 < R)%nat -> ((i + length ts) * 7 <= C)%nat ->
  exists t', set_titles t i ts = Ok t' /\ rect t' R C /\
    forall r c, cell t' r c = if ((r =? 0) && (i * 7 <=? c) && (c <? (i + length ts) * 7))%nat then nth (c mod 7) tsv_header [] else cell t r c.
Proof.
  induction ts as [|x ts IH]; intros t R C i H Hr Hc; cbn [set_titles length] in *.
  - exists t. split; [reflexivity|]. split; [exact H|]. intros r c. replace ((r =? 0) && (i * 7 <=? c) && (c <? (i + 0) * 7))%nat with false by lia. reflexivity.
  - destruct (set_cells_ok tsv_header t R C 0 (i * 7) H Hr) as (t1 & E1 & R1 & C1); [rewrite tsv_header_length; lia|]. rewrite E1. cbn [bind].
    destruct (IH t1 R C (S i) R1 Hr) as (t2 & E2 & R2 & C2); [lia|]. exists t2. split; [exact E2|]. split; [exact R2|].
    intros r c. rewrite C2, C1, tsv_header_length. destruct (r =? 0)%nat eqn:E; [|reflexivity]. cbn [andb].
    destruct ((S i * 7 <=? c) && (c <? (S i + length ts) * 7))%nat eqn:E3.
    + replace ((i * 7 <=? c) && (c <? (i + S (length ts)) * 7))%nat with true by lia. reflexivity.
    + destruct ((i * 7 <=? c) && (c <? i * 7 + 7))%nat eqn:E4.
      * replace ((i * 7 <=? c) && (c <? (i + S (length ts)) * 7))%nat with true by lia.
        replace (c mod 7)%nat with (c - i * 7)%nat; [reflexivity|].
        apply (Nat.mod_unique c 7 i); lia.
      * replace ((i * 7 <=? c) && (c <? (i + S (length ts)) * 7))%nat with false by lia. reflexivity.
Qed.

(** The cell of an event list, [k] the column within the seven. *)
Definition event_cell (es : list event) (j k : nat) : bytes :=
  match nth_error es j with Some e => nth k (fields e) [] | None => [] end.

Lemma set_events_ok : forall es t R C row col, rect t R C -> (row + length es <= R)%nat -> (col + 7 <= C)%nat ->
  exists t', set_events t row col es = Ok t' /\ rect t' R C /\
    forall r c, cell t' r c = if ((row <=? r) && (r <? row + length es) && (col <=? c) && (c <? col + 7))%nat then event_cell es (r - row) (c - col) else cell t r c.
Proof.
  induction es as [|e es IH]; intros t R C row col H Hr Hc; cbn [set_events length] in *.
  - exists t. split; [reflexivity|]. split; [exact H|]. intros r c.
    replace ((row <=? r) && (r <? row + 0) && (col <=? c) && (c <? col + 7))%nat with false by lia. reflexivity.
  - destruct (set_cells_ok (fields e) t R C row col H) as (t1 & E1 & R1 & C1); [lia|rewrite fields_length; lia|]. rewrite E1. cbn [bind].
    destruct (IH t1 R C (S row) col R1) as (t2 & E2 & R2 & C2); [lia|lia|]. exists t2. split; [exact E2|]. split; [exact R2|].
    intros r c. rewrite C2, C1, fields_length.
    destruct ((S row <=? r) && (r <? S row + length es) && (col <=? c) && (c <? col + 7))%nat eqn:E3.
    + replace ((row <=? r) && (r <? row + S (length es)) && (col <=? c) && (c <? col + 7))%nat with true by lia.
      replace (r - row)%nat with (S (r - S row)) by lia. reflexivity.
    + destruct ((r =? row) && (col <=? c) && (c <? col + 7))%nat eqn:E4.
      * replace ((row <=? r) && (r <? row + S (length es)) && (col <=? c) && (c <? col + 7))%nat with true by lia.
        replace (r - row)%nat with 0%nat by lia. reflexivity.
      * replace ((row <=? r) && (r <? row + S (length es)) && (col <=? c) && (c <? col + 7))%nat with false by lia. reflexivity.
Qed.

(** The cell of a list of tracks. *)
Definition track_cell (ts : list mtrk) (r c : nat) : bytes :=
  match nth_error ts (c / 7) with Some t => event_cell (t_events t) r (c mod 7) | None => [] end.

Lemma set_tracks_ok : forall ts t R C i, rect t R C -> Forall (fun x => (1 + length (t_events x) <= R)%nat) ts -> ((i + length ts) * 7 <= C)%nat ->
  (forall r c, (1 <= r)%nat -> (i * 7 <= c)%nat -> cell t r c = []) ->
  exists t', set_tracks t i ts = Ok t' /\ rect t' R C /\
    forall r c, cell t' r c = if ((1 <=? r) && (i * 7 <=? c))%nat then track_cell ts (r - 1) (c - i * 7) else cell t r c.
Proof.
  induction ts as [|x ts IH]; intros t R C i H F Hc Z; cbn [set_tracks length] in *.
  - exists t. split; [reflexivity|]. split; [exact H|]. intros r c. destruct ((1 <=? r) && (i * 7 <=? c))%nat eqn:E; [|reflexivity].
    rewrite Z by lia. unfold track_cell. destruct ((c - i * 7) / 7)%nat; reflexivity.
  - apply Forall_cons_iff in F as [Fx F].
    destruct (set_events_ok (t_events x) t R C 1 (i * 7) H Fx) as (t1 & E1 & R1 & C1); [lia|]. rewrite E1. cbn [bind].
    destruct (IH t1 R C (S i) R1 F) as (t2 & E2 & R2 & C2); [lia| |].
    { intros r c Hr Hcc. rewrite C1. replace ((1 <=? r) && (r <? 1 + length (t_events x)) && (i * 7 <=? c) && (c <? i * 7 + 7))%nat with false by lia. apply Z; lia. }
    exists t2. split; [exact E2|]. split; [exact R2|]. intros r c. rewrite C2, C1.
    destruct ((1 <=? r) && (S i * 7 <=? c))%nat eqn:E3.
    + replace ((1 <=? r) && (i * 7 <=? c))%nat with true by lia. unfold track_cell.
      replace ((c - i * 7) / 7)%nat with (S ((c - S i * 7) / 7)).
      2: { replace (c - i * 7)%nat with ((c - S i * 7) + 1 * 7)%nat by lia. rewrite Nat.div_add by lia. lia. }
      replace ((c - i * 7) mod 7)%nat with ((c - S i * 7) mod 7)%nat.
      2: { replace (c - i * 7)%nat with ((c - S i * 7) + 1 * 7)%nat by lia. rewrite Nat.mod_add by lia. reflexivity. }
      reflexivity.
    + destruct ((1 <=? r) && (i * 7 <=? c))%nat eqn:E4.
      * unfold track_cell. rewrite (Nat.div_small (c - i * 7) 7) by lia. rewrite (Nat.mod_small (c - i * 7) 7) by lia. cbn [nth_error].
        destruct (r <? 1 + length (t_events x))%nat eqn:E5.
        -- replace ((1 <=? r) && true && (i * 7 <=? c) && (c <? i * 7 + 7))%nat with true by lia. reflexivity.
        -- replace ((1 <=? r) && false && (i * 7 <=? c) && (c <? i * 7 + 7))%nat with false by lia. rewrite Z by lia.
           unfold event_cell. rewrite (proj2 (nth_error_None (t_events x) (r - 1))) by lia. reflexivity.
      * replace ((1 <=? r) && (r <? 1 + length (t_events x)) && (i * 7 <=? c) && (c <? i * 7 + 7))%nat with false by lia. reflexivity.
Qed.

Lemma rows_longest : forall ts n, let rows := fold_left (fun rows t => if (rows <? length (t_events t))%nat then length (t_events t) else rows) ts n in
  (n <= rows)%nat /\ Forall (fun t => (length (t_events t) <= rows)%nat) ts /\ (rows = n \/ exists t, In t ts /\ length (t_events t) = rows).
Proof.
  induction ts as [|t ts IH]; intro n; cbn [fold_left]; cbv zeta.
  - split; [lia|]. split; [constructor|auto].
  - specialize (IH (if (n <? length (t_events t))%nat then length (t_events t) else n)). cbv zeta in IH. destruct IH as (A & B & D).
    destruct (n <? length (t_events t))%nat eqn:E.
    + split; [lia|]. split; [constructor; [lia|exact B]|]. right. destruct D as [D|(x & I & D)]; [exists t; split; [left; reflexivity|auto]|exists x; split; [right; exact I|exact D]].
    + split; [lia|]. split; [constructor; [lia|exact B]|]. destruct D as [D|(x & I & D)]; [left; exact D|right; exists x; split; [right; exact I|exact D]].
Qed.

(** ** Fields *)

Lemma ra_num1 : forall n, reads_as [Num n] (dec n).
Proof. intro n. rewrite <- (app_nil_r (dec n)). apply ra_num; [apply dec_decimal|constructor]. Qed.

Lemma ra_app : forall a b s t, reads_as a s -> reads_as b t -> reads_as (a ++ b) (s ++ t).
Proof. intros a b s t H K. induction H; cbn [app]; [exact K|rewrite <- app_assoc; constructor; auto..]. Qed.

Lemma ra_lit1 : forall l, reads_as [Lit l] l.
Proof. intro l. rewrite <- (app_nil_r l) at 2. apply ra_lit. constructor. Qed.

Lemma ra_two : forall n, 0 <= n -> reads_as (two_digits n) (dec2 n).
Proof.
  intros n H. unfold two_digits, dec2. replace ((0 <=? n) && (n <? 10)) with (n <? 10) by lia. destruct (n <? 10); [|apply ra_num1].
  change (48 :: dec n) with ([48] ++ dec n). apply ra_lit, ra_num1.
Qed.

Lemma ra_spaced : forall l, reads_as (spaced_numbers l) (spaced (map dec l)).
Proof.
  induction l as [|n l IH]; [constructor|]. destruct l as [|m l]; [apply ra_num1|].
  change (spaced_numbers (n :: m :: l)) with (Num n :: Lit [32] :: spaced_numbers (m :: l)).
  change (spaced (map dec (n :: m :: l))) with (dec n ++ [32] ++ spaced (map dec (m :: l))).
  apply ra_num; [apply dec_decimal|]. apply ra_lit. exact IH.
Qed.

Lemma ra_hex1 : forall d, is_bytes d -> reads_as [HexOf d] (hex_string d).
Proof. intros d H. rewrite <- (app_nil_r (hex_string d)). apply ra_hex; [apply hex_string_form, H|constructor]. Qed.

Lemma ra_char : forall c l s, l = [c] -> forall ps, reads_as ps s -> reads_as (Lit l :: ps) (c :: s).
Proof. intros c l s -> ps H. change (c :: s) with ([c] ++ s). apply ra_lit, H. Qed.

Ltac pieces := repeat first
  [ apply ra_num1 | (apply ra_char; [reflexivity|]) | apply ra_lit1 | (apply ra_hex1; assumption)
  | (apply ra_num; [apply dec_decimal|]) | apply ra_lit | (apply ra_hex; [apply hex_string_form; assumption|]) | constructor ].

Lemma details_shown : forall b, printable b -> reads_as (details b) (tsv_details b).
Proof.
  intros b P. destruct b; cbn [details tsv_details printable] in *; try solve [pieces].
  - destruct P as (Ph & Pm & Ps). cbn [app]. repeat first [apply ra_lit | (apply ra_char; [reflexivity|]) | (apply ra_app; [apply ra_two; assumption|])]. pieces.
  - unfold bytes_v. rewrite <- !app_assoc. cbn [app]. apply ra_char; [reflexivity|]. apply ra_app; [apply ra_spaced|].
    match goal with |- reads_as _ (93 :: 58 :: ?x) => change (93 :: 58 :: x) with (str "]:" ++ x) end. pieces.
Qed.

Lemma kind_name_tag : forall b, kind_name b = body_tag b.
Proof. intros []; reflexivity. Qed.

Lemma fields_shown : forall e, printable (e_body e) -> shows e (fields e).
Proof.
  intros [tick delta st ty bs b] P. cbn [e_body] in P. unfold shows, fields. cbn [e_body e_tick e_delta].
  pose proof (details_shown b P) as D. pose proof (dec_decimal tick) as DT. pose proof (dec_decimal delta) as DD.
  exists (dec tick), (dec delta).
  destruct b; do 4 eexists; (split; [reflexivity|]); cbn [message_channel message_note option_map fst snd number_cell];
    (split; [exact DT|]); (split; [exact DD|]); repeat (split; [first [apply dec_decimal|reflexivity]|]); exact D.
Qed.

(** ** The whole table *)

Lemma tsv_export_spec : forall s, Forall (fun t => Forall (fun e => printable (e_body e)) (t_events t)) (f_tracks s) ->
  exists t rows, tsv_export s = Ok t /\ longest (f_tracks s) rows /\
    length t = S rows /\ Forall (fun r => length r = (7 * length (f_tracks s))%nat) t /\
    (forall i k, (i < length (f_tracks s))%nat -> (k < 7)%nat -> cell t 0 (7 * i + k) = nth k titles []) /\
    (forall i j tr e, nth_error (f_tracks s) i = Some tr -> nth_error (t_events tr) j = Some e ->
       exists l, shows e l /\ forall k, (k < 7)%nat -> cell t (S j) (7 * i + k) = nth k l []) /\
    (forall i j k tr, nth_error (f_tracks s) i = Some tr -> (length (t_events tr) <= j)%nat -> (k < 7)%nat -> cell t (S j) (7 * i + k) = []).
Proof.
  intros s P. unfold tsv_export. destruct (rows_longest (f_tracks s) 0) as (_ & M & D).
  set (rows := fold_left _ _ _) in *. set (n := length (f_tracks s)) in *. cbv zeta.
  destruct (set_titles_ok (f_tracks s) _ (rows + 1) (n * 7) 0 (rect_repeat (rows + 1) (n * 7))) as (t1 & E1 & R1 & C1); [lia|fold n; lia|].
  rewrite E1. cbn [bind].
  destruct (set_tracks_ok (f_tracks s) t1 (rows + 1) (n * 7) 0 R1) as (t2 & E2 & R2 & C2).
  - eapply Forall_impl; [|exact M]. intros x L. cbn beta in *. lia.
  - fold n. lia.
  - intros r c Hr Hc. rewrite C1. replace (r =? 0)%nat with false by lia. cbn [andb]. apply cell_repeat.
  - assert (K : forall i k, (k < 7)%nat -> ((7 * i + k) / 7 = i /\ (7 * i + k) mod 7 = k)%nat).
    { intros i k H. split; [symmetry; apply (Nat.div_unique (7 * i + k) 7 i k); lia|symmetry; apply (Nat.mod_unique (7 * i + k) 7 i k); lia]. }
    exists t2, rows. split; [exact E2|]. split; [split; auto|]. destruct R2 as [L2 F2]. split; [lia|]. split.
    { eapply Forall_impl; [|exact F2]. intros x L. cbn beta in *. lia. }
    split; [|split].
    + intros i k Hi Hk. rewrite C2, C1. cbn [Nat.leb andb Nat.eqb].
      assert (Q : ((0 * 7 <=? 7 * i + k) && (7 * i + k <? (0 + n) * 7))%nat = true) by lia. fold n. rewrite Q.
      rewrite (proj2 (K i k Hk)). reflexivity.
    + intros i j tr e Hi Hj. exists (fields e). split.
      * apply fields_shown. rewrite Forall_forall in P. specialize (P tr (nth_error_In _ _ Hi)). rewrite Forall_forall in P. apply P. eapply nth_error_In. exact Hj.
      * intros k Hk. rewrite C2. replace ((1 <=? S j) && (0 * 7 <=? 7 * i + k))%nat with true by lia. unfold track_cell. replace (7 * i + k - 0 * 7)%nat with (7 * i + k)%nat by lia.
        destruct (K i k Hk) as [-> ->]. rewrite Hi. unfold event_cell. replace (S j - 1)%nat with j by lia. rewrite Hj. reflexivity.
    + intros i j k tr Hi Hj Hk. rewrite C2. replace ((1 <=? S j) && (0 * 7 <=? 7 * i + k))%nat with true by lia. unfold track_cell. replace (7 * i + k - 0 * 7)%nat with (7 * i + k)%nat by lia.
      destruct (K i k Hk) as [-> ->]. rewrite Hi. unfold event_cell. replace (S j - 1)%nat with j by lia.
      rewrite (proj2 (nth_error_None (t_events tr) j)) by lia. reflexivity.
Qed.

(** ** The fixed width table *)

Lemma widen_length : forall ws r, length (widen ws r) = length ws.
Proof. induction ws as [|w ws IH]; intros [|f r]; cbn; auto. Qed.

Lemma widen_ge : forall ws r, Forall2 (fun a b => a <= b) ws (widen ws r).
Proof.
  induction ws as [|w ws IH]; intros [|f r]; cbn [widen].
  - constructor.
  - constructor.
  - clear IH. constructor; [lia|]. induction ws; constructor; auto. lia.
  - constructor; [destruct (w <? zlen f) eqn:E; lia|apply IH].
Qed.

Lemma Forall2_le_trans : forall a b c, Forall2 Z.le a b -> Forall2 Z.le b c -> Forall2 Z.le a c.
Proof.
  intros a b c H. revert c. induction H as [|x y a b L H IH]; intros c K; inversion K; subst; constructor; [lia|auto].
Qed.

Lemma widen_all_ge : forall rs ws, Forall2 Z.le ws (fold_left widen rs ws).
Proof.
  induction rs as [|r rs IH]; intro ws; cbn [fold_left].
  - induction ws; constructor; auto. lia.
  - eapply Forall2_le_trans; [apply widen_ge|apply IH].
Qed.

(** Each cell fits its column. *)
Fixpoint fits (ws : list Z) (r : list bytes) : Prop :=
  match ws, r with
  | w :: ws', f :: r' => zlen f <= w /\ fits ws' r'
  | _, [] => True
  | [], _ :: _ => False
  end.

Lemma fits_ge : forall ws ws' r, Forall2 Z.le ws ws' -> fits ws r -> fits ws' r.
Proof.
  intros ws ws' r H. revert r. induction H as [|a b ws ws' L H IH]; intros [|f r] F; cbn [fits] in *; auto. destruct F as [F1 F2]. split; [lia|auto].
Qed.

Lemma widen_fits : forall ws r, (length r <= length ws)%nat -> fits (widen ws r) r.
Proof.
  induction ws as [|w ws IH]; intros [|f r] L; cbn [length widen fits] in *; auto; [lia|].
  split; [destruct (w <? zlen f) eqn:E; lia|apply IH; lia].
Qed.

Lemma fits_all : forall rs ws, Forall (fun r => (length r <= length ws)%nat) rs -> Forall (fits (fold_left widen rs ws)) rs.
Proof.
  induction rs as [|r rs IH]; intros ws F; constructor; apply Forall_cons_iff in F as [F1 F].
  - cbn [fold_left]. eapply fits_ge; [apply widen_all_ge|apply widen_fits, F1].
  - cbn [fold_left]. apply IH. rewrite widen_length. exact F.
Qed.

Lemma columns_max : forall rs n, let m := fold_left (fun n (r : list bytes) => if (n <? length r)%nat then length r else n) rs n in
  (n <= m)%nat /\ Forall (fun r => (length r <= m)%nat) rs.
Proof.
  induction rs as [|r rs IH]; intro n; cbn [fold_left]; cbv zeta; [split; [lia|constructor]|].
  specialize (IH (if (n <? length r)%nat then length r else n)). cbv zeta in IH. destruct IH as (A & B).
  destruct (n <? length r)%nat eqn:E; (split; [lia|constructor; [lia|exact B]]).
Qed.

Lemma join_separated : forall sep l, separated sep l (join sep l).
Proof.
  intros sep l. induction l as [|x l IH]; [constructor|]. destruct l as [|y l]; [constructor|].
  change (join sep (x :: y :: l)) with (x ++ sep ++ join sep (y :: l)). constructor. exact IH.
Qed.

Lemma is_bytes_spaces' : forall n, is_bytes (repeat 32 n).
Proof. intro n. apply is_bytes_spaces. Qed.

Lemma runes_app_ascii : forall s t, is_bytes s -> ascii t -> is_bytes t -> chars (s ++ t) (length (runes s) + length t).
Proof.
  intros s t B A Bt. pose proof (runes_chars s B) as C. induction C as [|cp c r n U C IH|b r n N C IH].
  - apply chars_ascii; assumption.
  - rewrite <- app_assoc. apply Forall_app in B as [_ B]. cbn [Nat.add]. apply (chars_cons cp); [exact U|apply IH, B].
  - apply Forall_cons_iff in B as [B0 B]. cbn [app Nat.add]. apply chars_bad; [|apply IH, B].
    intros cp c r' U E. (* a character that starts in s and reaches into the ASCII text *)
    assert (K : forall x : bytes, c = b :: x -> Forall (fun v => 128 <= v) x).
    { intros x Ex. destruct (utf8_valid cp c U) as [(b0 & -> & _)|[(b0 & b1 & -> & _ & V)|[(b0 & b1 & b2 & -> & _ & V)|(b0 & b1 & b2 & b3 & -> & _ & V)]]];
        injection Ex as _ <-; repeat constructor; unfold valid2, valid3, valid4, cont in V; lia. }
    destruct c as [|b' x]; [apply utf8_nonempty in U; cbn in U; lia|]. cbn [app] in E. injection E as <- E.
    specialize (K x eq_refl).
    assert (Z : exists y, r = x ++ y).
    { clear - E A K. revert r E. induction K as [|v x V K IH]; intros r E; [exists r; reflexivity|].
      destruct r as [|w r]; cbn [app] in E.
      - destruct t as [|w t]; [discriminate|]. injection E as -> E. inversion A; subst. lia.
      - injection E as -> E. destruct (IH r E) as [y ->]. exists y. reflexivity. }
    destruct Z as [y ->]. apply (N cp (b :: x) y U). reflexivity.
Qed.

Lemma left_justify_spec : forall w f, is_bytes f -> zlen f <= w ->
  exists n, left_justify w f = f ++ spaces n /\ chars (left_justify w f) (Z.to_nat w).
Proof.
  intros w f B L. exists (Z.to_nat (w - zlen (runes f))). split; [reflexivity|]. unfold left_justify.
  pose proof (runes_short f) as S. 
  replace (Z.to_nat w) with (length (runes f) + length (repeat 32%Z (Z.to_nat (w - zlen (runes f)))))%nat.
  - apply runes_app_ascii; [exact B|apply ascii_spaces|apply is_bytes_spaces].
  - rewrite repeat_length. unfold zlen in *. lia.
Qed.

Lemma format_row_spec : forall ws r, fits ws r -> Forall is_bytes r ->
  Forall2 (fun f p => exists n, p = f ++ spaces n) r (format_row ws r) /\
  (forall j p w, nth_error (format_row ws r) j = Some p -> nth_error ws j = Some w -> chars p (Z.to_nat w)).
Proof.
  induction ws as [|w ws IH]; intros [|f r] F B; cbn [fits format_row] in *; try contradiction; try (split; [constructor|intros [|j] p x H; discriminate]).
  destruct F as [F1 F2]. apply Forall_cons_iff in B as [B1 B2]. destruct (IH r F2 B2) as [I1 I2].
  destruct (left_justify_spec w f B1 F1) as (n & E & C). split.
  - constructor; [exists n; exact E|exact I1].
  - intros [|j] p x H K; cbn [nth_error] in *; [injection H as <-; injection K as <-; exact C|eauto].
Qed.

Lemma widen_attained : forall (P : nat -> Z -> Prop) ws r j,
  (forall k w, nth_error ws k = Some w -> P (j + k)%nat w) -> (forall k f, nth_error r k = Some f -> P (j + k)%nat (zlen f)) ->
  forall k w, nth_error (widen ws r) k = Some w -> P (j + k)%nat w.
Proof.
  intros P. induction ws as [|w ws IH]; intros [|f r] j H K k x E; cbn [widen] in E; try (apply H; exact E).
  destruct k as [|k]; cbn [nth_error] in E.
  - injection E as <-. destruct (w <? zlen f); [apply (K 0%nat f); reflexivity|apply (H 0%nat w); reflexivity].
  - replace (j + S k)%nat with (S j + k)%nat by lia. apply (IH r (S j)) with (w := x); [| |exact E].
    + intros k' w' E'. replace (S j + k')%nat with (j + S k')%nat by lia. apply H. exact E'.
    + intros k' w' E'. replace (S j + k')%nat with (j + S k')%nat by lia. apply K. exact E'.
Qed.

Lemma widths_attained : forall (P : nat -> Z -> Prop) rs ws,
  (forall k w, nth_error ws k = Some w -> P k w) -> (forall r k f, In r rs -> nth_error r k = Some f -> P k (zlen f)) ->
  forall k w, nth_error (fold_left widen rs ws) k = Some w -> P k w.
Proof.
  intros P. induction rs as [|r rs IH]; intros ws H K k w E; cbn [fold_left] in E; [apply H, E|].
  apply (IH (widen ws r)); [| |exact E].
  - intros k' w' E'. apply (widen_attained P ws r 0); [exact H| |exact E']. intros k'' f E''. apply (K r); [left; reflexivity|exact E''].
  - intros r' k' f I E'. apply (K r'); [right; exact I|exact E'].
Qed.

Lemma fits_nth : forall ws r j f w, fits ws r -> nth_error r j = Some f -> nth_error ws j = Some w -> zlen f <= w.
Proof.
  induction ws as [|w ws IH]; intros [|f r] [|j] g x F H K; cbn [nth_error fits] in *; try discriminate.
  - injection H as <-. injection K as <-. apply F.
  - eapply IH; [apply F|exact H|exact K].
Qed.

Lemma write_table_spec : forall records, Forall (Forall is_bytes) records ->
  exists (widths : list Z) (padded : list (list bytes)) (lines : list bytes),
    write_table records = concat (map (fun l => l ++ [10]) lines) /\
    Forall2 (separated (str "  ")) padded lines /\
    Forall2 (Forall2 (fun f p => exists n, p = f ++ spaces n)) records padded /\
    Forall (fun row => (length row <= length widths)%nat /\ forall j p w, nth_error row j = Some p -> nth_error widths j = Some w -> chars p (Z.to_nat w)) padded /\
    (forall j w, nth_error widths j = Some w ->
      (forall r f, In r records -> nth_error r j = Some f -> zlen f <= w) /\
      (w = 0 \/ exists r f, In r records /\ nth_error r j = Some f /\ zlen f = w)).
Proof.
  intros records B. unfold write_table. destruct (columns_max records 0) as (_ & M). set (columns := fold_left _ records 0%nat) in *. cbv zeta.
  set (widths := fold_left widen records (repeat 0 columns)).
  assert (F : Forall (fits widths) records).
  { apply fits_all. eapply Forall_impl; [|exact M]. intros r L. cbn beta in *. rewrite repeat_length. exact L. }
  assert (LW : forall r, (length (format_row widths r) <= length widths)%nat).
  { clear. induction widths as [|w ws IH]; intros [|f r]; cbn [format_row length]; try lia. specialize (IH r). lia. }
  assert (W : forall k w, nth_error widths k = Some w -> w = 0 \/ exists r f, In r records /\ nth_error r k = Some f /\ zlen f = w).
  { apply (widths_attained (fun k w => w = 0 \/ exists r f, In r records /\ nth_error r k = Some f /\ zlen f = w)).
    - intros k w E. left. apply nth_error_In in E. apply repeat_spec in E. exact E.
    - intros r k f I E. right. exists r, f. auto. }
  clearbody widths.
  exists widths, (map (format_row widths) records), (map (fun r => join (str "  ") (format_row widths r)) records). split; [|split; [|split; [|split]]].
  - rewrite map_map. reflexivity.
  - clear - records widths. induction records as [|r rs IH]; cbn [map]; constructor; [apply join_separated|exact IH].
  - clear - F B. induction F as [|r rs F1 F IH]; cbn [map]; constructor; apply Forall_cons_iff in B as [B1 B].
    + apply (format_row_spec widths r F1 B1).
    + apply IH, B.
  - clear - F B LW. induction F as [|r rs F1 F IH]; cbn [map]; constructor; apply Forall_cons_iff in B as [B1 B].
    + split; [apply LW|]. apply (format_row_spec widths r F1 B1).
    + apply IH, B.
  - intros j w E. split; [|apply W, E]. intros r f I H. rewrite Forall_forall in F. eapply fits_nth; [apply F, I|exact H|exact E].
Qed.
