(** * NotesLevelProofs: loss of precision and levels of the notes command (C102, C103). *)
From Coq Require Import Permutation.
From Verif Require Import Base Strings Tables Event Track File Utf8 Tsv Transpose TransposeProofs SpecNote Notes SpecTranspose SpecHistory SpecDecimal DecimalProofs SpecDuration NotesPrint
  ValidateProofs DurationProofs NotesPrintProofs HistoryProofs NoteProofs TrackProofs DecodeProofs JsonWriteProofs SpecDecoded DecodedProofs SpecNotes NotesTimeProofs NotesProofs Log NotesLog SpecNotesLog NotesLogProofs.

(** ** Loss of precision *)

Lemma no_loss : forall ppqn l tempo, 0 < ppqn -> Forall (fun x => small x /\ (ne_delta (fst x) = 0 \/ (ppqn | snd x))) (in_force tempo l) ->
  timestamps_log tempo ppqn l = [] /\ filter (time_lost ppqn) (in_force tempo l) = [].
Proof.
  intros ppqn l. induction l as [|e l IH]; intros tempo Hp F; [split; reflexivity|]. cbn [in_force] in F. inversion F as [|? ? [(S1 & S2 & S3) D] F']; subst. cbn [fst snd] in *.
  destruct (IH _ Hp F') as [I1 I2]. cbn [timestamps_log in_force filter]. unfold delta_time. replace (ppqn =? 0) with false by lia. cbv zeta. rewrite I1, I2.
  assert (X : 0 <= 1000 * ne_delta e * tempo /\ 0 <= 1000 * ne_delta e * tempo * tempo) by (split; repeat apply Z.mul_nonneg_nonneg; lia).
  rewrite (Z.mod_small (1000 * ne_delta e * tempo) 18446744073709551616) by nia.
  set (d := 1000 * ne_delta e * tempo / ppqn).
  assert (Hd : 0 <= d <= 1000 * ne_delta e * tempo) by (unfold d; split; [apply Z.div_pos; lia|]; apply Z.div_le_upper_bound; nia).
  rewrite wrap64_id by nia. rewrite (Z.mod_small d) by nia. rewrite (Z.mod_small (d * tempo)) by nia.
  assert (Y : d * tempo mod ppqn = 0 /\ (1000 * ne_delta e * tempo) mod ppqn = 0).
  { destruct D as [D|[k ->]].
    - unfold d. rewrite D. replace (1000 * 0 * tempo) with 0 by ring. rewrite Z.div_0_l, Z.mul_0_l, Z.mod_0_l by lia. auto.
    - split; [rewrite Z.mul_assoc|rewrite Z.mul_assoc]; apply Z.mod_mul; lia. }
  destruct Y as [Y1 Y2]. unfold time_lost at 1. cbn [fst snd]. rewrite Y1, Y2. split; reflexivity.
Qed.

(** ** Lines *)

Lemma text_lines_app : forall t s, ~ In 10 t -> text_lines ((t ++ [10]) ++ s) = (t ++ [10]) :: text_lines s.
Proof.
  induction t as [|c t IH]; intros s H; [reflexivity|]. cbn [app text_lines]. assert (c <> 10) by (intros ->; apply H; left; reflexivity).
  destruct (Z.eqb_spec c 10); [contradiction|]. rewrite IH; [reflexivity|]. intro I. apply H. right. exact I.
Qed.

Lemma text_lines_flat : forall A (f : A -> bytes) l, Forall (fun x => ~ In 10 (f x)) l -> text_lines (flat_map (fun x => f x ++ [10]) l) = map (fun x => f x ++ [10]) l.
Proof. intros A f l F. induction F as [|x l Hx F IH]; [reflexivity|]. cbn [flat_map map]. rewrite text_lines_app by exact Hx. rewrite IH. reflexivity. Qed.

(** A line without the line feed. *)
Definition line_of (x : log_entry) : bytes := left_justify 5 (level_name (entry_level x)) ++ str "  notes      " ++ entry_text x.

Lemma log_line_of : forall x, log_line (entry_level x) (str "notes") (entry_text x) = line_of x ++ [10].
Proof. intro x. unfold log_line, line_of. rewrite <- !app_assoc. reflexivity. Qed.

Lemma debug_lines : forall l, notes_stderr Debug l = flat_map (fun x => line_of x ++ [10]) l.
Proof. intro l. unfold notes_stderr. apply flat_map_ext. intro x. rewrite log_line_of. destruct x; reflexivity. Qed.

Lemma quiet_lines : forall setting l, quiet setting -> notes_stderr setting l = flat_map (fun x => line_of x ++ [10]) (filter is_warning l).
Proof.
  intros setting l Q. rewrite stderr_warnings by exact Q. induction l as [|x l IH]; [reflexivity|]. cbn [filter]. destruct (is_warning x) eqn:W; [|exact IH].
  cbn [flat_map]. rewrite IH, <- log_line_of. destruct x; try discriminate; reflexivity.
Qed.

Lemma line_words : forall x, begins (str "WARN ") (line_of x ++ [10]) = is_warning x /\ begins (str "DEBUG ") (line_of x ++ [10]) = negb (is_warning x).
Proof. intros [dt tick|e|e|e|ch p|ch p]; split; reflexivity. Qed.

Lemma filter_map_comm : forall A B (f : A -> B) p l, filter p (map f l) = map f (filter (fun x => p (f x)) l).
Proof. intros A B f p l. induction l as [|x l IH]; [reflexivity|]. cbn [map filter]. destruct (p (f x)); cbn [map]; rewrite IH; reflexivity. Qed.

Definition clean (x : log_entry) : Prop := ~ In 10 (entry_text x).

Lemma clean_line : forall x, clean x -> ~ In 10 (line_of x).
Proof.
  intros x H. unfold line_of. apply no_newline_app; [|apply no_newline_app; [|exact H]].
  - destruct x; apply label_no_newline; reflexivity.
  - apply label_no_newline. reflexivity.
Qed.

Lemma levels : forall setting l, quiet setting -> Forall clean l ->
  lines_with (str "WARN ") (notes_stderr Debug l) = text_lines (notes_stderr setting l) /\
  lines_with (str "DEBUG ") (notes_stderr Debug l) = map (fun x => line_of x ++ [10]) (filter (fun x => negb (is_warning x)) l) /\
  Forall (fun t => begins (str "WARN ") t = true \/ begins (str "DEBUG ") t = true) (text_lines (notes_stderr Debug l)).
Proof.
  intros setting l Q F. assert (F' : Forall (fun x => ~ In 10 (line_of x)) l) by (eapply Forall_impl; [|exact F]; intros x; apply clean_line).
  unfold lines_with. rewrite debug_lines, (quiet_lines setting l Q), !text_lines_flat, !filter_map_comm.
  2: { apply Forall_forall. intros x Hx. apply filter_In in Hx as [Hx _]. rewrite Forall_forall in F'. apply F'. exact Hx. }
  2: { exact F'. }
  split; [|split].
  - f_equal. apply filter_ext. intro x. apply line_words.
  - f_equal. apply filter_ext. intro x. apply line_words.
  - apply Forall_forall. intros t Ht. apply in_map_iff in Ht as (x & <- & _). destruct (line_words x) as [-> ->]. destruct (is_warning x); auto.
Qed.

(** ** Where the entries come from *)

Definition from (P : nevent -> Prop) (x : log_entry) : Prop :=
  match x with LPrecision _ _ => True | LTwice e | LAlone e | LOff e => P e | LEnded _ p | LIncomplete _ p => P p end.

Lemma pending_from : forall (P : nevent -> Prop) entry order p, (forall l, Permutation l (order l)) -> (forall ch e, P e -> from P (entry ch e)) -> Forall (fun x => P (snd x)) p ->
  Forall (from P) (pending_log entry order p).
Proof.
  intros P entry order p Ho H F. unfold pending_log. induction channels16 as [|c cs IH]; [constructor|]. cbn [flat_map]. apply Forall_app. split; [|exact IH].
  apply Forall_forall. intros x Hx. apply in_map_iff in Hx as (e & <- & He). apply H. apply (Permutation_in _ (Permutation_sym (Ho _))) in He.
  apply in_map_iff in He as (y & <- & Hy). apply filter_In in Hy as [Hy _]. rewrite Forall_forall in F. apply (F y Hy).
Qed.

Lemma Forall_filter' : forall A (P : A -> Prop) f l, Forall P l -> Forall P (filter f l).
Proof. intros A P f l F. apply Forall_forall. intros x Hx. apply filter_In in Hx as [Hx _]. rewrite Forall_forall in F. auto. Qed.

Lemma note_log_from : forall (P : nevent -> Prop) order, (forall l, Permutation l (order l)) -> forall es p, Forall P es -> Forall (fun x => P (snd x)) p -> Forall (from P) (note_log order p es).
Proof.
  intros P order Ho es. induction es as [|e es IH]; intros p F Fp; cbn [note_log].
  - apply pending_from; auto.
  - inversion F as [|? ? Fe F']; subst.
    assert (G : forall k, Forall (from P) (finish_log p k e)) by (intro k; unfold finish_log; destruct (find_key k p); repeat constructor; exact Fe).
    assert (D : forall k, Forall (fun x => P (snd x)) (drop_key k p)) by (intro k; apply Forall_filter'; exact Fp).
    destruct (ne_body e) as [ch nt v|ch nt v| | | | | | | | | | | | | | | | | |]; try (apply IH; assumption).
    + constructor; [exact Fe|]. apply Forall_app. split; [apply G|apply IH; auto].
    + destruct (0 <? v).
      * destruct (find_key (ch, n_value nt) p); [constructor; [exact Fe|apply IH; assumption]|]. destruct (ch <? 16); [|constructor].
        apply IH; [exact F'|]. constructor; [exact Fe|exact Fp].
      * apply Forall_app. split; [apply G|apply IH; auto].
    + apply Forall_app. split; [apply pending_from; auto|]. apply IH; [exact F'|]. apply Forall_filter'. exact Fp.
Qed.

(** The debug entries are the NoteOff events, in order. *)
Definition offs (es : list nevent) : list nevent := filter (fun e => match ne_body e with NoteOff _ _ _ => true | _ => false end) es.

Lemma pending_warnings : forall entry order p, (forall ch e, is_warning (entry ch e) = true) -> filter (fun x => negb (is_warning x)) (pending_log entry order p) = [].
Proof.
  intros entry order p H. unfold pending_log. induction channels16 as [|c cs IH]; [reflexivity|]. cbn [flat_map]. rewrite filter_app, IH, app_nil_r.
  induction (order _) as [|e l IHl]; [reflexivity|]. cbn [map filter]. rewrite H. exact IHl.
Qed.

Lemma note_log_offs : forall order es p, Forall (fun e => match ne_body e with NoteOn ch _ _ => ch < 16 | _ => True end) es ->
  filter (fun x => negb (is_warning x)) (note_log order p es) = map LOff (offs es).
Proof.
  intros order es. induction es as [|e es IH]; intros p F; cbn [note_log].
  - apply pending_warnings. reflexivity.
  - inversion F as [|? ? Fe F']; subst. unfold offs. cbn [filter]. fold (offs es).
    assert (G : forall k, filter (fun x => negb (is_warning x)) (finish_log p k e) = []) by (intro k; unfold finish_log; destruct (find_key k p); reflexivity).
    destruct (ne_body e) as [ch nt v|ch nt v| | | | | | | | | | | | | | | | | |]; try (apply IH; exact F').
    + cbn [filter is_warning negb map]. rewrite filter_app, G. cbn [app]. rewrite IH by exact F'. reflexivity.
    + destruct (0 <? v).
      * destruct (find_key (ch, n_value nt) p); [cbn [filter is_warning negb]; apply IH; exact F'|]. replace (ch <? 16) with true by lia. apply IH. exact F'.
      * rewrite filter_app, G. apply IH. exact F'.
    + rewrite filter_app, pending_warnings by reflexivity. apply IH. exact F'.
Qed.

(** ** Names without line feeds *)

Lemma latest_in : forall A (f : event -> option A) es s, latest f es = Some s -> exists e, In e es /\ f e = Some s.
Proof.
  intros A f es s. unfold latest. assert (G : forall es acc, fold_left (fun acc e => match f e with Some a => Some a | None => acc end) es acc = Some s -> acc = Some s \/ exists e, In e es /\ f e = Some s).
  { induction es0 as [|e es0 IH]; intros acc H; [auto|]. cbn [fold_left] in H. apply IH in H as [H|(x & I & H)]; [|right; exists x; split; [right; exact I|exact H]].
    destruct (f e) eqn:E; [|auto]. right. exists e. split; [left; reflexivity|congruence]. }
  intro H. apply G in H as [H|H]; [discriminate|exact H].
Qed.

Definition plain_body (b : body) : Prop :=
  match b with NoteOn ch n _ | NoteOff ch n _ => 0 <= ch < 16 /\ 0 <= n_value n < 256 /\ is_bytes (n_name n) /\ is_bytes (n_alias n) /\ ~ In 10 (n_name n) | _ => True end.

Lemma decoded_plain : forall env r s, is_bytes r -> decode env r = Ok s -> Forall (fun t => Forall (fun e => plain_body (e_body e)) (t_events t)) (f_tracks s).
Proof.
  intros env r s Hr H. pose proof (decoded_file env r s Hr H) as D. pose proof (file_names env r s Hr H) as N. pose proof (decoded_tracks env r s Hr H) as T.
  rewrite Forall_forall in *. intros t Ht. specialize (D t Ht). specialize (N t Ht). specialize (T t Ht). destruct D as (_ & _ & D). destruct T as (w & c & Hw & E).
  pose proof (decoded_history env w _ c Hw E) as B. rewrite Forall_forall in *. intros e He. specialize (D e He). specialize (N e He).
  assert (On : forall i e ch n v, nth_error (t_events t) i = Some e -> e_body e = NoteOn ch n v -> ~ In 10 (n_name n)).
  { intros i x ch n v Hi Hx. destruct (B i x Hi) as (_ & _ & B3). rewrite Hx in B3. rewrite B3. apply name_no_char. left. reflexivity. }
  apply In_nth_error in He as [i Hi]. destruct (e_body e) as [ch n v|ch n v| | | | | | | | | | | | | | | | | |] eqn:Be; cbn [plain_body named decoded_body] in *; try exact I.
  - split; [lia|]. split; [lia|]. split; [tauto|]. split; [tauto|]. destruct (B i e Hi) as (_ & _ & B3). rewrite Be in B3. rewrite B3.
    destruct (latest (note_on_name ch (n_value n)) (firstn i (t_events t))) as [s'|] eqn:L; [|apply name_no_char; left; reflexivity].
    apply latest_in in L as (x & Ix & Fx). unfold note_on_name in Fx. destruct (e_body x) as [|c' m v'| | | | | | | | | | | | | | | | | |] eqn:Bx; try discriminate.
    destruct ((ch =? c') && (n_value n =? n_value m)); [|discriminate]. injection Fx as <-.
    assert (In x (t_events t)) as Ix' by (rewrite <- (firstn_skipn i); apply in_or_app; left; exact Ix). apply In_nth_error in Ix' as [j Hj]. exact (On j x _ _ _ Hj Bx).
  - split; [lia|]. split; [lia|]. split; [tauto|]. split; [tauto|]. exact (On i e _ _ _ Hi Be).
Qed.

Lemma hex_clean : forall s, is_bytes s -> ~ In 10 (flat_map hex2 s).
Proof.
  intros s H. induction H as [|b s Hb H IH]; [intros []|]. cbn [flat_map]. apply no_newline_app; [|exact IH]. unfold hex2, hexdigit, is_byte in *.
  intros [E|[E|[]]]; [destruct (Z.ltb_spec (b / 16) 10)|destruct (Z.ltb_spec (b mod 16) 10)]; lia.
Qed.

Lemma hex2_clean : forall b, 0 <= b < 256 -> ~ In 10 (hex2 b).
Proof. intros b H. pose proof (hex_clean [b]) as G. cbn [flat_map] in G. rewrite app_nil_r in G. apply G. constructor; [exact H|constructor]. Qed.

Lemma hex_text_clean : forall s, is_bytes s -> ~ In 10 (hex_text s).
Proof. intros [|c s] H; [apply label_no_newline; reflexivity|]. apply hex_clean. exact H. Qed.

Lemma dec_clean : forall n, ~ In 10 (dec n).
Proof. intro n. apply (decimal_no_newline n). apply dec_decimal. Qed.

Lemma justify_clean : forall w s, ~ In 10 s -> ~ In 10 (left_justify w s).
Proof. intros w s H. unfold left_justify. apply no_newline_app; [exact H|]. intro I. apply repeat_spec in I. discriminate. Qed.

Lemma time_clean : forall d, ~ In 10 (duration_string d).
Proof. intro d. eapply time_no_newline. apply duration_text. Qed.

Lemma entry_clean : forall x, from (fun e => plain_body (ne_body e)) x -> clean x.
Proof.
  assert (C : forall b, plain_body b -> ~ In 10 (channel_note b)).
  { intros b H. destruct b; cbn [channel_note plain_body] in *; try (intros []; fail); destruct H as (H1 & H2 & H3 & H4 & H5); unfold hex_note;
      repeat (apply no_newline_app; [first [apply dec_clean|apply hex_text_clean; assumption|apply hex2_clean; lia|apply label_no_newline; reflexivity]|]);
      apply label_no_newline; reflexivity. }
  assert (P : forall ch p, plain_body (ne_body p) -> ~ In 10 (pending_text ch p)).
  { intros ch p H. unfold pending_text. repeat (apply no_newline_app; [first [apply dec_clean|apply time_clean|apply label_no_newline; reflexivity|idtac]|]);
      [|apply label_no_newline; reflexivity]. destruct (ne_body p); cbn [plain_body] in H; apply hex2_clean; lia. }
  intros [dt tick|e|e|e|ch p|ch p] H; unfold clean; cbn [entry_text from] in *.
  - repeat (apply no_newline_app; [first [apply justify_clean, dec_clean|apply label_no_newline; reflexivity]|]). apply dec_clean.
  - apply no_newline_app; [apply label_no_newline; reflexivity|apply C; exact H].
  - apply no_newline_app; [apply label_no_newline; reflexivity|apply C; exact H].
  - destruct (ne_body e); try (intros []; fail). cbn [plain_body] in H. destruct H as (H1 & H2 & H3 & H4 & H5).
    repeat (apply no_newline_app; [first [apply justify_clean; first [apply dec_clean|exact H5]|apply hex_text_clean, dec_bytes|apply hex2_clean; lia|apply label_no_newline; reflexivity]|]).
    apply time_clean.
  - apply no_newline_app; [apply label_no_newline; reflexivity|apply P; exact H].
  - apply no_newline_app; [apply label_no_newline; reflexivity|apply P; exact H].
Qed.

Lemma extract_log_clean : forall env order r s, (forall l, Permutation l (order l)) -> is_bytes r -> decode env r = Ok s -> Forall clean (extract_log order s).
Proof.
  intros env order r s Ho Hr D. pose proof (decoded_plain env r s Hr D) as F. unfold extract_log. destruct (f_tracks s) as [|t0 ts]; [constructor|]. destruct (f_mthd s) as [h|]; [|constructor].
  inversion F as [|? ? F0 F']; subst. clear F. induction F' as [|t ts Ft F' IH]; [constructor|]. cbn [flat_map]. apply Forall_app. split; [|exact IH]. unfold track_log. apply Forall_app. split.
  - eapply Forall_impl; [|apply timestamps_log_entries]. cbv beta. intros x (dt & e & -> & _). apply entry_clean. exact I.
  - destruct (build_track_events _ _ _) as [es| | | |] eqn:B; [|constructor..].
    eapply Forall_impl; [intros x; apply entry_clean|]. apply note_log_from; [exact Ho| |constructor]. apply Forall_forall. intros e He.
    destruct (build_in _ _ _ _ e B He) as (x & Hx & <-). rewrite Forall_forall in *. apply in_app_or in Hx as [Hx|Hx]; [apply Ft; exact Hx|apply F0; apply filter_In in Hx; tauto].
Qed.

Theorem file_levels : forall env order verbose verbose' r s, (forall l, Permutation l (order l)) -> is_bytes r -> decode env r = Ok s ->
  lines_with (str "WARN ") (notes_stderr (log_setting true verbose') (extract_log order s)) = text_lines (notes_stderr (log_setting false verbose) (extract_log order s)) /\
  Forall (fun t => begins (str "WARN ") t = true \/ begins (str "DEBUG ") t = true) (text_lines (notes_stderr (log_setting true verbose') (extract_log order s))).
Proof.
  intros env order verbose verbose' r s Ho Hr D. pose proof (extract_log_clean env order r s Ho Hr D) as C. change (log_setting true verbose') with Debug.
  assert (Q : quiet (log_setting false verbose)) by (destruct verbose; [right|left]; reflexivity).
  destruct (levels _ _ Q C) as (L1 & _ & L3). split; assumption.
Qed.

Lemma off_entry_line : forall e, (exists ch n v, ne_body e = NoteOff ch n v) -> off_line (ne_tick e, ne_body e) (line_of (LOff e) ++ [10]).
Proof.
  intros e (ch & n & v & B). unfold off_line. cbn [fst snd]. rewrite B.
  exists (dec ch), (dec v), (dec (ne_tick e)), (ne_at e), (duration_string (ne_at e)), (Z.to_nat (3 - zlen (runes (n_name n)))), (Z.to_nat (3 - zlen (runes (dec v)))), (Z.to_nat (6 - zlen (runes (dec (ne_tick e))))).
  split; [apply dec_decimal|]. split; [apply dec_decimal|]. split; [apply dec_decimal|]. split; [apply duration_text|].
  assert (X : hex_text (dec ch) = flat_map hex2 (dec ch)).
  { apply hex_text_hexes. pose proof (dec_decimal ch) as Dc. intro E. rewrite E in Dc. inversion Dc as [|u Hu H1|]. subst u. cbn in H1. lia. }
  unfold line_of. cbn [entry_text entry_level]. rewrite B, X. unfold left_justify at 2 3 4. rewrite <- !app_assoc. reflexivity.
Qed.

Theorem file_offs : forall env steps order verbose r s notes, (forall l, Permutation l (order l)) -> is_bytes r -> decode env r = Ok s -> extract env steps order s = Ok notes ->
  Forall (fun t => total_delta (t_events t) < 4294967296) (f_tracks s) ->
  Forall2 (fun e => off_line (e_tick e, e_body e)) (note_offs s) (lines_with (str "DEBUG ") (notes_stderr (log_setting true verbose) (extract_log order s))).
Proof.
  intros env steps order verbose r s notes Ho Hr D H Hd. pose proof (extract_log_clean env order r s Ho Hr D) as C. change (log_setting true verbose) with Debug.
  destruct (levels Warn _ (or_introl eq_refl) C) as (_ & -> & _). clear C. destruct (decoded_header env r s D) as (h & Hh & _).
  pose proof (decoded_ticks env r s Hr D) as T. pose proof (decoded_plain env r s Hr D) as P. pose proof (tracks_built env steps order s notes h) as TB.
  unfold extract_log, note_offs. rewrite Hh. assert (NE : f_tracks s <> []) by (unfold extract in H; destruct (f_tracks s); [discriminate|discriminate]).
  destruct (f_tracks s) as [|t0 ts]; [congruence|]. cbn [tl]. clear NE. specialize (TB t0 ts eq_refl Hh H). clear H.
  inversion T as [|? ? [T0 T0'] T']; subst. inversion P as [|? ? P0 P']; subst. inversion Hd as [|? ? Hd0 Hd']; subst. clear T P Hd.
  revert P' T' Hd'. induction TB as [|t ts (es & B) TB IH]; intros P' T' Hd'; [constructor|]. inversion T' as [|? ? [T1 T1'] T'']; subst. inversion P' as [|? ? Pt P'']; subst.
  inversion Hd' as [|? ? Hdt Hd'']; subst. cbn [flat_map]. rewrite filter_app, map_app. apply Forall2_app; [|apply IH; assumption]. clear IH.
  unfold track_log. rewrite B, filter_app.
  replace (filter (fun x => negb (is_warning x)) (timestamps_log _ _ _)) with (@nil log_entry).
  2: { symmetry. pose proof (timestamps_log_entries (h_ppqn h) (sort_ticks (unsorted (t_events t) (tempo_events (t_events t0)))) 50000) as G.
       induction G as [|x l (dt & e & -> & _) G IHG]; [reflexivity|]. exact IHG. }
  cbn [app]. rewrite note_log_offs.
  2: { apply Forall_forall. intros e He. destruct (build_in _ _ _ _ e B He) as (x & Hx & <-). rewrite Forall_forall in *.
       assert (Px : plain_body (e_body x)) by (apply in_app_or in Hx as [Hx|Hx]; [apply Pt; exact Hx|apply P0; apply filter_In in Hx; tauto]).
       destruct (e_body x); cbn [plain_body] in Px; try exact I; lia. }
  assert (A0 : ascending 0 (map e_tick (tempo_events (t_events t0)))) by (apply ascending_filter, ticks_ascending, T0', Hd0).
  pose proof (track_events_order (t_events t) (t_events t0) _ es (ticks_ascending _ _ (T1' Hdt)) A0 B) as O. clear - O.
  set (f := fun x : Z * body => match snd x with NoteOff _ _ _ => true | _ => false end).
  assert (O' : map (fun e => (ne_tick e, ne_body e)) (offs es) = map (fun e => (e_tick e, e_body e)) (filter (fun e => match e_body e with NoteOff _ _ _ => true | _ => false end) (t_events t))).
  { transitivity (filter f (map (fun e => (ne_tick e, ne_body e)) es)).
    - rewrite filter_map_comm. reflexivity.
    - change (fun e : nevent => (ne_tick e, ne_body e)) with tb. rewrite O. unfold own_notes. rewrite filter_map_comm. f_equal. unfold f. cbn [snd]. clear O. induction (t_events t) as [|e l IHl]; [reflexivity|].
      cbn [filter]. destruct (e_body e) eqn:Eb; cbn [is_note_event filter]; rewrite ?Eb; cbn iota; congruence. }
  assert (Fo : Forall (fun e => exists ch n v, ne_body e = NoteOff ch n v) (offs es)).
  { apply Forall_forall. intros e He. apply filter_In in He as [_ He]. destruct (ne_body e); try discriminate. eauto. }
  revert O' Fo. generalize (offs es) (filter (fun e => match e_body e with NoteOff _ _ _ => true | _ => false end) (t_events t)). clear.
  intros l. induction l as [|e l IH]; intros l' E F; destruct l' as [|x l']; try discriminate; [constructor|]. inversion F as [|? ? Fe F']; subst. cbn [map] in *.
  constructor; [|apply IH; [congruence|exact F']]. replace (e_tick x, e_body x) with (ne_tick e, ne_body e) by congruence. apply off_entry_line. exact Fe.
Qed.

(** ** Files without loss *)

Lemma in_force_tempos : forall (P : Z -> Prop) l tempo, P tempo -> Forall (fun e => match ne_body e with Tempo t => P t | _ => True end) l -> Forall (fun x => P (snd x) /\ In (fst x) l) (in_force tempo l).
Proof.
  intros P l. induction l as [|e l IH]; intros tempo H F; [constructor|]. inversion F as [|? ? Fe F']; subst. cbn [in_force]. constructor; [split; [exact H|left; reflexivity]|].
  eapply Forall_impl; [|apply IH; [|exact F']].
  - cbv beta. intros x [A B]. split; [exact A|right; exact B].
  - destruct (ne_body e); assumption.
Qed.

Lemma track_no_loss : forall track track0 ppqn M, 0 < ppqn -> 50000 <= M -> (ppqn | 50000) ->
  Forall (fun e => match e_body e with Tempo t => 0 <= t <= M /\ (ppqn | t) | _ => True end) (track ++ track0) ->
  Forall (fun e => 0 <= e_delta e /\ 1000 * e_delta e * M * (M + 1) < 9223372036854775808) track ->
  timestamps_log 50000 ppqn (sort_ticks (unsorted track (tempo_events track0))) = [] /\
  filter (time_lost ppqn) (in_force 50000 (sort_ticks (unsorted track (tempo_events track0)))) = [].
Proof.
  intros track track0 ppqn M Hp HM H5 HT HD. apply no_loss; [exact Hp|].
  assert (I : forall e, In e (sort_ticks (unsorted track (tempo_events track0))) ->
    (exists x, In x (track ++ track0) /\ e_body x = ne_body e) /\ 0 <= ne_delta e /\ 1000 * ne_delta e * M * (M + 1) < 9223372036854775808).
  { intros e He. apply (Permutation_in _ (sort_permutation _)) in He. unfold unsorted in He. rewrite Forall_forall in HD.
    apply in_app_or in He as [He|He]; apply in_map_iff in He as (x & <- & Hx); cbn [ne_body ne_delta].
    - split; [exists x; split; [apply in_or_app; left; exact Hx|reflexivity]|apply HD; exact Hx].
    - split; [exists x; split; [apply in_or_app; right; apply filter_In in Hx; tauto|reflexivity]|]. lia. }
  eapply Forall_impl; [|apply (in_force_tempos (fun t => 0 <= t <= M /\ (ppqn | t)))].
  - cbv beta. intros x [[A B] C]. apply I in C as (_ & D1 & D2). split; [|right; exact B]. split; [exact D1|]. split; [lia|].
    assert (X : 0 <= 1000 * ne_delta (fst x)) by lia. revert X D2. generalize (1000 * ne_delta (fst x)). generalize (snd x) A. clear. intros t A d X D2.
    assert (d * t <= d * M) by nia. assert (0 <= d * t) by nia. nia.
  - split; [lia|exact H5].
  - apply Forall_forall. intros e He. apply I in He as ((x & Hx & E) & _). rewrite Forall_forall in HT. specialize (HT x Hx). rewrite E in HT. exact HT.
Qed.

Theorem file_no_loss : forall env order r s h M, is_bytes r -> decode env r = Ok s -> f_mthd s = Some h -> 0 < h_ppqn h -> 50000 <= M -> (h_ppqn h | 50000) ->
  Forall (fun t => Forall (fun e => match e_body e with Tempo t => t <= M /\ (h_ppqn h | t) | _ => True end) (t_events t)) (f_tracks s) ->
  Forall (fun t => Forall (fun e => 1000 * e_delta e * M * (M + 1) < 9223372036854775808) (t_events t)) (f_tracks s) ->
  Forall (fun x => match x with LPrecision _ _ => False | _ => True end) (extract_log order s) /\
  forall t0 t, nth_error (f_tracks s) 0 = Some t0 -> In t (tl (f_tracks s)) ->
    filter (time_lost (h_ppqn h)) (in_force 50000 (sort_ticks (unsorted (t_events t) (tempo_events (t_events t0))))) = [].
Proof.
  intros env order r s h M Hr D Hh Hp HM H5 HT HD. pose proof (decoded_ticks env r s Hr D) as T. pose proof (decoded_file env r s Hr D) as DF.
  unfold extract_log. rewrite Hh. destruct (f_tracks s) as [|t0 ts]; [split; [constructor|intros ? ? ? []]|]. cbn [tl nth_error].
  assert (G : forall t, In t (t0 :: ts) -> Forall (fun e => match e_body e with Tempo t => 0 <= t <= M /\ (h_ppqn h | t) | _ => True end) (t_events t) /\
    Forall (fun e => 0 <= e_delta e /\ 1000 * e_delta e * M * (M + 1) < 9223372036854775808) (t_events t)).
  { intros t Ht. rewrite Forall_forall in *. specialize (T t Ht). specialize (DF t Ht). specialize (HT t Ht). specialize (HD t Ht). destruct T as [T _]. destruct DF as (_ & _ & DF).
    rewrite Forall_forall in *. split; intros e He; specialize (T e He); specialize (DF e He); specialize (HT e He); specialize (HD e He).
    - destruct (e_body e); try exact I. cbn [decoded_body] in DF. split; [lia|tauto].
    - lia. }
  assert (N : forall t, In t ts -> timestamps_log 50000 (h_ppqn h) (sort_ticks (unsorted (t_events t) (tempo_events (t_events t0)))) = [] /\
    filter (time_lost (h_ppqn h)) (in_force 50000 (sort_ticks (unsorted (t_events t) (tempo_events (t_events t0))))) = []).
  { intros t Ht. destruct (G t (or_intror Ht)) as [G1 G2]. destruct (G t0 (or_introl eq_refl)) as [G3 _]. apply (track_no_loss _ _ _ M); auto. apply Forall_app. auto. }
  split.
  - apply Forall_forall. intros x Hx. apply in_flat_map in Hx as (t & Ht & Hx). unfold track_log in Hx. rewrite (proj1 (N t Ht)) in Hx. cbn [app] in Hx.
    destruct (build_track_events _ _ _) as [es| | | |]; [|destruct Hx..].
    assert (L : forall es p, Forall (fun x => match x with LPrecision _ _ => False | _ => True end) (note_log order p es)).
    { clear. assert (Pn : forall entry p, (forall ch e, match entry ch e with LPrecision _ _ => False | _ => True end) -> Forall (fun x => match x with LPrecision _ _ => False | _ => True end) (pending_log entry order p)).
      { intros entry p H. apply Forall_forall. intros x Hx. unfold pending_log in Hx. apply in_flat_map in Hx as (c & _ & Hx). apply in_map_iff in Hx as (e & <- & _). apply H. }
      assert (Fn : forall p k e, Forall (fun x => match x with LPrecision _ _ => False | _ => True end) (finish_log p k e)) by (intros; unfold finish_log; destruct (find_key _ _); repeat constructor).
      intros es. induction es as [|e es IH]; intro p; cbn [note_log]; [apply Pn; intros; exact I|].
      destruct (ne_body e) as [ch nt v|ch nt v| | | | | | | | | | | | | | | | | |]; try apply IH.
      - constructor; [exact I|]. apply Forall_app. split; [apply Fn|apply IH].
      - destruct (0 <? v).
        + destruct (find_key _ _); [constructor; [exact I|apply IH]|]. destruct (ch <? 16); [apply IH|constructor].
        + apply Forall_app. split; [apply Fn|apply IH].
      - apply Forall_app. split; [apply Pn; intros; exact I|apply IH]. }
    specialize (L es []). rewrite Forall_forall in L. apply L. exact Hx.
  - intros t0' t E Ht. injection E as <-. apply N. exact Ht.
Qed.
