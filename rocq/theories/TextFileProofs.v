(** * TextFileProofs: disassembled files are assembled again. *)
From Verif Require Import Base Strings Vlq SpecVlq Tables Event Marshal Parse Track File SpecEvent SpecPacket SpecTrack SpecDecoded SpecHistory SpecKey SpecDecimal SpecText SpecNote SpecTable SpecAssemble SpecSurvive SpecRead
  Manufacturer Utf8 Hex Disassemble Regex TextEvent Assemble TextAssemble VlqProofs EncodeProofs FileProofs ParseProofs DecodeProofs TrackProofs HistoryProofs NoteProofs DecimalProofs HexProofs EventProofs AssembleProofs DecodedProofs NotesTimeProofs DisassembleProofs RegexProofs TextProofs TextReadProofs.

Lemma legal_type : forall e, legal_header e -> is_meta (e_body e) = true -> e_status e = 255 /\ 0 <= e_type e < 256.
Proof.
  intros e L M. unfold legal_header in L. destruct (e_body e); try discriminate M; destruct L as [A B]; (split; [exact A|rewrite B; try lia]).
  destruct k; cbn; lia.
Qed.

Lemma loop_status : forall n env c tick r es c', (length r <= n)%nat -> is_bytes r -> ctx_ok c ->
  loop_from env c tick r = Ok (es, c') -> Forall (fun e => 0 <= e_status e < 256) es.
Proof.
  induction n as [|n IH]; intros env c tick r es c' Hn Hr Hc H.
  - destruct r; [|cbn in Hn; lia]. rewrite loop_from_eq, parse_nil in H. apply Ok_inj, pair_equal_spec in H as [<- <-]. constructor.
  - rewrite loop_from_eq in H. destruct (parse env c tick r) as [[[e c1] rest]| | | |] eqn:E; try discriminate.
    + pose proof (parse_shorter _ _ _ _ _ _ _ E) as Hlt.
      destruct (parse_inv _ _ _ _ _ _ _ Hr Hc E) as (p & delta & k & -> & Hs & HR & (_ & SD & SB) & Hc1). apply is_bytes_app in Hr as [Hp Hr].
      destruct (post_process env c1 e) as [e' c2] eqn:P.
      destruct (post_process_view _ _ _ _ _ P) as (_ & _ & _ & _ & P5 & _ & P4 & _).
      destruct (loop_from env c2 _ rest) as [[es1 c3]| | | |] eqn:L; try discriminate.
      cbn [bind] in H. apply Ok_inj, pair_equal_spec in H as [<- <-].
      assert (Hc2 : ctx_ok c2) by (unfold ctx_ok; rewrite P4; exact Hc1).
      assert (Hle : (length rest <= n)%nat) by lia.
      constructor; [|eapply (IH _ _ _ _ _ _ Hle Hr Hc2 L)]. rewrite P5. clear - Hs HR Hp.
      destruct k as [st data|ty data|st data]; cbn [read_packet] in HR.
      * assert (Hst : 128 <= st < 256) by (inversion Hs; subst; lia).
        assert (Hb : is_bytes data) by (inversion Hs; subst; apply is_bytes_app in Hp as [_ Hp]; [apply is_bytes_inv in Hp as [_ Hp]|]; assumption).
        destruct (new_event _) as [x| | | |] eqn:E; try discriminate. cbn [bind] in HR. injection HR as <- _. apply new_event_ok in E.
        destruct (unmarshal_midi_kind _ _ _ _ _ _ _ Hst Hb E) as (-> & K & _). lia.
      * destruct (new_event _) as [x| | | |] eqn:E; try discriminate. cbn [bind] in HR. injection HR as <- _. apply new_event_ok in E.
        destruct (unmarshal_meta_kind _ _ _ _ _ _ _ E) as (-> & _). lia.
      * destruct (st =? 240).
        { destruct (c_casio c); [discriminate|]. unfold unmarshal_sysex in HR. destruct data as [|a [|b data]]; try discriminate. cbv zeta in HR.
          destruct (ends_f7 (b :: data)); cbn [bind] in HR; apply Ok_inj, pair_equal_spec in HR as [<- _]; cbn; lia. }
        { unfold unmarshal_continuation in HR. destruct (c_casio c); [destruct data|]; cbn [bind] in HR; apply Ok_inj, pair_equal_spec in HR as [<- _]; cbn; lia. }
    + apply Ok_inj, pair_equal_spec in H as [<- <-]. constructor.
Qed.

Lemma latest_from : forall A (f : event -> option A) es acc a,
  fold_left (fun acc e => match f e with Some a => Some a | None => acc end) es acc = Some a ->
  acc = Some a \/ exists i e, nth_error es i = Some e /\ f e = Some a.
Proof.
  intros A f es. induction es as [|e es IH]; intros acc a H; [left; exact H|]. cbn [fold_left] in H. destruct (IH _ _ H) as [E|(i & x & N & F)].
  - destruct (f e) eqn:Q; [right; exists O, e; split; [reflexivity|congruence]|left; exact E].
  - right. exists (S i), x. auto.
Qed.

Lemma latest_some : forall A (f : event -> option A) es a, latest f es = Some a -> exists i e, nth_error es i = Some e /\ f e = Some a.
Proof. intros A f es a H. destruct (latest_from A f es None a H) as [E|E]; [discriminate|exact E]. Qed.

Lemma nth_firstn : forall A (l : list A) i j x, nth_error (firstn i l) j = Some x -> nth_error l j = Some x.
Proof.
  intros A l. induction l as [|y l IH]; intros [|i] [|j] x H; try discriminate; try exact H. cbn [firstn nth_error] in *. eapply IH, H.
Qed.

(** Every note of a track is named by the middle C of the environment. *)
Lemma track_named : forall env r es c', is_bytes r -> decode_events env new_context r = Ok (es, c') ->
  Forall (fun e => match e_body e with NoteOff _ n _ | NoteOn _ n _ => exists flats, note_name (middle_octave env) flats (n_value n) (n_name n) | _ => True end) es.
Proof.
  intros env r es c' Hr H. destruct (note_names env r es c' Hr H) as [A B]. apply nth_Forall. intros i e N.
  destruct (e_body e) eqn:E; try exact I.
  - pose proof (B i e _ _ _ N E) as K. destruct (latest _ _) as [s|] eqn:L; [|eexists; exact K].
    apply latest_some in L as (j & x & Nx & F). apply nth_firstn in Nx. unfold note_on_name in F. destruct (e_body x) eqn:Ex; try discriminate.
    destruct (_ && _) eqn:Q in F; [|discriminate]. injection F as F. apply andb_prop in Q as [_ Q]. apply Z.eqb_eq in Q. rewrite K, Q, <- F. eexists. eapply A; eassumption.
  - eexists. eapply A; eassumption.
Qed.

(** What is known of the events of decoded files, for printing and reading. *)
Definition decoded_line (env : env) (e : event) (l : bytes) : Prop :=
  exists col tk n m h1 h2, line_ok col tk n m h1 h2 /\ l = line_of col tk (e_delta e) n m h1 h2 (e_body e) /\
    0 <= e_delta e < 4294967296 /\ printed env (e_body e) /\ legal_header e /\
    match e_body e with NoteOff _ n _ | NoteOn _ n _ => exists flats, note_name (middle_octave env) flats (n_value n) (n_name n) | _ => True end.

Lemma decoded_line_ok : forall env r s, is_bytes r -> decode env r = Ok s ->
  Forall (fun t => Forall (fun e => exists l, event_line e = Ok (l ++ [10]) /\ decoded_line env e l) (t_events t)) (f_tracks s).
Proof.
  intros env r s Hr H. pose proof (decoded_bytes env r s Hr H) as B. pose proof (decoded_file env r s Hr H) as D. pose proof (decoded_tracks env r s Hr H) as T.
  rewrite Forall_forall in B, D, T. apply Forall_forall. intros t It. specialize (B t It). destruct (D t It) as (_ & _ & D'). destruct (T t It) as (w & c & Bw & E).
  pose proof (track_named env w _ c Bw E) as N. rewrite decode_events_eq in E. 
  assert (S : Forall (fun e => 0 <= e_status e < 256) (t_events t)) by (eapply loop_status; [apply le_n|exact Bw| |exact E]; left; reflexivity). clear - B D' N S. rewrite Forall_forall in *. intros e Ie.
  destruct (B e Ie) as (d & x & Eb & [V _] & Bb). destruct (D' e Ie) as (L & DL & DB). specialize (N e Ie). specialize (S e Ie). cbn beta in *.
  destruct (event_line_spec e d x Eb V Bb) as (? & ? & ? & ? & EL & _).
  assert (TT : 0 <= e_type e < 256 \/ is_meta (e_body e) = false).
  { destruct (is_meta (e_body e)) eqn:M; [left; apply (legal_type e L M)|right; reflexivity]. }
  assert (Q : exists e2, e_body e2 = e_body e /\ e_delta e2 = e_delta e /\ e_bytes e2 = e_bytes e /\ e_status e2 = e_status e /\ 0 <= e_type e2 < 256 /\ event_line e2 = event_line e).
  { destruct TT as [TT|TT]; [exists e; auto 10|]. exists (Event (e_tick e) (e_delta e) (e_bytes e) (e_status e) 0 (e_body e)). repeat split; try (cbn; lia).
    unfold event_line, event_text. cbn [e_bytes e_tick e_delta e_body e_type e_status]. rewrite TT. reflexivity. }
  destruct Q as (e2 & Q1 & Q2 & Q3 & Q4 & Q5 & Q6). rewrite <- Q6 in *. 
  destruct (line_shape e2 _ d x EL ltac:(congruence) V Bb ltac:(rewrite Q4; lia) Q5) as (col & tk & n & m & h1 & h2 & C1 & C2 & C3 & C4 & C5 & C6 & EQ).
  exists (line_of col tk (e_delta e) n m h1 h2 (e_body e)). split.
  - rewrite EL. f_equal. rewrite EQ, Q1, Q2. unfold line_of. rewrite <- !app_assoc. reflexivity.
  - exists col, tk, n, m, h1, h2. split; [unfold line_ok; auto 10|]. split; [reflexivity|]. split; [exact DL|]. split; [|split; [exact L|exact N]].
    split; [exact DB|]. destruct (e_body e); auto; destruct N as [fl N]; eauto.
Qed.

(** C35 *)
Theorem line_kind : forall env r s t e, is_bytes r -> decode env r = Ok s -> In t (f_tracks s) -> In e (t_events t) ->
  exists l, event_line e = Ok (l ++ [10]) /\
    (~ misleading (e_body e) -> forall table e', unmarshal_text table l = Ok e' -> kind_name (e_body e') = kind_name (e_body e)) /\
    (misleading (e_body e) -> forall table e', unmarshal_text table l = Ok e' -> kind_name (e_body e') <> kind_name (e_body e)).
Proof.
  intros env r s t e Hr H It Ie. pose proof (decoded_line_ok env r s Hr H) as F. rewrite Forall_forall in F. specialize (F t It).
  rewrite Forall_forall in F. destruct (F e Ie) as (l & EL & col & tk & n & m & h1 & h2 & LO & -> & DL & P & _).
  exists (line_of col tk (e_delta e) n m h1 h2 (e_body e)). split; [exact EL|]. split; intros M table e' U;
  destruct (right_kind env table col tk (e_delta e) n m h1 h2 (e_body e) P LO) as [A B]; [|apply B; assumption].
  rewrite (A M) in U. destruct (parser_position table (e_body e)) as (i & _ & I2). eapply case_kind; eassumption.
Qed.

(** C36 *)
Theorem line_read : forall env r s t e, is_bytes r -> decode env r = Ok s -> In t (f_tracks s) -> In e (t_events t) -> middle_octave env = 4 ->
  exists l, event_line e = Ok (l ++ [10]) /\
    forall table, ~ misleading (e_body e) -> readable table (e_body e) ->
      exists e', unmarshal_text table l = Ok e' /\ e_delta e' = e_delta e /\ e_body e' = as_read (e_body e) /\ legal_header e'.
Proof.
  intros env r s t e Hr H It Ie M4. pose proof (decoded_line_ok env r s Hr H) as F. rewrite Forall_forall in F. specialize (F t It).
  rewrite Forall_forall in F. destruct (F e Ie) as (l & EL & col & tk & n & m & h1 & h2 & LO & -> & DL & P & _ & N).
  exists (line_of col tk (e_delta e) n m h1 h2 (e_body e)). split; [exact EL|]. intros table M R.
  rewrite (proj1 (right_kind env table col tk (e_delta e) n m h1 h2 (e_body e) P LO) M).
  eapply read_back; try eassumption. rewrite M4 in N. exact N.
Qed.

(** ** Lines of printed events *)

Lemma calm_dot : forall s, Forall calm s -> forallb dot s = true.
Proof. intros s F. apply forallb_forall. intros c I. rewrite Forall_forall in F. specialize (F c I). unfold calm in F. unfold dot. lia. Qed.

Lemma dot_dec : forall n, forallb dot (dec n) = true.
Proof. intros. apply calm_dot, calm_dec. Qed.

Lemma dot_spaces : forall n, forallb dot (repeat 32 n) = true.
Proof. intros. apply calm_dot, calm_spaces. Qed.

Lemma dot_channel : forall c, forallb dot (str "channel:" ++ pad 2 (dec c)) = true.
Proof. intros c. destruct (pad_spaces 2 (dec c)) as [n ->]. rewrite !forallb_app, dot_dec, dot_spaces. reflexivity. Qed.

Lemma key_dot : forall (minor : bool) acc, key_range acc -> forallb dot (key_name minor acc) = true.
Proof.
  intros minor acc K. assert (A : acc = -7 \/ acc = -6 \/ acc = -5 \/ acc = -4 \/ acc = -3 \/ acc = -2 \/ acc = -1 \/ acc = 0 \/ acc = 1 \/
    acc = 2 \/ acc = 3 \/ acc = 4 \/ acc = 5 \/ acc = 6 \/ acc = 7) by (unfold key_range in K; lia).
  decompose [or] A; subst; destruct minor; reflexivity.
Qed.

Lemma details_dot : forall env table b, printed env b -> readable table b -> forallb dot (event_details b) = true.
Proof.
  intros env table b [D N] R. destruct b; cbn [event_details decoded_body readable] in *;
  rewrite ?forallb_app, ?dot_dec; try reflexivity.
  - destruct N as (mid & fl & N). apply note_name_calm, calm_dot in N. destruct (pad_spaces 2 (dec ch)) as [k ->]. rewrite N, forallb_app, dot_dec, dot_spaces. reflexivity.
  - destruct N as (mid & fl & N). apply note_name_calm, calm_dot in N. destruct (pad_spaces 2 (dec ch)) as [k ->]. rewrite N, forallb_app, dot_dec, dot_spaces. reflexivity.
  - destruct (pad_spaces 2 (dec ch)) as [k ->]. rewrite forallb_app, dot_dec, dot_spaces. reflexivity.
  - destruct D as (_ & (id & I & ->) & _). destruct (controller_names id I) as (_ & F & _). destruct (pad_spaces 2 (dec ch)) as [k ->].
    rewrite F, forallb_app, dot_dec, dot_spaces. reflexivity.
  - destruct (pad_spaces 2 (dec ch)) as [k ->]. rewrite forallb_app, dot_dec, dot_spaces. reflexivity.
  - destruct (pad_spaces 2 (dec ch)) as [k ->]. rewrite forallb_app, dot_dec, dot_spaces. reflexivity.
  - destruct (pad_spaces 2 (dec ch)) as [k ->]. rewrite forallb_app, dot_dec, dot_spaces. reflexivity.
  - apply plain_dot, R.
  - destruct D as (K & minor & _ & ->). apply key_dot, K.
  - destruct R as (_ & _ & P & _). rewrite (plain_dot _ (proj1 P)), hex_dot by apply D. reflexivity.
  - destruct R as (_ & _ & P & _). rewrite (plain_dot _ (proj1 P)), hex_dot by apply D. reflexivity.
  - apply hex_dot, D.
  - apply hex_dot, D.
Qed.

Lemma tag_dot : forall b, forallb dot (body_tag b) = true.
Proof. intros b. destruct b; try reflexivity. destruct k; reflexivity. Qed.

Lemma line_dot : forall env table col tk delta n m h1 h2 b, printed env b -> readable table b -> line_ok col tk n m h1 h2 ->
  forallb dot (line_of col tk delta n m h1 h2 b) = true.
Proof.
  intros env table col tk delta n m h1 h2 b P R (C & K & _ & _ & H1 & H2). unfold line_of, gap.
  rewrite !forallb_app, (calm_dot _ C), (calm_dot _ K), dot_dec, dot_spaces, tag_dot. 
  assert (E : forallb dot (event_tail b m) = true).
  { pose proof (details_dot env table b P R) as D. unfold event_tail. destruct b; try reflexivity; rewrite forallb_app, dot_spaces; exact D. }
  assert (G1 : dot h1 = true) by (unfold dot; lia). assert (G2 : dot h2 = true) by (unfold dot; lia).
  rewrite E. cbn [forallb]. rewrite ?G1, ?G2. reflexivity.
Qed.

Lemma dot_plain : forall s, forallb dot s = true -> ~ In 10 s.
Proof. intros s F I. rewrite forallb_forall in F. specialize (F 10 I). discriminate. Qed.

(** No carriage return at the end. *)
Definition ends_ok (s : bytes) : Prop := forall l, s <> l ++ [13].

Lemma ends_app : forall a w, ends_ok w -> w <> [] -> ends_ok (a ++ w).
Proof.
  intros a w E N l Q. destruct (exists_last N) as (w' & x & ->). rewrite app_assoc in Q. apply app_inj_tail in Q as [_ ->]. apply (E w'). reflexivity.
Qed.

Lemma ends_in : forall w, ~ In 13 w -> ends_ok w.
Proof. intros w N l ->. apply N, in_or_app. right. left. reflexivity. Qed.

Lemma calm_ends : forall w, Forall calm w -> ends_ok w.
Proof. intros w F. apply ends_in. intros I. rewrite Forall_forall in F. specialize (F 13 I). unfold calm in F. lia. Qed.

Lemma dec_ends : forall a n, 0 <= n -> ends_ok (a ++ dec n).
Proof. intros a n N. apply ends_app; [apply calm_ends, calm_dec|apply dec_digits, N]. Qed.

Lemma dec_ends' : forall n, ends_ok (dec n).
Proof. intros n. apply calm_ends, calm_dec. Qed.

Lemma hex_ends : forall d, is_bytes d -> ends_ok (hex_string d).
Proof. intros d B. eapply calm_ends, calm_hex, hex_string_form, B. Qed.

Lemma details_ends : forall env b, printed env b -> match b with TextEvent _ s => ends_ok s | _ => True end -> ends_ok (event_details b).
Proof.
  intros env b [D _] F. destruct b; cbn [event_details decoded_body] in *; rewrite ?app_assoc;
    try (apply dec_ends; lia); try apply dec_ends'.
  - exact F.
  - apply ends_in. intros [].
  - apply ends_app; [|discriminate]. apply ends_in. intros I. vm_compute in I. decompose [or] I; try discriminate; contradiction.
  - destruct D as (K & minor & _ & ->). apply ends_in. intros I.
    assert (A : accidentals = -7 \/ accidentals = -6 \/ accidentals = -5 \/ accidentals = -4 \/ accidentals = -3 \/ accidentals = -2 \/ accidentals = -1 \/ accidentals = 0 \/ accidentals = 1 \/
      accidentals = 2 \/ accidentals = 3 \/ accidentals = 4 \/ accidentals = 5 \/ accidentals = 6 \/ accidentals = 7) by (unfold key_range in K; lia).
    clear F K. assert (Q : existsb (Z.eqb 13) (key_name minor accidentals) = false) by (decompose [or] A; subst; destruct minor; reflexivity).
    assert (existsb (Z.eqb 13) (key_name minor accidentals) = true) by (apply existsb_exists; exists 13; auto). congruence.
  - rewrite <- app_assoc. apply ends_app; [|discriminate]. apply ends_in. intros I. apply in_app_or in I as [I|I]; [vm_compute in I; lia|].
    pose proof (calm_hex _ _ (hex_string_form data (proj1 D))) as C. rewrite Forall_forall in C. specialize (C 13 I). unfold calm in C. lia.
  - rewrite <- app_assoc. apply ends_app; [|discriminate]. apply ends_in. intros I. apply in_app_or in I as [I|I]; [vm_compute in I; lia|].
    pose proof (calm_hex _ _ (hex_string_form data (proj1 D))) as C. rewrite Forall_forall in C. specialize (C 13 I). unfold calm in C. lia.
  - apply hex_ends, D.
  - apply hex_ends, D.
Qed.

Lemma spaces_ends : forall m s, ends_ok s -> ends_ok (repeat 32 m ++ s).
Proof.
  intros m s E. destruct s as [|x s]; [|apply ends_app; [exact E|discriminate]]. rewrite app_nil_r. apply calm_ends, calm_spaces.
Qed.

Lemma line_ends : forall env col tk delta n m h1 h2 b, printed env b -> match b with TextEvent _ s => ends_ok s | _ => True end -> line_ok col tk n m h1 h2 ->
  ends_ok (line_of col tk delta n m h1 h2 b).
Proof.
  intros env col tk delta n m h1 h2 b P F (_ & _ & _ & M & _). unfold line_of. rewrite !app_assoc. rewrite <- app_assoc.
  assert (T : body_tag b <> []) by (destruct b; try discriminate; destruct k; discriminate).
  apply ends_app; [|destruct (body_tag b); [congruence|discriminate]].
  assert (C : b = EndOfTrack \/ event_tail b m = repeat 32 m ++ event_details b) by (destruct b; auto).
  destruct C as [-> | ->].
  - apply ends_in. intros I. vm_compute in I. decompose [or] I; try discriminate; contradiction.
  - apply ends_app; [apply spaces_ends; eapply details_ends; eassumption|]. destruct m; [lia|discriminate].
Qed.

(** Blank lines *)
Lemma runes_has : forall s x, In x s -> 0 <= x < 128 -> In [x] (runes s).
Proof.
  intro s. remember (length s) as n eqn:E. assert (L : (length s <= n)%nat) by lia. clear E. revert s L.
  induction n as [|n IH]; intros s L x I X; (destruct s as [|b0 r0]; [contradiction|]); cbn [length] in L; [lia|].
  cbn [runes]. destruct (b0 <? 128) eqn:B0.
  { destruct I as [<-|I]; [left; reflexivity|right; apply IH; [lia|exact I|exact X]]. }
  destruct I as [<-|I]; [lia|].
  destruct r0 as [|b1 r1]; [contradiction|]. destruct (valid2 b0 b1) eqn:V2.
  { right. apply IH; [cbn in L; lia| |exact X]. destruct I as [<-|I]; [unfold valid2, cont in V2; lia|exact I]. }
  destruct r1 as [|b2 r2]; [right; apply IH; [lia|exact I|exact X]|]. destruct (valid3 b0 b1 b2) eqn:V3.
  { right. apply IH; [cbn in L; lia| |exact X]. unfold valid3, cont in V3. destruct I as [<-|[<-|I]]; [destruct (b0 =? 224), (b0 =? 237); lia|lia|exact I]. }
  destruct r2 as [|b3 r3]; [right; apply IH; [lia|exact I|exact X]|]. destruct (valid4 b0 b1 b2 b3) eqn:V4.
  { right. apply IH; [cbn in L; lia| |exact X]. unfold valid4, cont in V4. destruct I as [<-|[<-|[<-|I]]]; [destruct (b0 =? 240), (b0 =? 244); lia|lia|lia|exact I]. }
  right. apply IH; [lia|exact I|exact X].
Qed.

Lemma not_blank : forall s x, In x s -> 33 <= x < 128 -> blank s = false.
Proof.
  intros s x I X. destruct (blank s) eqn:B; [|reflexivity]. unfold blank in B. rewrite forallb_forall in B.
  specialize (B [x] (runes_has s x I ltac:(lia))). apply existsb_exists in B as (w & W & E). apply bytes_eqb_eq in E. subst w.
  unfold white_runes in W. cbn [In] in W. decompose [or] W; try discriminate; try contradiction; match goal with H : [_] = [x] |- _ => injection H as H; lia | H : [x] = [_] |- _ => injection H as H; lia end.
Qed.

Lemma calm_prefix : forall col s, Forall calm col -> has_prefix (str "%%") (col ++ 32 :: s) = false.
Proof.
  intros col s F. change (str "%%") with [37; 37]. destruct col as [|c col]; [reflexivity|]. inversion F as [|? ? C _]; subst. cbn [app has_prefix].
  unfold calm in C. replace (37 =? c) with false by lia. reflexivity.
Qed.

Lemma line_is_event : forall col tk delta n m h1 h2 b, line_ok col tk n m h1 h2 -> is_event_line (line_of col tk delta n m h1 h2 b) = true.
Proof.
  intros col tk delta n m h1 h2 b (C & _). unfold is_event_line. rewrite (not_blank _ 116).
  - unfold line_of. rewrite <- app_assoc. change (str "  tick:") with (32 :: str " tick:"). cbn [app]. rewrite calm_prefix by exact C. reflexivity.
  - unfold line_of. apply in_or_app. left. apply in_or_app. right. apply in_or_app. left. cbn. tauto.
  - lia.
Qed.

(** Chunk tags *)
Lemma line_no_tag : forall env col tk delta n m h1 h2 b, printed env b -> line_ok col tk n m h1 h2 ->
  ~ occurs (str "MThd") (free_text b) -> ~ occurs (str "MTrk") (free_text b) -> ~ tag_line (line_of col tk delta n m h1 h2 b).
Proof.
  intros env col tk delta n m h1 h2 b P L N1 N2 T.
  assert (Q : forall t, In t chunk_words -> occurs t (line_of col tk delta n m h1 h2 b) -> occurs t (free_text b)).
  { intros t I O. apply line_occurs in O; [|apply in_or_app; right; exact I|exact L]. destruct O as [O|O]; [|eapply details_free; [exact P|right; exact I|exact O]].
    exfalso. apply contains_spec in O. assert (F : forallb (fun t => negb (contains (body_tag b) t)) chunk_words = true) by (destruct b; try reflexivity; destruct k; reflexivity).
    rewrite forallb_forall in F. specialize (F t I). rewrite O in F. discriminate. }
  destruct T as [T|T]; [apply N1, Q; [left; reflexivity|exact T]|apply N2, Q; [right; left; reflexivity|exact T]].
Qed.
