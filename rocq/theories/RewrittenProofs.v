(** * RewrittenProofs: the manufacturer table names manufacturers only; contents determine all that is read; files written anew. *)
From Verif Require Import Base Strings Tables SpecVlq Vlq Event SpecEvent SpecPacket SpecKey SpecDecoded SpecHistory Marshal Parse Track File SpecTrack SpecTranspose
  ParseProofs EncodeProofs DecodeProofs FileProofs DecodedProofs NamesProofs SpecNames Cli SpecSameSong SameSongProofs TransposeFileProofs SpecRewritten.

(** ** The manufacturer table *)

(** With the model's own look-up *)
Definition re_body (env : env) (b : body) : body :=
  match b with
  | SequencerSpecific m d => SequencerSpecific (lookup_manufacturer env (m_id m)) d
  | SysExMessage m d single => SysExMessage (lookup_manufacturer env (m_id m)) d single
  | _ => b
  end.
Definition re (env : env) (e : event) : event := Event (e_tick e) (e_delta e) (e_bytes e) (e_status e) (e_type e) (re_body env (e_body e)).

Ltac split_all := repeat match goal with
  | |- context[if ?c then _ else _] => destruct c
  | |- context[match ?d with [] => _ | _ => _ end] => destruct d
  | |- context[match ?d with Some _ => _ | None => _ end] => destruct d
  end; try reflexivity.

Lemma midi_re : forall env tick delta st data raw, unmarshal_midi env tick delta st data raw = omap (re env) (unmarshal_midi (unnamed env) tick delta st data raw).
Proof.
  intros. unfold unmarshal_midi, make_note_off, make_note_on, make_polyphonic_pressure, make_controller, make_program_change, make_channel_pressure, make_pitch_bend. cbv zeta. split_all.
Qed.

Lemma unnamed_id : forall env id, lookup_manufacturer (unnamed env) id = Manufacturer id (str "<unknown>") (str "<unknown>").
Proof. intros env id. unfold lookup_manufacturer, unnamed. cbn [env_manufacturers]. destruct id as [|a [|b [|c [|]]]]; reflexivity. Qed.

Lemma meta_re : forall env tick delta ty data raw, unmarshal_meta env tick delta ty data raw = omap (re env) (unmarshal_meta (unnamed env) tick delta ty data raw).
Proof.
  intros. unfold unmarshal_meta. destruct (text_kind ty); [reflexivity|]. destruct (ty =? 0); [split_all|]. destruct (ty =? 32); [unfold make_channel_prefix; split_all|].
  destruct (ty =? 33); [unfold make_port; split_all|]. destruct (ty =? 47); [reflexivity|]. destruct (ty =? 81); [split_all|].
  destruct (ty =? 84); [unfold unmarshal_smpte, make_smpte_offset; cbv zeta; split_all|].
  destruct (ty =? 88); [destruct data as [|a [|b [|c [|d [|]]]]]; try reflexivity; unfold make_time_signature; destruct (log2_loop _ _ _ _); reflexivity|].
  destruct (ty =? 89); [unfold unmarshal_key, make_key_signature; cbv zeta; split_all|].
  destruct (ty =? 127); [|reflexivity]. unfold unmarshal_seqspec. destruct data as [|a d]; [reflexivity|]. destruct (a =? 0).
  - destruct d as [|b [|c d]]; reflexivity.
  - reflexivity.
Qed.

Lemma sysex_re : forall env tick delta data raw, unmarshal_sysex env tick delta data raw = omap (re env) (unmarshal_sysex (unnamed env) tick delta data raw).
Proof. intros. unfold unmarshal_sysex. destruct data as [|a [|b d]]; try reflexivity. rewrite unnamed_id. destruct (ends_f7 _); reflexivity. Qed.

Lemma new_event_omap : forall f x, new_event (omap f x) = omap f (new_event x).
Proof. intros f [e| | | |]; reflexivity. Qed.

Definition re_parsed (env : env) (x : event * ctx * bytes) : event * ctx * bytes := (re env (fst (fst x)), snd (fst x), snd x).

Lemma parse_re : forall env c tick r, parse env c tick r = omap (re_parsed env) (parse (unnamed env) c tick r).
Proof.
  intros env c tick r. unfold parse. destruct (stream_vlq r) as [[delta r1]| | | |]; try reflexivity. cbn [bind]. destruct r1 as [|b r1]; [reflexivity|].
  destruct (_ && _); [reflexivity|]. cbv zeta. set (status := if b <? 128 then _ else _). set (r2 := if b <? 128 then _ else _). destruct (status =? 255).
  - destruct r2 as [|x r3]; [reflexivity|]. destruct (stream_vlf r3) as [[data rest]| | | |]; try reflexivity. cbn [bind].
    assert (E : forall bs, meta_parse env (tick + delta) bs = omap (re env) (meta_parse (unnamed env) (tick + delta) bs)).
    { intro bs. unfold meta_parse. destruct (slice_vlq bs) as [[dl rem]| | | |]; try reflexivity. cbn [bind]. destruct rem as [|st rm]; [reflexivity|]. destruct (negb _); [reflexivity|].
      destruct rm as [|ty rm]; [reflexivity|]. destruct (slice_vlf rm); try reflexivity. cbn [bind]. apply meta_re. }
    rewrite E, new_event_omap. destruct (new_event _); reflexivity.
  - destruct (_ || _).
    + destruct (stream_vlf r2) as [[data rest]| | | |]; try reflexivity. cbn [bind]. destruct (_ && _); [reflexivity|].
      assert (E : forall bs, sysex_parse env (tick + delta) (c_casio c) bs = omap (re env) (sysex_parse (unnamed env) (tick + delta) (c_casio c) bs)).
      { intro bs. unfold sysex_parse. destruct (slice_vlq bs) as [[dl rem]| | | |]; try reflexivity. cbn [bind]. destruct rem as [|st rm]; [reflexivity|]. destruct (negb _); [reflexivity|].
        destruct (slice_vlf rm) as [dat| | | |]; try reflexivity. cbn [bind]. destruct (st =? 240); [apply sysex_re|]. destruct (c_casio c); [|reflexivity].
        unfold unmarshal_continuation. destruct dat; reflexivity. }
      rewrite E. destruct (sysex_parse (unnamed env) _ _ _); reflexivity.
    + destruct (_ <? _)%nat; [reflexivity|].
      assert (E : forall bs, midi_parse env (tick + delta) (c_running c) bs = omap (re env) (midi_parse (unnamed env) (tick + delta) (c_running c) bs)).
      { intro bs. unfold midi_parse. destruct (slice_vlq bs) as [[dl rem]| | | |]; try reflexivity. cbn [bind]. destruct rem as [|b0 rm]; [reflexivity|]. destruct (b0 <? 128); apply midi_re. }
      rewrite E, new_event_omap. destruct (new_event _); reflexivity.
Qed.

Lemma post_re : forall env c e, post_process env c (re env e) = (re env (fst (post_process (unnamed env) c e)), snd (post_process (unnamed env) c e)).
Proof.
  intros env c [t d bs st ty b]. unfold post_process, re. cbn [e_body e_tick e_delta e_bytes e_status e_type]. destruct b; try reflexivity.
  cbn [re_body]. destruct (c_id c0 =? 0); [reflexivity|]. destruct (c_id c0 =? 32); reflexivity.
Qed.

Definition re_events (env : env) (x : list event * ctx) : list event * ctx := (map (re env) (fst x), snd x).

Lemma loop_re : forall fuel env c tick r, events_loop fuel env c tick r = omap (re_events env) (events_loop fuel (unnamed env) c tick r).
Proof.
  induction fuel as [|fuel IH]; intros env c tick r; [reflexivity|]. cbn [events_loop]. rewrite parse_re.
  destruct (parse (unnamed env) c tick r) as [[[e c1] rest]| | | |]; try reflexivity. cbn [omap bind re_parsed fst snd]. rewrite post_re.
  destruct (post_process (unnamed env) c1 e) as [e' c2]. cbn [fst snd]. change (e_delta (re env e)) with (e_delta e). rewrite IH.
  destruct (events_loop fuel (unnamed env) c2 _ rest) as [[es c3]| | | |]; reflexivity.
Qed.

Definition re_track (env : env) (t : mtrk) : mtrk := MTrk (t_tag t) (t_number t) (t_length t) (t_bytes t) (map (re env) (t_events t)) (t_ctx t).
Definition re_file (env : env) (s : smf) : smf := SMF (f_mthd s) (map (re_track env) (f_tracks s)).

Lemma mtrk_re : forall env n c w, unmarshal_mtrk env n c w = omap (re_track env) (unmarshal_mtrk (unnamed env) n c w).
Proof.
  intros env n c w. unfold unmarshal_mtrk. destruct w as [|a0 [|a1 [|a2 [|a3 [|a4 [|a5 [|a6 [|a7 r]]]]]]]]; try reflexivity; destruct (negb _); try reflexivity.
  unfold decode_events. rewrite loop_re. destruct (events_loop _ (unnamed env) _ _ _) as [[es c']| | | |]; reflexivity.
Qed.

Lemma tracks_re : forall env ws n, decode_tracks env n ws = omap (map (re_track env)) (decode_tracks (unnamed env) n ws).
Proof.
  intros env. induction ws as [|w ws IH]; intro n; [reflexivity|]. cbn [decode_tracks]. destruct (bytes_eqb _ _); [|apply IH]. rewrite mtrk_re, IH.
  destruct (unmarshal_mtrk (unnamed env) n new_context w); try reflexivity. cbn [omap bind]. destruct (decode_tracks (unnamed env) (n + 1) ws); reflexivity.
Qed.

Lemma decode_re : forall env r, decode env r = omap (re_file env) (decode (unnamed env) r).
Proof.
  intros env r. unfold decode. destruct (chunks r) as [cs| | | |]; try reflexivity. cbn [bind]. destruct cs as [|c cs]; [reflexivity|].
  destruct (unmarshal_mthd c) as [h| | | |]; try reflexivity. cbn [bind]. rewrite tracks_re. destruct (decode_tracks (unnamed env) 0 cs) as [ts| | | |]; try reflexivity.
  cbn [omap bind]. unfold zlen. rewrite map_length. destruct (_ =? _); reflexivity.
Qed.

(** The look-up is that of the specification. *)
Lemma find_assocb : forall A k (l : list (bytes * A)), find (fun entry => bytes_eqb (fst entry) k) l = match assocb k l with Some m => Some (k, m) | None => None end.
Proof.
  intros A k l. induction l as [|[x m] l IH]; [reflexivity|]. cbn [find assocb fst]. destruct (bytes_eqb x k) eqn:E.
  - apply bytes_eqb_eq in E. subst. rewrite bytes_eqb_refl. reflexivity.
  - destruct (bytes_eqb k x) eqn:F; [|exact IH]. apply bytes_eqb_eq in F. subst. rewrite bytes_eqb_refl in E. discriminate E.
Qed.

Lemma filed_lookup : forall env id, is_bytes id -> length id = 1%nat \/ length id = 3%nat -> filed env id = lookup_manufacturer env id.
Proof.
  intros env id B L. unfold filed. rewrite find_assocb. destruct id as [|a [|b [|c [|]]]]; cbn [length] in L; try lia; unfold lookup_manufacturer, id_key.
  - rewrite hex2_byte by (apply (Forall_inv B)). destruct (assocb _ _); reflexivity.
  - rewrite !hex2_byte by (try apply (Forall_inv (Forall_inv_tail B)); apply (Forall_inv (Forall_inv_tail (Forall_inv_tail B)))). destruct (assocb _ _); reflexivity.
Qed.

Lemma named_re : forall env e, decoded_body (unnamed env) (e_body e) -> re env e = named_event env e.
Proof.
  intros env e D. unfold re, named_event. f_equal. destruct (e_body e); try reflexivity; cbn [re_body named_body decoded_body] in *.
  - destruct D as (_ & id & B & W & ->). rewrite unnamed_id. cbn [m_id]. rewrite filed_lookup; [reflexivity|exact B|]. destruct W; cbn [length]; auto.
  - destruct D as (_ & id & B & ->). rewrite unnamed_id. cbn [m_id]. rewrite filed_lookup; [reflexivity|constructor; [exact B|constructor]|left; reflexivity].
Qed.

Theorem table_names : forall env r, is_bytes r -> decode env r = omap (named_file env) (decode (unnamed env) r).
Proof.
  intros env r B. rewrite decode_re. destruct (decode (unnamed env) r) as [w| | | |] eqn:E; try reflexivity. cbn [omap bind]. f_equal. unfold re_file, named_file. f_equal.
  pose proof (decoded_file (unnamed env) r w B E) as F. apply map_ext_in. intros t I. rewrite Forall_forall in F. destruct (F t I) as (_ & _ & G). unfold re_track, named_track. f_equal.
  apply map_ext_in. intros e J. rewrite Forall_forall in G. apply named_re. apply (G e J).
Qed.

(** ** Contents determine the rest *)

(** Status bytes of channel messages (for the others see [legal_header]) *)
Definition chan_header (e : event) : Prop :=
  match e_body e with
  | NoteOff ch _ _ => e_status e = Z.lor 128 ch /\ e_type e = 0
  | NoteOn ch _ _ => e_status e = Z.lor 144 ch /\ e_type e = 0
  | PolyphonicPressure ch _ => e_status e = or_status 160 ch /\ e_type e = 0
  | Controller ch _ _ => e_status e = or_status 176 ch /\ e_type e = 0
  | ProgramChange ch _ _ => e_status e = or_status 192 ch /\ e_type e = 0
  | ChannelPressure ch _ => e_status e = or_status 208 ch /\ e_type e = 0
  | PitchBend ch _ => e_status e = Z.lor 224 ch /\ e_type e = 0
  | SysExMessage _ _ _ | SysExContinuation _ _ | SysExEscape _ => e_type e = 0
  | _ => True
  end.

Lemma midi_chan : forall env tick delta st data raw e, unmarshal_midi env tick delta st data raw = Ok e -> chan_header e.
Proof.
  intros env tick delta st data raw e H. unfold unmarshal_midi, make_note_off, make_note_on, make_polyphonic_pressure, make_controller, make_program_change, make_channel_pressure, make_pitch_bend in H.
  break H; try discriminate; injection H as <-; split; reflexivity.
Qed.

Lemma meta_chan : forall env tick delta ty data raw e, unmarshal_meta env tick delta ty data raw = Ok e -> chan_header e.
Proof.
  intros env tick delta ty data raw e H. unfold unmarshal_meta in H.
  destruct (text_kind ty) as [k|]; [injection H as <-; exact I|].
  destruct (ty =? 0); [break H; try discriminate; injection H as <-; exact I|].
  destruct (ty =? 32); [unfold make_channel_prefix in H; break H; try discriminate; injection H as <-; exact I|].
  destruct (ty =? 33); [unfold make_port in H; break H; try discriminate; injection H as <-; exact I|].
  destruct (ty =? 47); [injection H as <-; exact I|].
  destruct (ty =? 81); [break H; try discriminate; injection H as <-; exact I|].
  destruct (ty =? 84); [unfold unmarshal_smpte, make_smpte_offset in H; cbv zeta in H; break H; try discriminate; injection H as <-; exact I|].
  destruct (ty =? 88).
  { destruct data as [|a [|b [|c [|d [|]]]]]; try discriminate. unfold make_time_signature in H. destruct (log2_loop _ _ _ _); try discriminate. injection H as <-. exact I. }
  destruct (ty =? 89); [unfold unmarshal_key, make_key_signature in H; cbv zeta in H; break H; try discriminate; injection H as <-; exact I|].
  destruct (ty =? 127); [unfold unmarshal_seqspec in H; break H; try discriminate; injection H as <-; exact I|].
  discriminate.
Qed.

(** What of the context bears on the events that follow, beside running status and unfinished messages *)
Definition core (c : ctx) : bool * list (Z * Z) * list (Z * bytes) := (c_flats c, c_bank c, c_notes c).

Lemma packet_more : forall env c tick delta k raw e c', read_packet env c tick delta k raw = Ok (e, c') -> chan_header e /\ core c' = core c.
Proof.
  intros env c tick delta k raw e c' H. destruct k as [st data|ty data|st data]; cbn [read_packet] in H.
  - destruct (new_event _) as [x| | | |] eqn:E; try discriminate. cbn [bind] in H. apply Ok_inj, pair_equal_spec in H as [<- <-]. apply new_event_inv in E.
    split; [eapply midi_chan, E|reflexivity].
  - destruct (new_event _) as [x| | | |] eqn:E; try discriminate. cbn [bind] in H. apply Ok_inj, pair_equal_spec in H as [<- <-]. apply new_event_inv in E.
    split; [eapply meta_chan, E|reflexivity].
  - destruct (st =? 240).
    + destruct (c_casio c); [discriminate|]. unfold unmarshal_sysex in H. destruct data as [|a [|b d]]; try discriminate.
      destruct (ends_f7 _); cbn [bind] in H; apply Ok_inj, pair_equal_spec in H as [<- <-]; split; reflexivity.
    + unfold unmarshal_continuation in H. destruct (c_casio c); [destruct data|]; cbn [bind] in H; apply Ok_inj, pair_equal_spec in H as [<- <-]; split; reflexivity.
Qed.

Lemma core_eq : forall c c', core c = core c' -> c_flats c = c_flats c' /\ c_bank c = c_bank c' /\ c_notes c = c_notes c'.
Proof. intros c c' H. unfold core in H. apply pair_equal_spec in H as [H ->]. apply pair_equal_spec in H as [-> ->]. auto. Qed.

(** A manufacturer ID in front of data can be split off again. *)
Lemma wire_split : forall a b x y, wire_id a -> wire_id b -> a ++ x = b ++ y -> a = b /\ x = y.
Proof.
  intros a b x y A B E. destruct A as [a A|p q P Q], B as [b B|p' q' P' Q']; cbn [app] in E.
  - injection E as <- <-. auto.
  - injection E as E _. lia.
  - injection E as E _. lia.
  - injection E as <- <- <-. auto.
Qed.

Lemma step_same : forall env c c' e e' x d x' d', decoded_body (unnamed env) (e_body e) -> decoded_body (unnamed env) (e_body e') ->
  legal_header e -> legal_header e' -> chan_header e -> chan_header e' -> e_tick e = e_tick e' -> ev_view e = ev_view e' -> core c = core c' ->
  post_process (unnamed env) c e = (x, d) -> post_process (unnamed env) c' e' = (x', d') -> no_bytes x = no_bytes x' /\ core d = core d'.
Proof.
  intros env c c' [t dl bs st ty b] [t' dl' bs' st' ty' b'] x d x' d' D D' L L' C C' T V K P P'.
  unfold ev_view in V. cbn [e_tick e_delta e_body] in *. subst t'. apply pair_equal_spec in V as [<- V]. destruct (core_eq c c' K) as (K1 & K2 & K3).
  unfold post_process in P, P'. unfold legal_header, chan_header in *. cbn [e_body e_status e_type] in *.
  destruct b, b'; cbn [view] in V; try discriminate V; cbn [decoded_body] in D, D';
  try (injection V as V1 V2 V3 V4 V5 V6; subst); try (injection V as V1 V2 V3 V4; subst); try (injection V as V1 V2 V3; subst); try (injection V as V1 V2; subst); try (injection V as V1; subst);
  repeat match goal with H : _ /\ _ |- _ => destruct H end; subst;
  try (apply pair_equal_spec in P as [<- <-]; apply pair_equal_spec in P' as [<- <-]; split; [reflexivity|exact K]; fail).
  - apply pair_equal_spec in P as [<- <-]. apply pair_equal_spec in P' as [<- <-]. split; [|exact K]. unfold no_bytes, with_body, get_note_off. cbn [e_tick e_delta e_status e_type e_body].
    rewrite K1, K3, V2. reflexivity.
  - apply pair_equal_spec in P as [<- <-]. apply pair_equal_spec in P' as [<- <-]. unfold no_bytes, with_body, core, put_note_on.
    cbn [e_tick e_delta e_status e_type e_body c_flats c_bank c_notes]. rewrite K1, K2, K3, V2. split; reflexivity.
  - match goal with X : exists id, _ /\ ?a = _, Y : exists id, _ /\ ?b = _ |- _ => destruct X as (i & I1 & ->), Y as (j & J1 & ->) end.
    rewrite !lookup_controller_id in V2 by assumption. subst j. rewrite lookup_controller_id in P, P' by assumption.
    assert (G : get_bank c ch0 = get_bank c' ch0) by (unfold get_bank; rewrite K2; reflexivity). rewrite G in P.
    destruct (i =? 0); [|destruct (i =? 32)]; apply pair_equal_spec in P as [<- <-]; apply pair_equal_spec in P' as [<- <-]; (split; [reflexivity|]);
      unfold core, set_bank; cbn [c_flats c_bank c_notes]; rewrite K1, K2, K3; reflexivity.
  - apply pair_equal_spec in P as [<- <-]. apply pair_equal_spec in P' as [<- <-]. split; [|exact K]. unfold no_bytes, with_body, get_bank. cbn [e_tick e_delta e_status e_type e_body]. rewrite K2. reflexivity.
  - match goal with X : exists minor : bool, _, Y : exists minor : bool, _ |- _ => destruct X as (m & M1 & ->), Y as (m' & M1' & ->) end.
    assert (m = m') by (destruct m, m'; congruence). subst m'.
    apply pair_equal_spec in P as [<- <-]. apply pair_equal_spec in P' as [<- <-]. split; [reflexivity|]. unfold core, use_scale. cbn [c_flats c_bank c_notes]. rewrite K2, K3. reflexivity.
  - match goal with X : exists id, _, Y : exists id, _ |- _ => destruct X as (i & _ & I2 & ->), Y as (j & _ & J2 & ->) end. rewrite !unnamed_id in *. cbn [m_id] in *.
    destruct (wire_split _ _ _ _ I2 J2 V1) as [-> ->]. apply pair_equal_spec in P as [<- <-]. apply pair_equal_spec in P' as [<- <-]. split; [reflexivity|exact K].
  - match goal with X : exists id, _, Y : exists id, _ |- _ => destruct X as (i & _ & ->), Y as (j & _ & ->) end. rewrite !unnamed_id in *. cbn [m_id app] in *.
    injection V1 as <- <-. apply pair_equal_spec in P as [<- <-]. apply pair_equal_spec in P' as [<- <-]. split; [reflexivity|exact K].
Qed.

Lemma loop_same : forall n env c c' tick r r' es es' c1 c1', (length r <= n)%nat -> is_bytes r -> is_bytes r' -> ctx_ok c -> ctx_ok c' -> core c = core c' ->
  loop_from (unnamed env) c tick r = Ok (es, c1) -> loop_from (unnamed env) c' tick r' = Ok (es', c1') -> map ev_view es = map ev_view es' ->
  map no_bytes es = map no_bytes es'.
Proof.
  induction n as [|n IH]; intros env c c' tick r r' es es' c1 c1' Hn B B' O1 O2 K H H' V.
  - destruct r; [|cbn in Hn; lia]. rewrite loop_from_eq, parse_nil in H. apply Ok_inj, pair_equal_spec in H as [<- _]. destruct es'; [reflexivity|discriminate V].
  - rewrite loop_from_eq in H. rewrite loop_from_eq in H'.
    destruct (parse (unnamed env) c tick r) as [[[e d1] rest]| | | |] eqn:E; try discriminate H.
    2:{ apply Ok_inj, pair_equal_spec in H as [<- _]. destruct es'; [reflexivity|discriminate V]. }
    destruct (post_process (unnamed env) d1 e) as [x d2] eqn:P.
    destruct (loop_from (unnamed env) d2 _ rest) as [[es1 d3]| | | |] eqn:L; try discriminate H. cbn [bind] in H. apply Ok_inj, pair_equal_spec in H as [<- _].
    destruct (parse (unnamed env) c' tick r') as [[[e' d1'] rest']| | | |] eqn:E'; try discriminate H'.
    2:{ apply Ok_inj, pair_equal_spec in H' as [<- _]. discriminate V. }
    destruct (post_process (unnamed env) d1' e') as [x' d2'] eqn:P'.
    destruct (loop_from (unnamed env) d2' _ rest') as [[es1' d3']| | | |] eqn:L'; try discriminate H'. cbn [bind] in H'. apply Ok_inj, pair_equal_spec in H' as [<- _].
    pose proof (parse_shorter _ _ _ _ _ _ _ E) as Hlt.
    destruct (parse_header _ _ _ _ _ _ _ E) as [LH _]. destruct (parse_header _ _ _ _ _ _ _ E') as [LH' _].
    destruct (parse_inv _ _ _ _ _ _ _ B O1 E) as (p & delta & k & -> & Hs & HR & (T1 & T2 & _) & Oc).
    destruct (parse_inv _ _ _ _ _ _ _ B' O2 E') as (p' & delta' & k' & -> & Hs' & HR' & (T1' & T2' & _) & Oc').
    apply is_bytes_app in B as [Bp B]. apply is_bytes_app in B' as [Bp' B'].
    destruct (read_packet_ranges _ _ _ _ _ _ _ _ _ Hs Bp O1 HR) as [D _]. destruct (read_packet_ranges _ _ _ _ _ _ _ _ _ Hs' Bp' O2 HR') as [D' _].
    destruct (packet_more _ _ _ _ _ _ _ _ HR) as [C K1]. destruct (packet_more _ _ _ _ _ _ _ _ HR') as [C' K1'].
    destruct (post_process_view _ _ _ _ _ P) as (W & _ & _ & _ & _ & _ & Q & _). destruct (post_process_view _ _ _ _ _ P') as (W' & _ & _ & _ & _ & _ & Q' & _).
    cbn [map] in V. apply (f_equal (fun l => (hd (ev_view x) l, tl l))) in V. apply pair_equal_spec in V as [V1 V2]. cbn [hd tl] in V1, V2. rewrite W, W' in V1.
    assert (DE : delta = delta') by (unfold ev_view in V1; apply pair_equal_spec in V1 as [V1 _]; congruence). rewrite <- DE in T1', T2'.
    destruct (step_same env d1 d1' e e' x d2 x' d2') as [X K2]; auto; [congruence|congruence|].
    cbn [map]. rewrite X. f_equal. rewrite T2 in L. rewrite T2' in L'.
    eapply (IH env d2 d2' _ rest rest'); try eassumption; [lia|unfold ctx_ok in *; rewrite Q; exact Oc|unfold ctx_ok in *; rewrite Q'; exact Oc'].
Qed.

(** Tracks as they come out of the reader *)
Inductive from_bodies (env : env) : Z -> list mtrk -> Prop :=
| fb_nil : forall n, from_bodies env n []
| fb_cons : forall n len raw es c body ts, is_bytes body -> loop_from env new_context 0 body = Ok (es, c) -> from_bodies env (n + 1) ts ->
    from_bodies env n (MTrk (str "MTrk") n len raw es (Some c) :: ts).

Lemma bodies : forall env ws n ts, Forall is_bytes ws -> decode_tracks env n ws = Ok ts -> from_bodies env n ts.
Proof.
  intros env. induction ws as [|w ws IH]; intros n ts B H; cbn [decode_tracks] in H.
  - apply Ok_inj in H. subst. constructor.
  - inversion B as [|? ? B1 B2]; subst. destruct (bytes_eqb _ _); [|apply IH; assumption].
    destruct (unmarshal_mtrk env n new_context w) as [t| | | |] eqn:E; try discriminate H. cbn [bind] in H.
    destruct (decode_tracks env (n + 1) ws) as [ts'| | | |] eqn:E'; try discriminate H. cbn [bind] in H. apply Ok_inj in H. subst ts.
    unfold unmarshal_mtrk in E. destruct w as [|a0 [|a1 [|a2 [|a3 [|a4 [|a5 [|a6 [|a7 r]]]]]]]]; try discriminate E; destruct (negb _); try discriminate E.
    rewrite decode_events_eq in E. destruct (loop_from env new_context 0 r) as [[es c]| | | |] eqn:L; try discriminate E. cbn [bind] in E. apply Ok_inj in E. subst t.
    apply (fb_cons env n _ _ es c r); [|exact L|apply IH; assumption]. repeat (apply Forall_inv_tail in B1). exact B1.
Qed.

Lemma bodies_same : forall env n ts ts', from_bodies (unnamed env) n ts -> from_bodies (unnamed env) n ts' ->
  map (fun t => map ev_view (t_events t)) ts = map (fun t => map ev_view (t_events t)) ts' -> map track_gist ts = map track_gist ts'.
Proof.
  intros env n ts ts' F. revert ts'. induction F as [n|n len raw es c body ts B L F IH]; intros ts' F' E; inversion F' as [|? len' raw' es' c' body' ts1 B' L' F1]; subst; try discriminate E; [reflexivity|].
  cbn [map t_events] in E. apply (f_equal (fun l => (hd [] l, tl l))) in E. apply pair_equal_spec in E as [E1 E2]. cbn [hd tl] in E1, E2. cbn [map]. f_equal; [|apply IH; assumption].
  unfold track_gist. cbn [t_tag t_number t_events t_ctx option_map]. f_equal.
  eapply (loop_same (length body) env new_context new_context 0 body body'); try eassumption; try reflexivity; try (left; reflexivity).
Qed.

Lemma header_same : forall env r r' w w' h h', is_bytes r -> is_bytes r' -> decode env r = Ok w -> decode env r' = Ok w' -> f_mthd w = Some h -> f_mthd w' = Some h' -> same_header h h' -> h = h'.
Proof.
  intros env r r' w w' h h' B B' D D' H H' (S1 & S2 & S3 & S4 & S5).
  assert (X : forall r w h, is_bytes r -> decode env r = Ok w -> f_mthd w = Some h -> unmarshal_mthd (marshal_mthd h) = Ok h).
  { clear. intros r w h B D H. unfold decode in D. rewrite chunks_eq in D. destruct (next_chunk r) as [[c rest]| | | |] eqn:N; try discriminate D. cbn [bind] in D.
    destruct (chunks rest) as [cs| | | |]; try discriminate D. cbn [bind] in D. destruct (unmarshal_mthd c) as [h0| | | |] eqn:U; try discriminate D. cbn [bind] in D.
    destruct (decode_tracks env 0 cs) as [ts| | | |]; try discriminate D. cbn [bind] in D. destruct (_ =? _); [|discriminate D]. apply Ok_inj in D. subst w. cbn [f_mthd] in H.
    injection H as <-. destruct (header_exact r c rest B N) as (_ & X & _). destruct (X h0 U) as [-> _]. exact U. }
  pose proof (X r w h B D H) as U. pose proof (X r' w' h' B' D' H') as U'.
  replace (marshal_mthd h') with (marshal_mthd h) in U' by (unfold marshal_mthd; rewrite S1, S2, S3, S4, S5; reflexivity). congruence.
Qed.

Lemma contents_gist : forall env r r' w w' h h', is_bytes r -> is_bytes r' -> decode (unnamed env) r = Ok w -> decode (unnamed env) r' = Ok w' ->
  f_mthd w = Some h -> f_mthd w' = Some h' -> same_header h h' -> smf_contents w = smf_contents w' -> same_gist w w'.
Proof.
  intros env r r' w w' h h' B B' D D' H H' SH E. split; [rewrite H, H'; f_equal; apply (header_same (unnamed env) r r' w w'); assumption|].
  assert (X : forall r w, is_bytes r -> decode (unnamed env) r = Ok w -> from_bodies (unnamed env) 0 (f_tracks w)).
  { clear. intros r w B D. unfold decode in D. destruct (chunks r) as [cs| | | |] eqn:C; try discriminate D. cbn [bind] in D.
    pose proof (chunks_bytes (length r) r cs (le_n _) B C) as F. destruct cs as [|c cs]; [discriminate D|]. destruct (unmarshal_mthd c) as [h| | | |]; try discriminate D. cbn [bind] in D.
    destruct (decode_tracks (unnamed env) 0 cs) as [ts| | | |] eqn:T; try discriminate D. cbn [bind] in D. destruct (_ =? _); [|discriminate D]. apply Ok_inj in D. subst w. cbn [f_tracks].
    eapply bodies; [|exact T]. exact (Forall_inv_tail F). }
  apply (bodies_same env 0); [exact (X r w B D)|exact (X r' w' B' D')|exact E].
Qed.

Lemma gist_re : forall env w w', same_gist w w' -> same_gist (re_file env w) (re_file env w').
Proof.
  intros env w w' [H T]. split; [exact H|]. cbn [re_file f_tracks]. revert T. generalize (f_tracks w) (f_tracks w'). clear H w w'.
  induction l as [|t ts IH]; intros [|t' ts'] T; try discriminate T; [reflexivity|]. cbn [map] in *. injection T as T1 T2 T3 T4 T5. rewrite (IH ts' T5). f_equal.
  unfold track_gist, re_track. cbn [t_tag t_number t_events t_ctx]. rewrite T1, T2, T4. f_equal. rewrite !map_map.
  transitivity (map (re env) (map no_bytes (t_events t))); [rewrite map_map; reflexivity|]. rewrite T3. rewrite map_map. reflexivity.
Qed.

Theorem contents_read : forall env r r', is_bytes r -> is_bytes r' -> same_contents env r r' ->
  exists s s', decode env r = Ok s /\ decode env r' = Ok s' /\ same_gist s s'.
Proof.
  intros env r r' B B' (w & w' & h & h' & D & D' & H & H' & SH & E). exists (re_file env w), (re_file env w'). rewrite (decode_re env r), D, (decode_re env r'), D'.
  split; [reflexivity|]. split; [reflexivity|]. apply gist_re. apply (contents_gist env r r' w w' h h'); assumption.
Qed.

(** ** Written anew *)

Lemma marshal_re : forall env e, decoded_body (unnamed env) (e_body e) -> ids_faithful env (view (e_body e)) -> marshal (re env e) = marshal e.
Proof.
  intros env [t dl bs st ty b] D F. unfold re, marshal. cbn [e_body e_status e_type] in *. destruct b; try reflexivity; cbn [re_body decoded_body view ids_faithful] in *.
  - destruct D as (_ & id & B & W & ->). rewrite unnamed_id in *. cbn [m_id] in *.
    assert (E : seqspec_id (id ++ data) = id).
    { destruct W as [a A|p q P Q]; cbn [app]; [|reflexivity]. unfold seqspec_id. destruct a as [|a|a]; try lia. reflexivity. }
    rewrite E in F. rewrite (lookup_manufacturer_id env id B F). reflexivity.
  - destruct D as (_ & id & B & ->). rewrite unnamed_id in *. cbn [m_id] in *.
    rewrite (lookup_manufacturer_id env [id]); [reflexivity|constructor; [exact B|constructor]|exact F].
Qed.

Lemma encode_re : forall env r w, is_bytes r -> decode (unnamed env) r = Ok w -> Forall (fun t => faithful_events env (t_events t)) (f_tracks w) -> encode (re_file env w) = encode w.
Proof.
  intros env r w B D F. pose proof (decoded_file (unnamed env) r w B D) as G. unfold encode, re_file, zlen. cbn [f_mthd f_tracks]. rewrite map_length.
  assert (E : encode_tracks (map (re_track env) (f_tracks w)) = encode_tracks (f_tracks w)); [|rewrite E; reflexivity].
  clear D B. revert F G. generalize (f_tracks w). induction l as [|t ts IH]; intros F G; [reflexivity|]. inversion F as [|? ? F1 F2]; inversion G as [|? ? (_ & _ & G1) G2]; subst.
  cbn [map encode_tracks]. rewrite (IH F2 G2). f_equal. unfold encode_mtrk, re_track. cbn [t_events t_tag].
  assert (E : marshal_events (map (re env) (t_events t)) = marshal_events (t_events t)); [|rewrite E; reflexivity].
  clear - F1 G1. unfold faithful_events in F1. revert F1 G1. induction (t_events t) as [|e es IH]; intros F G; [reflexivity|]. inversion F as [|? ? F1 F2]; inversion G as [|? ? (_ & _ & G1) G2]; subst.
  cbn [map marshal_events]. rewrite (marshal_re env e G1 F1), (IH F2 G2). reflexivity.
Qed.

Lemma rewritten_contents : forall env r r', is_bytes r -> rewritten env r r' -> is_bytes r' /\ same_contents env r r'.
Proof.
  intros env r r' B (w & s & D & L & F & DS & E & Z). rewrite decode_re, D in DS. cbn [omap bind] in DS. apply Ok_inj in DS. subst s. rewrite (encode_re env r w B D F) in E.
  split; [eapply encode_bytes; eassumption|]. assert (exists h, f_mthd w = Some h) as [h H] by (destruct L as [L _]; destruct (f_mthd w); [eauto|contradiction]).
  destruct (file_roundtrip (unnamed env) w h r' L H) as (w' & h' & D' & H' & SH & C); auto.
  { apply Forall_forall. intros t _. apply Forall_forall. intros e _. unfold ids_faithful, id_faithful. destruct (view (e_body e)); try exact I; intros m []. }
  exists w, w', h, h'. repeat split; auto; try apply SH. unfold smf_contents. rewrite C. destruct (decode_headers _ _ _ D) as [_ G]. apply map_ext_in. intros t T. rewrite Forall_forall in G.
  destruct (G t T) as [_ X]. symmetry. apply contents_open. eapply Forall_impl; [|exact X]. intros e [_ Y]. exact Y.
Qed.

Theorem rewritten_read : forall env r r', is_bytes r -> rewritten env r r' -> exists s s', decode env r = Ok s /\ decode env r' = Ok s' /\ same_gist s s'.
Proof. intros env r r' B H. destruct (rewritten_contents env r r' B H) as [B' S]. apply contents_read; assumption. Qed.

Theorem rewritten_runs : forall w d d' n args, disks_rewritten d d' -> In n (map str ["transpose"; "notes"; "click"; "export"; "tsv"; "humanise"]%string) ->
  run_rewritten (run w d (n :: args)) (run w d' (n :: args)).
Proof.
  intros w d d' n args H I. apply (gist_runs (fun r r' => is_bytes r /\ forall c4, rewritten (Env c4 manufacturers) r r')); [|exact H|exact I].
  intros c4 r r' [B R]. destruct (rewritten_read _ r r' B (R c4)) as (s & s' & -> & -> & G). exact G.
Qed.
