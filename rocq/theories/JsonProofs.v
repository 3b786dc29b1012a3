(** * JsonProofs: events and files through JSON. *)
From Verif Require Import Base Strings Tables Event Track File SpecVlq SpecText SpecEvent SpecTrack SpecDecoded SpecAssemble SpecRead SpecJson SpecKey Utf8 Utf8Proofs Hex Manufacturer Regex Assemble TextAssemble Json
  AssembleProofs DecodedProofs EventProofs ParseProofs.

Lemma each_ints : forall hi l, Forall (fun n => 0 <= n <= hi) l -> each (read_int 0 hi 0) (map JNum l) = Ok l.
Proof.
  intros hi l H. induction H as [|n l N _ IH]; [reflexivity|]. cbn [map each read_int]. replace ((0 <=? n) && (n <=? hi)) with true by lia. cbn [bind]. rewrite IH. reflexivity.
Qed.

Lemma bytes_small : forall l, is_bytes l -> Forall (fun n => 0 <= n <= max_uint) l.
Proof. intros l H. eapply Forall_impl; [|exact H]. unfold is_byte, max_uint. cbn beta. lia. Qed.

Lemma map_mod : forall l, is_bytes l -> map (fun n => n mod 256) l = l.
Proof. intros l H. induction H as [|n l N _ IH]; [reflexivity|]. cbn [map]. rewrite IH. unfold is_byte in N. rewrite Z.mod_small by lia. reflexivity. Qed.

Lemma read_hex_back : forall a l, is_bytes l -> read_hex a (jhex l) = Ok l.
Proof.
  intros a l H. unfold read_hex, jhex, hex_to_json. cbn [elements bind]. rewrite each_ints by (apply bytes_small, H). cbn [bind]. unfold hex_of_json.
  replace (forallb _ l) with true; [rewrite map_mod by exact H; reflexivity|]. symmetry. apply forallb_forall. intros n I. unfold is_bytes in H. rewrite Forall_forall in H.
  specialize (H n I). unfold is_byte in H. lia.
Qed.

Lemma field_hit : forall A n k (f : A -> json -> outcome A) a v r, names n k = true -> field n f a ((k, v) :: r) = (do a' <- f a v; field n f a' r).
Proof. intros A n k f a v r H. cbn [field]. rewrite H. reflexivity. Qed.
Lemma field_miss : forall A n k (f : A -> json -> outcome A) a v r, names n k = false -> field n f a ((k, v) :: r) = field n f a r.
Proof. intros A n k f a v r H. cbn [field]. rewrite H. reflexivity. Qed.
Lemma field_none : forall A n (f : A -> json -> outcome A) a, field n f a [] = Ok a.
Proof. reflexivity. Qed.

Ltac keys := repeat first [rewrite field_hit by (vm_compute; reflexivity); cbn [bind] | rewrite field_miss by (vm_compute; reflexivity) | rewrite field_none; cbn [bind]].

Lemma read_manufacturer_back : forall env a m, is_bytes (m_id m) -> read_manufacturer env a (jmanufacturer m) = Ok (lookup_manufacturer env (m_id m)).
Proof.
  intros env a m H. unfold read_manufacturer, jmanufacturer, jmanufacturer_with. cbn [object bind]. keys. cbn [elements bind]. rewrite each_ints by (apply bytes_small, H).
  cbn [bind]. keys. rewrite map_mod by exact H. reflexivity.
Qed.

Lemma read_note_back : forall a n, 0 <= n_value n <= 255 -> exists x y, read_note a (jnote n) = Ok (Note (n_value n) x y).
Proof.
  intros a n H. unfold read_note, jnote, jnote_with. cbn [object bind]. keys. cbn [read_int]. replace ((0 <=? n_value n) && (n_value n <=? 255)) with true by lia.
  cbn [bind]. keys. repeat (cbn [bind read_string jstring]; keys). eauto.
Qed.

Lemma read_controller_back : forall a c, 0 <= c_id c <= 255 -> exists x, read_controller a (jcontroller c) = Ok (MkController (c_id c) x).
Proof.
  intros a c H. unfold read_controller, jcontroller, jcontroller_with. cbn [object bind]. keys. cbn [read_int]. replace ((0 <=? c_id c) && (c_id c <=? 255)) with true by lia.
  cbn [bind]. keys. repeat (cbn [bind read_string jstring]; keys). eauto.
Qed.

Lemma read_int_back : forall lo hi a n, lo <= n <= hi -> read_int lo hi a (JNum n) = Ok n.
Proof. intros lo hi a n H. cbn [read_int]. replace ((lo <=? n) && (n <=? hi)) with true by lia. reflexivity. Qed.

Lemma read_channel_back : forall a c, 0 <= c < 16 -> read_channel a (JNum c) = Ok c.
Proof. intros a c H. unfold read_channel. rewrite read_int_back by (unfold max_uint; lia). cbn [bind]. replace (15 <? c) with false by lia. reflexivity. Qed.

(** ** Manufacturers are found again by their own ID *)
Definition own_id (env : env) (m : manufacturer) : Prop := is_bytes (m_id m) /\ m_id (lookup_manufacturer env (m_id m)) = m_id m.

Lemma own_known : forall env id, is_bytes id -> m_id (lookup_manufacturer env id) = id -> own_id env (lookup_manufacturer env id).
Proof. intros env id B H. unfold own_id. rewrite !H. split; [exact B|reflexivity]. Qed.

Lemma program_ids : forall c4 conf l id, Forall (fun x => wire_id (fst (fst x))) conf -> load_manufacturers conf = Ok l ->
  wire_id id \/ id = [0] -> let env := add_manufacturers (Env c4 manufacturers) l in own_id env (lookup_manufacturer env id).
Proof.
  intros c4 conf l id W L H env. destruct (lookup_keeps_id c4 conf l W L) as [K _]. fold env in K.
  assert (B : is_bytes id) by (destruct H as [[]| ->]; repeat constructor; unfold is_byte; lia).
  destruct H as [H| ->].
  - destruct (list_eq_dec Z.eq_dec id [127]) as [->|N]; [|apply own_known; auto]. remember (lookup_manufacturer env [127]) as m eqn:M.
    unfold lookup_manufacturer in M. destruct (assocb (hex2 127) (env_manufacturers env)) as [m'|] eqn:E.
    + subst m'. assert (M : lookup_manufacturer env [127] = m) by (unfold lookup_manufacturer; rewrite E; reflexivity). clear - E W L H M B K.
      apply assocb_in in E. unfold env in E. unfold add_manufacturers in E. cbn [env_manufacturers] in E. apply in_app_or in E as [E|E].
      * destruct (load_faithful conf l W L _ E) as (id' & W' & E1 & E2). cbn [fst snd] in *. change (hex2 127) with (id_key [127]) in E1.
        apply id_key_inj in E1; [|exact H|exact W']. subst id'. unfold own_id. rewrite E2, M, E2. auto.
      * assert (T : forallb (fun km => negb (bytes_eqb (fst km) (hex2 127)) || bytes_eqb (m_id (snd km)) [126]) manufacturers = true) by (vm_compute; reflexivity).
        rewrite forallb_forall in T. specialize (T _ E). cbn [fst snd] in T. rewrite bytes_eqb_refl in T. cbn [negb orb] in T. apply bytes_eqb_eq in T.
        unfold own_id. rewrite T. split; [repeat constructor; unfold is_byte; lia|]. apply K; [apply wi_one; lia|discriminate].
    + subst m. unfold own_id. cbn [m_id]. split; [exact B|]. unfold lookup_manufacturer. rewrite E. reflexivity.
  - apply own_known; [exact B|]. unfold lookup_manufacturer. destruct (assocb (hex2 0) (env_manufacturers env)) as [m|] eqn:E; [|reflexivity].
    exfalso. apply assocb_in in E. unfold env, add_manufacturers in E. cbn [env_manufacturers] in E. apply in_app_or in E as [E|E].
    + destruct (load_faithful conf l W L _ E) as (id' & W' & E1 & _). cbn [fst] in E1. clear - W' E1. destruct W' as [a R|b c R1 R2]; cbn [id_key] in E1.
      * change (hex2 0) with (hex_byte 0) in E1. apply hex_byte_inj in E1; unfold is_byte; lia.
      * apply (f_equal (@length _)) in E1. rewrite app_length in E1. cbn in E1. lia.
    + assert (T : forallb (fun km => negb (bytes_eqb (fst km) (hex2 0))) manufacturers = true) by (vm_compute; reflexivity).
      rewrite forallb_forall in T. specialize (T _ E). cbn [fst] in T. rewrite bytes_eqb_refl in T. discriminate.
Qed.

(** ** One event *)

(** What is needed of the table of manufacturers *)
Definition stable (env : env) (b : body) : Prop := match b with SequencerSpecific m _ | SysExMessage m _ _ => own_id env m | _ => True end.

(** What the event is afterwards *)
Definition imported (b b' : body) : Prop :=
  match b with
  | TextEvent k s => b' = TextEvent k (concat (runes s))
  | SysExContinuation d _ => b' = SysExContinuation d false
  | b => same_values b b'
  end.

(** The case of the switch *)
Definition reader (env : env) (b : body) : list (bytes * json) -> outcome event :=
  match b with
  | NoteOff _ _ _ => json_note_off env | NoteOn _ _ _ => json_note_on env | PolyphonicPressure _ _ => json_polyphonic_pressure
  | Controller _ _ _ => json_controller | ProgramChange _ _ _ => json_program_change | ChannelPressure _ _ => json_channel_pressure
  | PitchBend _ _ => json_pitch_bend | SequenceNumber _ => json_sequence_number | TextEvent k _ => json_text k | MIDIChannelPrefix _ => json_channel_prefix
  | MIDIPort _ => json_port | EndOfTrack => json_end_of_track | Tempo _ => json_tempo | SMPTEOffset _ _ _ _ _ _ => json_smpte_offset
  | TimeSignature _ _ _ _ => json_time_signature | KeySignature _ _ _ => json_key_signature | SequencerSpecific _ _ => json_sequencer_specific env
  | SysExMessage _ _ _ => json_sysex env | SysExContinuation _ _ => json_continuation | SysExEscape _ => json_escape
  end.

Lemma reader_found : forall env b, find (fun c => bytes_eqb (body_tag b) (fst c)) (json_cases env) = Some (body_tag b, reader env b).
Proof. intros env b. destruct b; try destruct k; reflexivity. Qed.

Ltac int_back := rewrite read_int_back by (unfold is_byte in *; lia).
Ltac step := repeat progress (keys; cbn [bind read_string jstring read_bool]; cbv beta iota).
Ltac steps := repeat first [int_back; step | rewrite read_channel_back by lia; step].
Ltac chan := rewrite read_channel_back by lia; step.
Ltac no t := replace t with false by lia.
Ltac finish := eexists; split; [reflexivity|]; split; [reflexivity|]; split; [cbn; auto|]; cbn [imported same_values e_body]; eauto.

Lemma tag_read : forall e, text_of (str "tag") (event_fields e) = Ok (body_tag (e_body e)).
Proof. intros [tick delta raw st ty b]. destruct b; try destruct k; reflexivity. Qed.

Lemma json_event : forall env e, legal_header e -> 0 <= e_delta e < 4294967296 -> decoded_body env (e_body e) -> stable env (e_body e) ->
  exists e', unmarshal_json env (marshal_json e) = Ok e' /\ e_delta e' = e_delta e /\ legal_header e' /\ imported (e_body e) (e_body e').
Proof.
  intros env [tick delta raw st ty b] LH D DB ST. cbn [e_delta e_body] in *. unfold legal_header in LH. cbn [e_body e_status e_type] in LH.
  unfold unmarshal_json, marshal_json, marshal_json_with. change (event_fields_with jstring) with event_fields. cbn [object bind]. step. cbn [object bind]. rewrite tag_read. cbn [bind e_body]. rewrite reader_found.
  unfold event_fields, event_fields_with. cbn [e_body e_delta e_status].
  destruct b; cbn [decoded_body stable] in DB, ST; unfold body_fields_with; change (jnote_with jstring) with jnote; change (jcontroller_with jstring) with jcontroller; change (jmanufacturer_with jstring) with jmanufacturer; cbn [e_body e_type]; cbv zeta; cbn [body_tag reader].
  9: destruct k.
  all: unfold json_sequence_number, json_text, json_channel_prefix, json_port, json_tempo, json_time_signature, json_key_signature, json_smpte_offset, json_end_of_track,
    json_sequencer_specific, json_note_off, json_note_on, json_polyphonic_pressure, json_controller, json_program_change, json_channel_pressure, json_pitch_bend, json_sysex,
    json_continuation, json_escape, tagged, text_of, uint8, uint16, uint32, channel_of, data_of, manufacturer_of; cbn [text_key text_tag]; rewrite ?bytes_eqb_refl; step; int_back; step.
  9-17: finish.
  - (* NoteOff *) chan. destruct (read_note_back (Note 0 [] []) n) as (x & y & ->); [lia|]. step. int_back. step. cbn [n_value]. finish.
  - (* NoteOn *) chan. destruct (read_note_back (Note 0 [] []) n) as (x & y & ->); [lia|]. step. int_back. step. cbn [n_value]. rewrite ?bytes_eqb_refl.
    unfold make_note_on. no (127 <? velocity). no (15 <? ch). finish.
  - chan. int_back. step. rewrite ?bytes_eqb_refl. unfold make_polyphonic_pressure. no (127 <? pressure). no (15 <? ch). finish.
  - (* Controller *) destruct DB as (B1 & (id & B2 & E) & B3). chan.
    assert (K : c_id c = id) by (subst c; apply lookup_controller_id; exact B2).
    destruct (read_controller_back (MkController 0 []) c) as (x & ->); [lia|]. step. int_back. step. rewrite ?bytes_eqb_refl. unfold make_controller. no (15 <? ch). finish.
  - chan. int_back. step. int_back. step. rewrite ?bytes_eqb_refl. unfold make_program_change. no (15 <? ch). finish.
  - chan. int_back. step. rewrite ?bytes_eqb_refl. unfold make_channel_pressure. no (127 <? pressure). no (15 <? ch). finish.
  - chan. int_back. step. rewrite ?bytes_eqb_refl. unfold make_pitch_bend. no (15 <? ch). finish.
  - int_back. step. rewrite ?bytes_eqb_refl. finish.
  - int_back. step. rewrite ?bytes_eqb_refl. no (15 <? ch). unfold make_channel_prefix. no (15 <? ch). finish.
  - int_back. step. rewrite ?bytes_eqb_refl. no (127 <? port). unfold make_port. no (127 <? port). finish.
  - rewrite ?bytes_eqb_refl. finish.
  - int_back. step. rewrite ?bytes_eqb_refl. finish.
  - (* SMPTEOffset *) do 6 (int_back; step). rewrite ?bytes_eqb_refl. unfold make_smpte_offset. no (24 <? hour). no (59 <? minute). no (59 <? second).
    replace (negb ((rate =? 24) || (rate =? 25) || (rate =? 29) || (rate =? 30))) with false by lia. no (rate <=? frames). no (100 <? fractions). finish.
  - (* TimeSignature *) destruct DB as (B1 & B2 & B3 & B4). unfold is_byte in *.
    assert (R : 0 <= denominator <= 255 /\ exists x, log2_loop 9 1 denominator 0 = Ok x).
    { destruct B2 as [->|(k & K & ->)]; [split; [lia|eexists; reflexivity]|].
      assert (C : k = 0 \/ k = 1 \/ k = 2 \/ k = 3 \/ k = 4 \/ k = 5 \/ k = 6 \/ k = 7) by lia.
      repeat (destruct C as [->|C]); try subst k; (split; [cbn; lia|eexists; reflexivity]). }
    destruct R as (R & x & X). do 4 (int_back; step). rewrite ?bytes_eqb_refl. unfold make_time_signature. rewrite X. cbn [bind]. finish.
  - (* KeySignature *) destruct DB as (B1 & minor & K & N). unfold key_range in B1. int_back. step.
    rewrite (read_int_back 0 255 0 keytype) by (destruct minor; lia). step. rewrite ?bytes_eqb_refl. unfold make_key_signature.
    assert (S : exists s, (if minor then minor_scale accidentals else major_scale accidentals) = Some s /\ s_name s = key).
    { assert (C : accidentals = -7 \/ accidentals = -6 \/ accidentals = -5 \/ accidentals = -4 \/ accidentals = -3 \/ accidentals = -2 \/ accidentals = -1 \/ accidentals = 0 \/
        accidentals = 1 \/ accidentals = 2 \/ accidentals = 3 \/ accidentals = 4 \/ accidentals = 5 \/ accidentals = 6 \/ accidentals = 7) by lia.
      repeat (destruct C as [C|C]); subst; destruct minor; eexists; split; reflexivity. }
    destruct S as (s & S1 & S2). destruct minor; subst keytype; cbv iota; try (change (1 =? 0) with false; change (1 =? 1) with true); try change (0 =? 0) with true; cbv iota; rewrite S1, S2; finish.
  - rewrite read_manufacturer_back by apply ST. step. rewrite read_hex_back by apply DB. step. rewrite ?bytes_eqb_refl. finish.
    eexists. split; [reflexivity|]. apply ST.
  - rewrite read_manufacturer_back by apply ST. step. rewrite read_hex_back by apply DB. step. rewrite ?bytes_eqb_refl. finish.
    eexists. split; [reflexivity|]. apply ST.
  - rewrite read_hex_back by apply DB. step. rewrite ?bytes_eqb_refl. finish.
  - rewrite read_hex_back by apply DB. step. rewrite ?bytes_eqb_refl. finish.
Qed.

Lemma imported_values : forall b b', imported b b' -> match b with TextEvent _ s => is_bytes s | SysExContinuation _ fin => fin = false | _ => True end ->
  (same_values b b' <-> valid_text b).
Proof.
  intros b b' H B. destruct b; cbn [imported same_values valid_text] in *; try (split; intros _; [exact I|exact H]).
  - rewrite (well_formed_iff _ B). subst b'. split; congruence.
  - subst fin. split; intros _; [exact I|exact H].
Qed.

(** Every event of every decoded file *)
Theorem events_through_json : forall c4 conf l r s, Forall (fun x => wire_id (fst (fst x))) conf -> load_manufacturers conf = Ok l -> is_bytes r ->
  let env := add_manufacturers (Env c4 manufacturers) l in decode env r = Ok s ->
  Forall (fun t => Forall (fun e => exists e', unmarshal_json env (marshal_json e) = Ok e' /\ e_delta e' = e_delta e /\ body_tag (e_body e') = body_tag (e_body e) /\
    (same_values (e_body e) (e_body e') <-> valid_text (e_body e))) (t_events t)) (f_tracks s).
Proof.
  intros c4 conf l r s W L B env H. eapply Forall_impl; [|exact (decoded_file env r s B H)]. intros t (_ & _ & F). eapply Forall_impl; [|exact F].
  intros e (LH & D & DB). cbv beta in *.
  assert (ST : stable env (e_body e)).
  { destruct (e_body e); try exact I; cbn [decoded_body stable] in *.
    - destruct DB as (_ & id & _ & WI & ->). apply (program_ids c4 conf l id W L). left. exact WI.
    - destruct DB as (_ & id & WI & ->). apply (program_ids c4 conf l [id] W L). unfold is_byte in WI. destruct (Z.eq_dec id 0) as [->|]; [right; reflexivity|].
      left. apply wi_one. lia. }
  destruct (json_event env e LH D DB ST) as (e' & E & E1 & E2 & E3). exists e'. split; [exact E|]. split; [exact E1|]. split.
  - destruct (e_body e); cbn [imported same_values] in E3; try (rewrite E3; reflexivity); destruct E3 as (x & -> & _); reflexivity.
  - apply imported_values; [exact E3|]. destruct (e_body e); try exact I; apply DB.
Qed.
