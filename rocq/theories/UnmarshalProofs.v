(** * UnmarshalProofs: proofs about the decoder for free-standing events (C59, C60, C61). *)
From Verif Require Import Base Strings Tables SpecVlq Vlq VlqProofs Event SpecEvent SpecPacket SpecCrash SpecHistory SpecUnmarshal
  Marshal Parse Track Unmarshal ParseProofs EncodeProofs DecodeProofs Marshal SpecTrack EncodeProofs FileProofs TrackProofs CrashProofs.

Lemma length_slice_rest : forall l data x, reads_len l data -> slice_vlf (l ++ data ++ x) = Ok data.
Proof.
  intros l data x H. unfold slice_vlf. rewrite (delta_slice l (zlen data)) by exact H. cbn [bind].
  rewrite zlen_app. pose proof (zlen_nonneg _ x). replace (zlen data + zlen x <? zlen data) with false by lia.
  unfold zlen. rewrite Nat2Z.id, firstn_app_exact. reflexivity.
Qed.

Lemma short_slice : forall l n x, reads l n -> zlen x < n -> slice_vlf (l ++ x) = Panic.
Proof.
  intros l n x H L. unfold slice_vlf. rewrite (delta_slice l n) by exact H. cbn [bind].
  replace (zlen x <? n) with true by lia. reflexivity.
Qed.

(** What [vlf] does on any input. *)
Lemma slice_vlf_cases : forall r, is_bytes r ->
  slice_vlf r = Err
  \/ (exists l n x, r = l ++ x /\ reads l n /\ zlen x < n)
  \/ (exists l data x, r = l ++ data ++ x /\ reads_len l data).
Proof.
  intros r Hr. destruct (reads_split r Hr) as [H|(d & n & x & -> & H)].
  - left. unfold slice_vlf, slice_vlq. rewrite H. reflexivity.
  - right. destruct (Z.ltb_spec (zlen x) n) as [L|L].
    + left. exists d, n, x. auto.
    + right. assert (0 <= n) by (destruct H as [_ <-]; apply Z.mod_pos_bound; lia).
      exists d, (firstn (Z.to_nat n) x), (skipn (Z.to_nat n) x). rewrite firstn_skipn. split; [reflexivity|].
      unfold reads_len. replace (zlen (firstn (Z.to_nat n) x)) with n; [exact H|].
      unfold zlen in *. rewrite firstn_length. lia.
Qed.

Lemma reads_cons : forall l n, reads l n -> exists x l', l = x :: l'.
Proof. intros l n [H _]. destruct H; eauto. Qed.

(** ** Selection by status *)

Lemma select_meta : forall env d delta ty r, reads d delta ->
  event_unmarshal env (d ++ 255 :: ty :: r) = binary_meta env delta ty r (d ++ 255 :: ty :: r).
Proof. intros. unfold event_unmarshal. rewrite (delta_slice d delta) by assumption. reflexivity. Qed.

Lemma chan_range : forall st, 128 <= st < 256 -> (128 <=? Z.land st 240) && (Z.land st 240 <=? 224) = (st <? 240).
Proof.
  intros st H. destruct (kind_cases st H) as [-> _]. destruct (Z.ltb_spec st 240); lia.
Qed.

Lemma select_chan : forall env d delta st x data, reads d delta -> 128 <= st < 240 ->
  event_unmarshal env (d ++ st :: x :: data) = binary_chan env delta st (x :: data) (d ++ st :: x :: data).
Proof.
  intros env d delta st x data Hd Hst. unfold event_unmarshal. rewrite (delta_slice d delta) by assumption. cbn [bind].
  replace (st =? 255) with false by lia. rewrite chan_range by lia. replace (st <? 240) with true by lia. reflexivity.
Qed.

Lemma select_f0 : forall env d delta l n x, reads d delta -> reads l n ->
  event_unmarshal env (d ++ 240 :: l ++ x) =
  do data <- slice_vlf (l ++ x); binary_sysex env delta data (d ++ 240 :: l ++ x).
Proof.
  intros env d delta l n x Hd Hl. unfold event_unmarshal. rewrite (delta_slice d delta) by assumption. cbn [bind].
  destruct (reads_cons _ _ Hl) as (y & l' & ->). reflexivity.
Qed.

Lemma select_f7 : forall env d delta l n x, reads d delta -> reads l n ->
  event_unmarshal env (d ++ 247 :: l ++ x) =
  do data <- slice_vlf (l ++ x); binary_continuation delta data (d ++ 247 :: l ++ x).
Proof.
  intros env d delta l n x Hd Hl. unfold event_unmarshal. rewrite (delta_slice d delta) by assumption. cbn [bind].
  destruct (reads_cons _ _ Hl) as (y & l' & ->). reflexivity.
Qed.

(** ** Comparison with the decoder of midi/MTrk.go, message by message *)

(** Channel messages: the same, but for first data bytes above 127 of A0 (an error instead of a panic) and E0
    (an error instead of an event). *)
Lemma binary_chan_eq : forall env delta st data bs, 128 <= st < 240 -> length data = message_length st ->
  binary_chan env delta st data bs =
  if ((160 <=? st) && (st <? 176) || (224 <=? st)) && (128 <=? hd 0 data) then Err
  else unmarshal_midi env 0 delta st data bs.
Proof.
  intros env delta st data bs Hst Hlen. destruct (kind_cases st ltac:(lia)) as [K _].
  remember ((160 <=? st) && (st <? 176) || (224 <=? st)) as q eqn:Q.
  unfold binary_chan, unmarshal_midi. rewrite K. unfold message_length in Hlen.
  destruct (Z.ltb_spec st 160); [|destruct (Z.ltb_spec st 176); [|destruct (Z.ltb_spec st 192); [|destruct (Z.ltb_spec st 224); [|destruct (Z.ltb_spec st 240); [|lia]]]]].
  - destruct data as [|a [|b [|]]]; try discriminate. cbn [hd].
    assert (Q0 : q = false) by (rewrite Q; lia). rewrite Q0. cbn [andb].
    destruct (Z.eqb_spec (st / 16 * 16) 128); [reflexivity|]. destruct (Z.eqb_spec (st / 16 * 16) 144); [reflexivity|lia].
  - destruct data as [|a [|]]; try discriminate. cbn [hd].
    assert (Q0 : q = true) by (rewrite Q; lia). rewrite Q0. cbn [andb].
    replace (st / 16 * 16) with 160 by lia. cbn.
    destruct (Z.ltb_spec 127 a); [replace (128 <=? a) with true by lia|replace (128 <=? a) with false by lia]; reflexivity.
  - destruct data as [|a [|b [|]]]; try discriminate. cbn [hd].
    assert (Q0 : q = false) by (rewrite Q; lia). rewrite Q0. cbn [andb].
    replace (st / 16 * 16) with 176 by lia. reflexivity.
  - destruct data as [|a [|]]; try discriminate. cbn [hd].
    assert (Q0 : q = false) by (rewrite Q; lia). rewrite Q0. cbn [andb].
    assert (st / 16 * 16 = 192 \/ st / 16 * 16 = 208) as [-> | ->] by lia; reflexivity.
  - destruct data as [|a [|b [|]]]; try discriminate. cbn [hd].
    assert (Q0 : q = true) by (rewrite Q; lia). rewrite Q0. cbn [andb].
    replace (st / 16 * 16) with 224 by lia. cbn [Z.eqb Pos.eqb].
    destruct (Z.ltb_spec 127 a); [replace (128 <=? a) with true by lia|replace (128 <=? a) with false by lia]; reflexivity.
Qed.

(** Channel messages need exactly their data bytes. *)
Lemma binary_chan_length : forall env delta st data bs, 128 <= st < 240 -> length data <> message_length st ->
  binary_chan env delta st data bs = Err.
Proof.
  intros env delta st data bs Hst Hlen. destruct (kind_cases st ltac:(lia)) as [K _].
  unfold binary_chan. rewrite K. unfold message_length in Hlen.
  destruct (Z.ltb_spec st 160); [|destruct (Z.ltb_spec st 176); [|destruct (Z.ltb_spec st 192); [|destruct (Z.ltb_spec st 224); [|destruct (Z.ltb_spec st 240); [|lia]]]]].
  - destruct (Z.eqb_spec (st / 16 * 16) 128); [|destruct (Z.eqb_spec (st / 16 * 16) 144); [|lia]];
    destruct data as [|a [|b [|]]]; try reflexivity; cbn in Hlen; congruence.
  - replace (st / 16 * 16) with 160 by lia. cbn. destruct data as [|a [|]]; try reflexivity; cbn in Hlen; congruence.
  - replace (st / 16 * 16) with 176 by lia. cbn. destruct data as [|a [|b [|]]]; try reflexivity; cbn in Hlen; congruence.
  - assert (st / 16 * 16 = 192 \/ st / 16 * 16 = 208) as [-> | ->] by lia; cbn; destruct data as [|a [|]]; try reflexivity; cbn in Hlen; congruence.
  - replace (st / 16 * 16) with 224 by lia. cbn. destruct data as [|a [|b [|]]]; try reflexivity; cbn in Hlen; congruence.
Qed.

(** The same event with another tick and other raw bytes. *)
Definition restamp (tick : Z) (raw : bytes) (e : event) : event :=
  Event tick (e_delta e) raw (e_status e) (e_type e) (e_body e).

Lemma midi_restamp : forall env t1 t2 delta st data p q e,
  unmarshal_midi env t1 delta st data p = Ok e -> unmarshal_midi env t2 delta st data q = Ok (restamp t2 q e).
Proof.
  intros env t1 t2 delta st data p q e H. unfold unmarshal_midi, make_note_off, make_note_on,
    make_polyphonic_pressure, make_controller, make_program_change, make_channel_pressure, make_pitch_bend in *.
  break H; try discriminate; injection H as <-; reflexivity.
Qed.

Lemma meta_restamp : forall env t1 t2 delta ty data p q e,
  unmarshal_meta env t1 delta ty data p = Ok e -> unmarshal_meta env t2 delta ty data q = Ok (restamp t2 q e).
Proof.
  intros env t1 t2 delta ty data p q e H. unfold unmarshal_meta in *.
  destruct (text_kind ty); [injection H as <-; reflexivity|].
  destruct (ty =? 0); [break H; try discriminate; injection H as <-; reflexivity|].
  destruct (ty =? 32); [unfold make_channel_prefix in *; break H; try discriminate; injection H as <-; reflexivity|].
  destruct (ty =? 33); [unfold make_port in *; break H; try discriminate; injection H as <-; reflexivity|].
  destruct (ty =? 47); [injection H as <-; reflexivity|].
  destruct (ty =? 81); [break H; try discriminate; injection H as <-; reflexivity|].
  destruct (ty =? 84); [unfold unmarshal_smpte, make_smpte_offset in *; cbv zeta in *; break H; try discriminate; injection H as <-; reflexivity|].
  destruct (ty =? 88).
  { destruct data as [|a [|b [|c [|d [|]]]]]; try discriminate. unfold make_time_signature in *.
    destruct (log2_loop _ _ _ _); try discriminate. injection H as <-. reflexivity. }
  destruct (ty =? 89); [unfold unmarshal_key, make_key_signature in *; cbv zeta in *; break H; try discriminate; injection H as <-; reflexivity|].
  destruct (ty =? 127); [unfold unmarshal_seqspec in *; break H; try discriminate; injection H as <-; reflexivity|].
  discriminate.
Qed.

(** Meta events: what the track decoder takes is read the same way, but for sequencer specific events of one
    byte. *)
Lemma binary_meta_ok : forall env delta ty r data bs e, slice_vlf r = Ok data ->
  unmarshal_meta env 0 delta (Z.land ty 127) data bs = Ok e ->
  binary_meta env delta ty r bs = if (Z.land ty 127 =? 127) && (zlen data =? 1) then Err else Ok e.
Proof.
  intros env delta ty r data bs e Hv H. unfold binary_meta. unfold unmarshal_meta in H. set (t := Z.land ty 127) in *. clearbody t.
  destruct (text_kind t) as [k|] eqn:Ek.
  { rewrite Hv. cbn [bind]. destruct (Z.eqb_spec t 127) as [->|]; [discriminate|]. cbn [andb]. exact H. }
  destruct (Z.eqb_spec t 0) as [->|].
  { rewrite Hv. cbn. break H; try discriminate. exact H. }
  destruct (Z.eqb_spec t 32) as [->|].
  { rewrite Hv. cbn. break H; try discriminate. exact H. }
  destruct (Z.eqb_spec t 33) as [->|].
  { rewrite Hv. cbn. break H; try discriminate. exact H. }
  destruct (Z.eqb_spec t 47) as [->|]; [exact H|].
  destruct (Z.eqb_spec t 81) as [->|].
  { rewrite Hv. cbn [bind]. break H; try discriminate. exact H. }
  destruct (Z.eqb_spec t 84) as [->|].
  { change (84 =? 88) with false. change (84 =? 89) with false. cbv iota. rewrite Hv. cbn [bind].
    change (84 =? 127) with false. cbn [andb].
    destruct data as [|a [|b [|c [|d [|f [|]]]]]]; try discriminate. exact H. }
  destruct (Z.eqb_spec t 88) as [->|].
  { rewrite Hv. cbn [bind]. change (88 =? 127) with false. cbn [andb].
    destruct data as [|a [|b [|c [|d [|]]]]]; try discriminate. exact H. }
  destruct (Z.eqb_spec t 89) as [->|].
  { rewrite Hv. cbn [bind]. change (89 =? 127) with false. cbn [andb].
    destruct data as [|a [|b [|]]]; try discriminate. exact H. }
  destruct (Z.eqb_spec t 127) as [->|]; [|discriminate].
  rewrite Hv. cbn [bind andb]. unfold unmarshal_seqspec in H. unfold binary_seqspec.
  destruct data as [|a [|b d]]; try discriminate.
  - reflexivity.
  - rewrite !zlen_cons. pose proof (zlen_nonneg _ d). replace (_ =? 1) with false by lia.
    destruct (a =? 0); [|exact H]. destruct d; [discriminate|exact H].
Qed.

(** ** C59 *)

Lemma sysex_alone : forall env delta payload x bs, payload <> [] -> is_bytes (payload ++ [x]) ->
  id_faithful env (payload_id payload) ->
  exists e, binary_sysex env delta (payload ++ [x]) bs = Ok e /\
    ev_view e = (delta, if x =? 247 then CSysEx payload true else CSysEx (payload ++ [x]) false) /\ e_tick e = 0 /\ e_bytes e = bs.
Proof.
  intros env delta payload x bs Hne Hb Hid. destruct payload as [|a p]; [congruence|]. cbn [app] in *.
  unfold binary_sysex. destruct (p ++ [x]) as [|b q] eqn:E; [destruct p; discriminate|]. rewrite <- E. rewrite ends_f7_snoc.
  assert (Hm : m_id (lookup_manufacturer env [a]) = [a]).
  { apply lookup_manufacturer_id; [|exact Hid]. inversion Hb. constructor; [assumption|constructor]. }
  destruct (x =? 247); eexists; (split; [reflexivity|]); unfold ev_view; cbn [make_sysex e_delta e_body e_tick e_bytes view]; rewrite Hm;
    rewrite ?removelast_last; repeat split; reflexivity.
Qed.

Lemma cont_alone : forall delta payload (fin : bool) bs, (fin = false -> last payload 0 <> 247) ->
  exists e, binary_continuation delta (payload ++ if fin then [247] else []) bs = Ok e /\
    ev_view e = (delta, CSysExCont payload false) /\ e_tick e = 0 /\ e_bytes e = bs.
Proof.
  intros delta payload fin bs H. unfold binary_continuation. destruct fin.
  - destruct (payload ++ [247]) as [|y q] eqn:E; [destruct payload; discriminate|]. rewrite <- E, ends_f7_snoc.
    change (247 =? 247) with true. cbv iota. rewrite removelast_last. eexists. repeat split; reflexivity.
  - rewrite app_nil_r. specialize (H eq_refl). destruct payload as [|y q]; [eexists; repeat split; reflexivity|].
    unfold ends_f7. replace (last (y :: q) 0 =? 247) with false by lia. eexists. repeat split; reflexivity.
Qed.

Theorem event_alone : forall env bs delta c, is_bytes bs -> event_bytes bs delta c -> read_alone c -> ids_faithful env c ->
  exists e, event_unmarshal env bs = Ok e /\ ev_view e = (delta, forget_end c) /\ e_tick e = 0 /\ e_bytes e = bs.
Proof.
  intros env bs delta c Hb H Hr Hid. destruct H as [d delta st data c Hd Hm|d delta ty l data c Hd Hm Hl|d delta l p Hd Hne Hl|d delta l p x Hd Hne Hx Hl|d delta l p Hd Hx Hl|d delta l p Hd Hl|d delta l p Hd Hl];
    apply delta_reads in Hd; try apply length_reads in Hl; apply is_bytes_app in Hb as [_ Hb]; apply is_bytes_inv in Hb as [_ Hb].
  - destruct (chan_msg_facts _ _ _ Hm) as (F1 & F2 & F3 & F4).
    destruct (unmarshal_chan env 0 delta st data c (d ++ st :: data) Hm) as (b & E & V).
    exists (Event 0 delta (d ++ st :: data) st 0 b). split; [|split; [unfold ev_view; cbn; rewrite V; destruct Hm; reflexivity|split; reflexivity]].
    destruct data as [|y data]; [congruence|]. rewrite (select_chan env d delta) by (auto; lia).
    rewrite binary_chan_eq by (rewrite ?message_length_eq by lia; auto; lia).
    replace (128 <=? hd 0 (y :: data)) with false by lia. rewrite andb_false_r. exact E.
  - apply is_bytes_inv in Hb as [_ Hb]. apply is_bytes_app in Hb as [_ Hb].
    set (raw := d ++ 255 :: ty :: l ++ data).
    destruct (unmarshal_meta_msg env 0 delta ty data c raw Hm Hb Hid) as (b & E & V).
    exists (Event 0 delta raw 255 ty b). split; [|split; [unfold ev_view; cbn; rewrite V; destruct Hm; reflexivity|split; reflexivity]].
    unfold raw at 1. rewrite (select_meta env d delta) by assumption. fold raw.
    rewrite (binary_meta_ok env delta ty (l ++ data) data raw _ (length_slice l data Hl) E).
    destruct ((Z.land ty 127 =? 127) && (zlen data =? 1)) eqn:T; [exfalso|reflexivity].
    destruct Hm as [| k | | | | | rr rate h m s f ff Hc | | | id dd Hw]; try discriminate.
    + destruct k; discriminate.
    + cbn [read_alone] in Hr. lia.
  - apply is_bytes_app in Hb as [_ Hb].
    rewrite (select_f0 env d delta l _ (p ++ [247])) by (try exact Hl; assumption). rewrite (length_slice l _ Hl). cbn [bind].
    apply (sysex_alone env delta p 247); assumption.
  - apply is_bytes_app in Hb as [_ Hb].
    rewrite (select_f0 env d delta l _ (p ++ [x])) by (try exact Hl; assumption). rewrite (length_slice l _ Hl). cbn [bind].
    destruct (sysex_alone env delta p x (d ++ 240 :: l ++ p ++ [x]) Hne Hb) as (e & E1 & E2 & E3).
    { destruct p; [congruence|]. exact Hid. }
    exists e. split; [exact E1|]. replace (x =? 247) with false in E2 by lia. split; assumption.
  - rewrite (select_f7 env d delta l _ p) by (try exact Hl; assumption). rewrite (length_slice l _ Hl). cbn [bind].
    destruct (cont_alone delta p false (d ++ 247 :: l ++ p) (fun _ => Hx)) as (e & E1 & E2). rewrite app_nil_r in E1. eauto.
  - rewrite (select_f7 env d delta l _ (p ++ [247])) by (try exact Hl; assumption). rewrite (length_slice l _ Hl). cbn [bind].
    destruct (cont_alone delta p true (d ++ 247 :: l ++ p ++ [247]) ltac:(discriminate)) as (e & E1 & E2). eauto.
  - destruct Hr.
Qed.

(** ** C60 *)

Theorem decoders_agree : forall env bs e e' c' rest, is_bytes bs -> event_unmarshal env bs = Ok e ->
  parse env new_context 0 bs = Ok (e', c', rest) ->
  e_delta e = e_delta e' /\ e_status e = e_status e' /\ e_type e = e_type e' /\
  (e_body e = e_body e' \/
   exists data d, e_status e = 247 /\ e_body e' = SysExEscape data /\ e_body e = SysExContinuation d false /\ without_f7 data d).
Proof.
  intros env bs e e' c' rest Hb H P.
  destruct (parse_inv env new_context 0 bs e' c' rest Hb (or_introl eq_refl) P) as (p & delta & k & -> & Hs & R & _).
  change (c_running new_context) with 0 in Hs.
  destruct Hs as [d delta st data Hd Hst N1 N2 N3 Hlen|d delta data Hd Hst|d delta ty l data Hd Hl|d delta st l data Hd Hst Hl]; [|lia| |]; cbn [read_packet] in R.
  - destruct (new_event _) as [x| | | |] eqn:E; try discriminate. injection R as <- <-. apply new_event_ok in E.
    pose proof (chan_status _ _ _ _ _ _ _ Hst E) as L. rewrite <- app_assoc in H. cbn [app] in H.
    destruct data as [|y data].
    { exfalso. unfold message_length in Hlen. destruct (Z.ltb_spec st 160), (Z.ltb_spec st 176), (Z.ltb_spec st 192), (Z.ltb_spec st 224), (Z.ltb_spec st 240); try discriminate; lia. }
    cbn [app] in H. rewrite (select_chan env d delta) in H by (auto; lia).
    destruct (Nat.eq_dec (length (y :: data ++ rest)) (message_length st)) as [Le|Le].
    2:{ rewrite binary_chan_length in H by (auto; lia). discriminate. }
    rewrite binary_chan_eq in H by (auto; lia). destruct (_ && _); [discriminate|].
    assert (rest = []) as ->.
    { cbn [length] in Le, Hlen. rewrite app_length in Le. destruct rest; [reflexivity|]. cbn [length] in Le. lia. }
    rewrite app_nil_r in H. pose proof (midi_restamp _ _ 0 _ _ _ _ (d ++ st :: y :: data) _ E) as E'. rewrite E' in H. injection H as <-.
    repeat split. left. reflexivity.
  - destruct (new_event _) as [x| | | |] eqn:E; try discriminate. injection R as <- <-. apply new_event_ok in E.
    rewrite <- app_assoc in H. cbn [app] in H. rewrite <- app_assoc in H. rewrite (select_meta env d delta) in H by assumption.
    pose proof (meta_restamp _ _ 0 _ _ _ _ (d ++ 255 :: ty :: l ++ data ++ rest) _ E) as E'.
    rewrite (binary_meta_ok _ _ _ _ data _ _ (length_slice_rest l data rest Hl) E') in H.
    destruct (_ && _); [discriminate|]. injection H as <-. repeat split. left. reflexivity.
  - rewrite <- app_assoc in H. cbn [app] in H. rewrite <- app_assoc in H. destruct Hst as [-> | ->].
    + change (240 =? 240) with true in R. cbv iota in R. change (c_casio new_context) with false in R. cbv iota in R.
      rewrite (select_f0 env d delta l (zlen data)) in H by assumption. rewrite (length_slice_rest l data rest Hl) in H. cbn [bind] in H.
      unfold unmarshal_sysex in R. unfold binary_sysex in H. destruct data as [|a [|b data]]; try discriminate.
      destruct (ends_f7 (b :: data)); injection R as <- <-; injection H as <-; repeat split; left; reflexivity.
    + change (247 =? 240) with false in R. cbv iota in R. change (c_casio new_context) with false in R. cbv iota in R. cbn [bind] in R.
      injection R as <- <-.
      rewrite (select_f7 env d delta l (zlen data)) in H by assumption. rewrite (length_slice_rest l data rest Hl) in H. cbn [bind] in H.
      unfold binary_continuation in H. destruct data as [|y data].
      * injection H as <-. repeat split. right. exists [], []. repeat split. right. split; [reflexivity|]. cbn. lia.
      * injection H as <-. repeat split. right. eexists _, _. repeat split. unfold without_f7, ends_f7.
        destruct (Z.eqb_spec (last (y :: data) 0) 247) as [E|E]; [left|right; auto].
        rewrite <- E. apply app_removelast_last. discriminate.
Qed.

(** What the track decoder takes. *)
Theorem accepted_alone : forall env p delta k, is_bytes p -> shape 0 p delta k -> crashes false k = false -> rejects false k = false ->
  ((exists e, event_unmarshal env p = Ok e) <-> only_in_tracks k = false).
Proof.
  intros env p delta k Hb Hs Hc Hr.
  pose proof (packet_outcome env new_context 0 delta k p p (or_introl eq_refl) Hs Hb) as O.
  change (c_casio new_context) with false in O. rewrite Hr, Hc in O. destruct O as (e & c' & O).
  destruct Hs as [d delta st data Hd Hst N1 N2 N3 Hlen|d delta data Hd Hst|d delta ty l data Hd Hl|d delta st l data Hd Hst Hl]; [|lia| |]; cbn [read_packet] in O.
  - destruct (new_event _) as [x| | | |] eqn:E; try discriminate. apply new_event_ok in E.
    pose proof (chan_status _ _ _ _ _ _ _ Hst E) as L.
    destruct data as [|y data].
    { exfalso. unfold message_length in Hlen. destruct (Z.ltb_spec st 160), (Z.ltb_spec st 176), (Z.ltb_spec st 192), (Z.ltb_spec st 224), (Z.ltb_spec st 240); try discriminate; lia. }
    rewrite (select_chan env d delta) by (auto; lia). rewrite binary_chan_eq by (auto; lia).
    rewrite (midi_restamp _ _ 0 _ _ _ _ (d ++ st :: y :: data) _ E). cbn [only_in_tracks hd].
    cbn [crashes nth] in Hc.
    destruct ((224 <=? st) && (128 <=? y)) eqn:Q.
    + replace (_ && (128 <=? y)) with true by lia. split; [intros [? ?]; discriminate|discriminate].
    + replace (_ && (128 <=? y)) with false by lia. split; [reflexivity|intros _; eexists; reflexivity].
  - destruct (new_event _) as [x| | | |] eqn:E; try discriminate. apply new_event_ok in E.
    rewrite (select_meta env d delta) by assumption.
    pose proof (meta_restamp _ _ 0 _ _ _ _ (d ++ 255 :: ty :: l ++ data) _ E) as E'.
    rewrite (binary_meta_ok _ _ _ _ data _ _ (length_slice l data Hl) E'). cbn [only_in_tracks]. rewrite land7f.
    destruct ((ty mod 128 =? 127) && (zlen data =? 1)).
    + split; [intros [? ?]; discriminate|discriminate].
    + split; [reflexivity|intros _; eexists; reflexivity].
  - split; [reflexivity|intros _]. destruct Hst as [-> | ->].
    + rewrite (select_f0 env d delta l (zlen data)) by assumption. rewrite (length_slice l data Hl). cbn [bind].
      change (c_casio new_context) with false in O. cbn in O. unfold unmarshal_sysex in O. unfold binary_sysex.
      destruct data as [|a [|b data]]; try discriminate. destruct (ends_f7 _); eauto.
    + rewrite (select_f7 env d delta l (zlen data)) by assumption. rewrite (length_slice l data Hl). cbn [bind].
      unfold binary_continuation. destruct data; eauto.
Qed.

(** ** C61 *)

Definition quiet {A} (x : outcome A) : Prop := match x with Ok _ | Err => True | _ => False end.

Lemma binary_chan_quiet : forall env delta st data bs, 128 <= st < 240 -> quiet (binary_chan env delta st data bs).
Proof.
  intros env delta st data bs Hst. destruct (kind_cases st ltac:(lia)) as [_ C]. unfold binary_chan, make_note_off, make_note_on,
    make_polyphonic_pressure, make_controller, make_program_change, make_channel_pressure, make_pitch_bend. rewrite C. cbv zeta.
  repeat match goal with
  | |- quiet (if ?c then _ else _) => let E := fresh in destruct c eqn:E
  | |- quiet (match ?d with [] => _ | _ => _ end) => destruct d
  | H : ?c = false |- context[if ?c then _ else _] => rewrite H
  end; exact I.
Qed.

Lemma text_kind_range : forall t, 0 <= t -> (exists k, text_kind t = Some k) <-> 1 <= t <= 9.
Proof.
  intros t Ht. split.
  - intros [k E]. unfold text_kind in E.
    repeat match type of E with (if ?c then _ else _) = _ => destruct c eqn:?; [lia|] end. discriminate.
  - intro H. assert (t = 1 \/ t = 2 \/ t = 3 \/ t = 4 \/ t = 5 \/ t = 6 \/ t = 7 \/ t = 8 \/ t = 9) as K by lia.
    repeat (destruct K as [->|K]; [eexists; reflexivity|]). subst. eexists. reflexivity.
Qed.

(** Which data of a meta event make the [UnmarshalBinary] method panic. *)
Definition meta_panics (t : Z) (data : bytes) : bool :=
  if t =? 0 then zlen data <? 2
  else if t =? 127 then match data with [a; _] => a =? 0 | _ => false end
  else false.

Lemma binary_meta_data : forall env delta ty r data bs, is_byte ty -> is_bytes data -> slice_vlf r = Ok data ->
  if sized_type ty && meta_panics (ty mod 128) data then binary_meta env delta ty r bs = Panic
  else quiet (binary_meta env delta ty r bs).
Proof.
  intros env delta ty r data bs Hty Hd Hv. unfold binary_meta, sized_type. rewrite land7f. rewrite Hv. cbn [bind].
  assert (Ht : 0 <= ty mod 128 < 128) by (unfold is_byte in Hty; lia). set (t := ty mod 128) in *. clearbody t. cbv zeta.
  unfold meta_panics.
  destruct (text_kind t) as [k|] eqn:Ek.
  { assert (1 <= t <= 9) by (apply text_kind_range; eauto; lia).
    replace (t =? 0) with false by lia. replace (t =? 127) with false by lia. rewrite andb_false_r. exact I. }
  destruct (Z.eqb_spec t 0) as [->|N0].
  { cbn [andb orb Z.leb]. change (0 <=? 9) with true. cbn [orb andb].
    destruct data as [|a [|b data]]; try reflexivity. rewrite !zlen_cons. pose proof (zlen_nonneg _ data).
    replace (_ <? 2) with false by lia. exact I. }
  destruct (Z.eqb_spec t 127) as [->|N127].
  { cbn. destruct data as [|a [|b data]]; try exact I. cbn. destruct data as [|c data]; destruct (a =? 0); try reflexivity; exact I. }
  rewrite andb_false_r.
  destruct (Z.eqb_spec t 32) as [->|].
  { destruct data; [exact I|]. unfold make_channel_prefix. destruct (15 <? z); exact I. }
  destruct (Z.eqb_spec t 33) as [->|].
  { destruct data; [exact I|]. unfold make_port. destruct (127 <? z); exact I. }
  destruct (Z.eqb_spec t 81) as [->|]; [destruct data as [|a [|b [|c data]]]; exact I|].
  destruct (Z.eqb_spec t 88) as [->|].
  { destruct data as [|a [|b [|c [|d data]]]]; try exact I.
    apply is_bytes_inv in Hd as [_ Hd]. apply is_bytes_inv in Hd as [Hb _].
    pose proof (time_signature_ok 0 delta a b c d bs Hb) as E. destruct (make_time_signature _ _ _ _ _ _ _); try discriminate. exact I. }
  destruct (Z.eqb_spec t 89) as [->|].
  { unfold binary_key, make_key_signature. destruct data as [|a [|b data]]; try exact I. cbv zeta.
    destruct (b =? 0); [destruct (major_scale (int8 a)); exact I|].
    destruct (b =? 1); [destruct (minor_scale (int8 a)); exact I|exact I]. }
  destruct (Z.eqb_spec t 84) as [->|].
  { destruct data as [|a [|b [|c [|d [|f data]]]]]; try exact I.
    apply is_bytes_inv in Hd as [Ha Hd]. pose proof (smpte_ok 0 delta a b c d f bs Ha) as E.
    change (binary_smpte delta (a :: b :: c :: d :: f :: data) bs) with (unmarshal_smpte 0 delta [a; b; c; d; f] bs).
    revert E. unfold unmarshal_smpte. cbv zeta. destruct (24 <? _) eqn:E1; [intros; exact I|].
    destruct (59 <? b) eqn:E2; [intros; exact I|]. destruct (59 <? c) eqn:E3; [intros; exact I|].
    destruct (_ <=? d) eqn:E4; [intros; exact I|]. destruct (100 <? f) eqn:E5; [intros; exact I|]. intros _.
    unfold make_smpte_offset. rewrite E1, E2, E3, E4, E5.
    replace (negb _) with false; [exact I|]. unfold smpte_rate. destruct (_ =? 0); [reflexivity|]. destruct (_ =? 1); [reflexivity|].
    destruct (_ =? 2); reflexivity. }
  destruct (t =? 47); exact I.
Qed.

Lemma binary_meta_novlf : forall env delta ty r bs (x : outcome bytes), is_byte ty -> slice_vlf r = x -> x = Err \/ x = Panic ->
  if sized_type ty then binary_meta env delta ty r bs = match x with Panic => Panic | _ => Err end
  else quiet (binary_meta env delta ty r bs).
Proof.
  intros env delta ty r bs x Hty Hv Hx. unfold binary_meta, sized_type. rewrite land7f, Hv.
  assert (Ht : 0 <= ty mod 128 < 128) by (unfold is_byte in Hty; lia). set (t := ty mod 128) in *. clearbody t. cbv zeta.
  destruct (text_kind t) as [k|] eqn:Ek.
  { assert (1 <= t <= 9) by (apply text_kind_range; eauto; lia).
    replace (t <=? 9) with true by lia. cbn [orb]. destruct Hx as [-> | ->]; reflexivity. }
  assert (~ 1 <= t <= 9) by (intro K; apply text_kind_range in K as [k K]; [congruence|lia]).
  destruct (Z.eqb_spec t 0) as [->|N0]; [destruct Hx as [-> | ->]; reflexivity|].
  replace (t <=? 9) with false by lia.
  destruct (Z.eqb_spec t 32) as [->|]; [destruct Hx as [-> | ->]; reflexivity|].
  destruct (Z.eqb_spec t 33) as [->|]; [destruct Hx as [-> | ->]; reflexivity|].
  destruct (Z.eqb_spec t 81) as [->|]; [destruct Hx as [-> | ->]; reflexivity|].
  destruct (Z.eqb_spec t 88) as [->|]; [destruct Hx as [-> | ->]; reflexivity|].
  destruct (Z.eqb_spec t 89) as [->|]; [destruct Hx as [-> | ->]; reflexivity|].
  destruct (Z.eqb_spec t 84) as [->|]; [destruct Hx as [-> | ->]; reflexivity|].
  destruct (Z.eqb_spec t 127) as [->|]; [destruct Hx as [-> | ->]; reflexivity|].
  cbn [orb]. destruct (t =? 47); exact I.
Qed.

Lemma crash_panics : forall env bs, is_bytes bs -> crash_alone bs -> event_unmarshal env bs = Panic.
Proof.
  intros env bs Hb H. destruct H as [d delta ty l n x Hd Hl L Hs|d delta st l n x Hd Hl L Hst|d delta ty l data x Hd Hl Ht L|d delta ty l b x Hd Hl Ht|d delta l data x Hd Hl L];
    apply is_bytes_app in Hb as [_ Hb]; apply is_bytes_inv in Hb as [_ Hb].
  - apply is_bytes_inv in Hb as [Hty _]. rewrite (select_meta env d delta) by assumption.
    pose proof (binary_meta_novlf env delta ty (l ++ x) (d ++ 255 :: ty :: l ++ x) Panic Hty (short_slice l n x Hl L) (or_intror eq_refl)) as E.
    rewrite Hs in E. exact E.
  - destruct Hst as [-> | ->]; [rewrite (select_f0 env d delta l n) by assumption|rewrite (select_f7 env d delta l n) by assumption];
      rewrite (short_slice l n x) by assumption; reflexivity.
  - apply is_bytes_inv in Hb as [Hty Hb]. apply is_bytes_app in Hb as [_ Hb]. apply is_bytes_app in Hb as [Hb _].
    rewrite (select_meta env d delta) by assumption.
    pose proof (binary_meta_data env delta ty (l ++ data ++ x) data (d ++ 255 :: ty :: l ++ data ++ x) Hty Hb (length_slice_rest l data x Hl)) as E.
    unfold sized_type, meta_panics in E. rewrite Ht in E. cbn in E. replace (zlen data <? 2) with true in E by lia. exact E.
  - apply is_bytes_inv in Hb as [Hty Hb]. apply is_bytes_app in Hb as [_ Hb]. apply is_bytes_app in Hb as [Hb _].
    rewrite (select_meta env d delta) by assumption.
    pose proof (binary_meta_data env delta ty (l ++ [0; b] ++ x) [0; b] (d ++ 255 :: ty :: l ++ [0; b] ++ x) Hty Hb (length_slice_rest l [0; b] x Hl)) as E.
    unfold sized_type, meta_panics in E. rewrite Ht in E. exact E.
  - rewrite (select_f0 env d delta l (zlen data)) by assumption. rewrite (length_slice_rest l data x Hl). cbn [bind].
    destruct data as [|a [|b data]]; try reflexivity. exfalso. rewrite !zlen_cons in L. pose proof (zlen_nonneg _ data). lia.
Qed.

Lemma panic_or_quiet : forall env bs, is_bytes bs -> crash_alone bs \/ quiet (event_unmarshal env bs).
Proof.
  intros env bs Hb. destruct (reads_split bs Hb) as [H|(d & delta & r & -> & Hd)].
  { right. unfold event_unmarshal, slice_vlq. rewrite H. exact I. }
  apply is_bytes_app in Hb as [_ Hb].
  destruct r as [|st [|ty r]].
  1,2: right; unfold event_unmarshal; rewrite (delta_slice d delta) by assumption; exact I.
  apply is_bytes_inv in Hb as [Hst Hb]. pose proof Hb as Hb'. apply is_bytes_inv in Hb' as [Hty Hr].
  destruct (Z.eq_dec st 255) as [->|N255].
  - rewrite (select_meta env d delta) by assumption.
    destruct (slice_vlf_cases r Hr) as [E|[(l & n & x & -> & Hl & L)|(l & data & x & -> & Hl)]].
    + right. pose proof (binary_meta_novlf env delta ty r (d ++ 255 :: ty :: r) _ Hty E (or_introl eq_refl)) as B.
      destruct (sized_type ty); [rewrite B; exact I|exact B].
    + pose proof (binary_meta_novlf env delta ty (l ++ x) (d ++ 255 :: ty :: l ++ x) _ Hty (short_slice l n x Hl L) (or_intror eq_refl)) as B.
      destruct (sized_type ty) eqn:S; [left|right; exact B]. eapply ca_meta_short; eauto.
    + assert (Hdata : is_bytes data) by (apply is_bytes_app in Hr as [_ Hr]; apply is_bytes_app in Hr as [Hr _]; exact Hr).
      pose proof (binary_meta_data env delta ty (l ++ data ++ x) data (d ++ 255 :: ty :: l ++ data ++ x) Hty Hdata (length_slice_rest l data x Hl)) as B.
      destruct (sized_type ty && meta_panics (ty mod 128) data) eqn:S; [left|right; exact B].
      apply andb_prop in S as [_ S]. unfold meta_panics in S.
      destruct (Z.eqb_spec (ty mod 128) 0) as [E0|_].
      * eapply ca_seqno; eauto. lia.
      * destruct (Z.eqb_spec (ty mod 128) 127) as [E7|_]; [|discriminate].
        destruct data as [|a [|b [|]]]; try discriminate. assert (a = 0) as -> by lia. eapply ca_seqspec; eauto.
  - destruct (Z_lt_le_dec st 128) as [L|L].
    { right. unfold event_unmarshal. rewrite (delta_slice d delta) by assumption. cbn [bind].
      replace (st =? 255) with false by lia.
      assert (K : Z.land st 240 < 128) by (rewrite landf0 by assumption; lia).
      replace (128 <=? Z.land st 240) with false by lia. cbn [andb]. replace (st =? 240) with false by lia. replace (st =? 247) with false by lia. exact I. }
    destruct (Z_lt_le_dec st 240) as [L2|L2].
    { right. rewrite (select_chan env d delta) by (auto; lia). apply binary_chan_quiet. lia. }
    destruct (Z.eq_dec st 240) as [->|N240]; [|destruct (Z.eq_dec st 247) as [->|N247]].
    + destruct (slice_vlf_cases (ty :: r) Hb) as [E|[(l & n & x & E0 & Hl & L')|(l & data & x & E0 & Hl)]].
      * right. unfold event_unmarshal. rewrite (delta_slice d delta) by assumption. cbn [bind Z.eqb Pos.eqb].
        change ((128 <=? Z.land 240 240) && (Z.land 240 240 <=? 224)) with false. cbv iota. rewrite E. exact I.
      * left. rewrite E0. eapply ca_sys_short; eauto.
      * rewrite E0. destruct (Z.ltb_spec (zlen data) 2); [left; eapply ca_sysex; eauto|right].
        rewrite (select_f0 env d delta l (zlen data)) by assumption. rewrite (length_slice_rest l data x Hl). cbn [bind].
        destruct data as [|a [|b data]]; try (cbn in *; lia). cbn [binary_sysex]. destruct (ends_f7 _); exact I.
    + destruct (slice_vlf_cases (ty :: r) Hb) as [E|[(l & n & x & E0 & Hl & L')|(l & data & x & E0 & Hl)]].
      * right. unfold event_unmarshal. rewrite (delta_slice d delta) by assumption. cbn [bind Z.eqb Pos.eqb].
        change ((128 <=? Z.land 247 240) && (Z.land 247 240 <=? 224)) with false. cbv iota. rewrite E. exact I.
      * left. rewrite E0. eapply ca_sys_short; eauto.
      * rewrite E0. right. rewrite (select_f7 env d delta l (zlen data)) by assumption. rewrite (length_slice_rest l data x Hl). cbn [bind].
        unfold binary_continuation. destruct data; exact I.
    + right. unfold event_unmarshal. rewrite (delta_slice d delta) by assumption. cbn [bind].
      replace (st =? 255) with false by lia. rewrite chan_range by lia. replace (st <? 240) with false by lia.
      replace (st =? 240) with false by lia. replace (st =? 247) with false by lia. exact I.
Qed.

Theorem crash_alone_iff : forall env bs, is_bytes bs ->
  (event_unmarshal env bs = Panic <-> crash_alone bs) /\
  ((exists e, event_unmarshal env bs = Ok e) \/ event_unmarshal env bs = Err \/ event_unmarshal env bs = Panic).
Proof.
  intros env bs Hb. split; [split|].
  - intro E. destruct (panic_or_quiet env bs Hb) as [C|Q]; [exact C|]. rewrite E in Q. destruct Q.
  - apply crash_panics. exact Hb.
  - destruct (panic_or_quiet env bs Hb) as [C|Q]; [right; right; apply crash_panics; assumption|].
    destruct (event_unmarshal env bs); eauto; destruct Q.
Qed.

(** What [marshal] writes behind a delta time is in the grammar. *)
Lemma written_in_grammar : forall e, legal_event e -> exists w, marshal e = Ok w /\
  is_bytes (vlq_encode (e_delta e) ++ w) /\ event_bytes (vlq_encode (e_delta e) ++ w) (e_delta e) (view (e_body e)).
Proof.
  intros e He. destruct (marshal_form e He) as (w & Ew & Hf). exists w. split; [exact Ew|].
  destruct He as (_ & Hd & Hbody). pose proof (delta_field_encode _ Hd) as Hr.
  assert (Hbd : is_bytes (vlq_encode (e_delta e))) by (apply vlq_encode_is_bytes, Hd).
  set (d := vlq_encode (e_delta e)) in *.
  destruct Hf as [st data Hc Hbs Hsx|ty l data Hc Hlf Hbs Hsx|m dd single l Hbe Hlf Hbs|dd fin l Hbe Hlf Hbs|dd l Hbe Hlf Hbs];
    (split; [apply is_bytes_app; split; assumption|]).
  - apply eb_chan; assumption.
  - apply eb_meta; assumption.
  - rewrite Hbe in *. cbn [view legal_body] in *. destruct Hbody as (B1 & B2 & B3).
    rewrite (app_assoc (m_id m)) in *. set (p := m_id m ++ dd) in *. destruct single.
    + apply eb_sysex_single; assumption.
    + destruct B3 as [B3 B4]. destruct (snoc_exists p 0) as [q Eq]; [lia|].
      assert (Hq : q <> []) by (intro E; rewrite E in Eq; rewrite Eq in B3; cbn in B3; lia).
      rewrite app_nil_r in *. rewrite Eq in *. rewrite last_last in *. apply eb_sysex_first; assumption.
  - rewrite Hbe in *. cbn [view legal_body] in *. destruct Hbody as (B1 & B2 & B3). destruct fin.
    + apply eb_cont_last; assumption.
    + rewrite app_nil_r in *. apply eb_cont; [assumption| |assumption]. destruct B3 as [B3|B3]; [discriminate|exact B3].
  - rewrite Hbe in *. cbn [view]. apply eb_escape; assumption.
Qed.

Theorem written_alone : forall env e, legal_event e -> read_alone (view (e_body e)) -> ids_faithful env (view (e_body e)) ->
  exists w e', marshal e = Ok w /\ event_unmarshal env (vlq_encode (e_delta e) ++ w) = Ok e' /\
    ev_view e' = (e_delta e, forget_end (view (e_body e))).
Proof.
  intros env e He Hr Hid. destruct (written_in_grammar e He) as (w & Ew & Hb & Hg).
  destruct (event_alone env _ _ _ Hb Hg Hr Hid) as (e' & E & V & _). exists w, e'. auto.
Qed.
