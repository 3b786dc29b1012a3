From Verif Require Import Base Strings Tables Vlq SpecVlq VlqProofs Event SpecEvent Parse Track SpecPacket.

(** ** Reading fields *)

Lemma consumed_app : forall p rest, consumed (p ++ rest) rest = p.
Proof.
  intros p rest. unfold consumed. rewrite app_length.
  replace (length p + length rest - length rest)%nat with (length p) by lia.
  apply firstn_app_exact.
Qed.

Lemma consumed_eq : forall r p rest, r = p ++ rest -> consumed r rest = p.
Proof. intros; subst; apply consumed_app. Qed.

Lemma delta_reads : forall d delta, delta_field d delta -> reads d delta.
Proof.
  intros d delta (A & B & C). split; [exact A|]. pose proof (vlq_denotes_nonneg d). rewrite B. apply Z.mod_small. lia.
Qed.

Lemma length_reads : forall l data, length_field l data -> reads_len l data.
Proof. intros l data (A & B & C). apply delta_reads. repeat split; assumption. Qed.

Lemma delta_read : forall d delta x, reads d delta -> vlq_read 0 (d ++ x) = Some (delta, x).
Proof.
  intros d delta x (Hs & Hv). rewrite vlq_read_spec by (auto; lia).
  rewrite Z.mul_0_l, Z.add_0_l, Hv. reflexivity.
Qed.

Lemma delta_stream : forall d delta x, reads d delta -> stream_vlq (d ++ x) = Ok (delta, x).
Proof. intros. unfold stream_vlq. rewrite (delta_read d delta) by assumption. reflexivity. Qed.

Lemma delta_slice : forall d delta x, reads d delta -> slice_vlq (d ++ x) = Ok (delta, x).
Proof. intros. unfold slice_vlq. rewrite (delta_read d delta) by assumption. reflexivity. Qed.

Lemma reads_len_reads : forall l data, reads_len l data -> reads l (zlen data).
Proof. intros l data H. exact H. Qed.

Lemma length_stream : forall l data x, reads_len l data -> stream_vlf (l ++ data ++ x) = Ok (data, x).
Proof.
  intros l data x H. unfold stream_vlf. rewrite (delta_stream l (zlen data)) by (apply reads_len_reads, H).
  cbn [bind]. rewrite zlen_app. pose proof (zlen_nonneg _ x).
  destruct (Z.ltb_spec (zlen data + zlen x) (zlen data)); [lia|].
  unfold zlen. rewrite Nat2Z.id, firstn_app_exact, skipn_app_exact. reflexivity.
Qed.

Lemma length_slice : forall l data, reads_len l data -> slice_vlf (l ++ data) = Ok data.
Proof.
  intros l data H. unfold slice_vlf. rewrite (delta_slice l (zlen data)) by (apply reads_len_reads, H).
  cbn [bind]. destruct (Z.ltb_spec (zlen data) (zlen data)); [lia|].
  unfold zlen. rewrite Nat2Z.id, firstn_all. reflexivity.
Qed.

(** ** [parse] on well-formed prefixes *)

Lemma status_ltb : forall st, 128 <= st -> (st <? 128) = false.
Proof. intros. lia. Qed.

Lemma parse_status : forall env c tick d delta st data rest,
  reads d delta -> 128 <= st < 240 -> length data = data_length st ->
  parse env c tick (d ++ st :: data ++ rest) =
  do e <- new_event (unmarshal_midi env (tick + delta) delta st data (d ++ st :: data));
  Ok (e, set_running st c, rest).
Proof.
  intros env c tick d delta st data rest Hd Hst Hlen. unfold parse.
  rewrite (delta_stream d delta) by assumption. cbn [bind].
  rewrite (status_ltb st) by lia. cbn [andb].
  destruct (Z.eqb_spec st 255); [lia|].
  destruct (Z.eqb_spec st 240); [lia|]. destruct (Z.eqb_spec st 247); [lia|]. cbn [orb].
  rewrite app_length, <- Hlen.
  destruct (Nat.ltb_spec (length data + length rest) (length data)); [lia|].
  rewrite skipn_app_exact.
  rewrite (consumed_eq _ (d ++ st :: data) rest) by (rewrite <- app_assoc; reflexivity).
  unfold midi_parse. rewrite (delta_slice d delta) by assumption. cbn [bind].
  rewrite (status_ltb st) by lia. reflexivity.
Qed.

Lemma parse_running : forall env c tick d delta data rest,
  reads d delta -> 128 <= c_running c < 240 -> length data = data_length (c_running c) ->
  data <> [] -> hd 0 data < 128 ->
  parse env c tick (d ++ data ++ rest) =
  do e <- new_event (unmarshal_midi env (tick + delta) delta (c_running c) data (d ++ data));
  Ok (e, c, rest).
Proof.
  intros env c tick d delta data rest Hd Hst Hlen Hne Hhd. unfold parse.
  rewrite (delta_stream d delta) by assumption. cbn [bind].
  destruct data as [|x data']; [congruence|]. cbn [hd] in Hhd. cbn [app].
  replace (x <? 128) with true by lia. rewrite (status_ltb (c_running c)) by lia. cbn [andb].
  destruct (Z.eqb_spec (c_running c) 255); [lia|].
  destruct (Z.eqb_spec (c_running c) 240); [lia|]. destruct (Z.eqb_spec (c_running c) 247); [lia|]. cbn [orb].
  change (x :: data' ++ rest) with ((x :: data') ++ rest).
  rewrite app_length, <- Hlen.
  destruct (Nat.ltb_spec (length (x :: data') + length rest) (length (x :: data'))); [lia|].
  rewrite skipn_app_exact.
  rewrite (consumed_eq _ (d ++ x :: data') rest) by (rewrite <- app_assoc; reflexivity).
  unfold midi_parse. rewrite (delta_slice d delta) by assumption. cbn [bind].
  replace (x <? 128) with true by lia.
  destruct (unmarshal_midi _ _ _ _ _ _); cbn; try reflexivity.
  destruct c; reflexivity.
Qed.

Lemma parse_meta : forall env c tick d delta ty l data rest,
  reads d delta -> reads_len l data ->
  parse env c tick (d ++ 255 :: ty :: l ++ data ++ rest) =
  do e <- new_event (unmarshal_meta env (tick + delta) delta (Z.land ty 127) data (d ++ 255 :: ty :: l ++ data));
  Ok (e, set_running 0 c, rest).
Proof.
  intros env c tick d delta ty l data rest Hd Hl. unfold parse.
  rewrite (delta_stream d delta) by assumption. cbn [bind].
  change (255 <? 128) with false. cbn [andb]. change (255 =? 255) with true. cbn iota.
  rewrite (length_stream l data) by assumption. cbn [bind].
  rewrite (consumed_eq _ (d ++ 255 :: ty :: l ++ data) rest)
    by (rewrite <- app_assoc; cbn [app]; rewrite <- app_assoc; reflexivity).
  unfold meta_parse. rewrite (delta_slice d delta) by assumption. cbn [bind].
  change (255 =? 255) with true. cbn [negb].
  rewrite (length_slice l data) by assumption. reflexivity.
Qed.

(** Last byte of the raw event = last byte of the payload (or a length byte). *)
Lemma ends_f7_app : forall p q, q <> [] -> ends_f7 (p ++ q) = ends_f7 q.
Proof.
  intros p q Hq. unfold ends_f7. f_equal. induction p as [|x p IH]; [reflexivity|].
  cbn [app]. destruct (p ++ q) eqn:E.
  - destruct p; [cbn in E; congruence|discriminate].
  - cbn [last]. exact IH.
Qed.

Lemma ends_f7_snoc : forall p x, ends_f7 (p ++ [x]) = (x =? 247).
Proof. intros. rewrite ends_f7_app by discriminate. reflexivity. Qed.

Lemma vlq_string_last : forall l, vlq_string l -> 0 <= last l 0 < 128.
Proof.
  intros l H. induction H as [b Hb|b bs Hb Hs IH]; [exact Hb|].
  destruct bs; [inversion Hs|]. exact IH.
Qed.

Lemma ends_f7_raw : forall p l data, vlq_string l ->
  ends_f7 (p ++ l ++ data) = match data with [] => false | _ => ends_f7 data end.
Proof.
  intros p l data Hl. destruct data as [|x data].
  - rewrite app_nil_r, ends_f7_app by (destruct Hl; discriminate).
    unfold ends_f7. pose proof (vlq_string_last l Hl). lia.
  - rewrite !ends_f7_app; try discriminate; [reflexivity|].
    intro E. apply app_eq_nil in E as [_ E]. discriminate.
Qed.

Lemma parse_f0 : forall env c tick d delta l data rest,
  reads d delta -> reads_len l data -> c_casio c = false ->
  parse env c tick (d ++ 240 :: l ++ data ++ rest) =
  do e <- unmarshal_sysex env (tick + delta) delta data (d ++ 240 :: l ++ data);
  Ok (e, set_casio (negb (match data with [] => false | _ => ends_f7 data end)) (set_running 0 c), rest).
Proof.
  intros env c tick d delta l data rest Hd Hl Hc. unfold parse.
  rewrite (delta_stream d delta) by assumption. cbn [bind].
  change (240 <? 128) with false. cbn [andb]. change (240 =? 255) with false.
  change (240 =? 240) with true. cbn [orb]. cbn iota.
  rewrite (length_stream l data) by assumption. cbn [bind]. rewrite Hc. cbn [andb].
  rewrite (consumed_eq _ (d ++ 240 :: l ++ data) rest)
    by (rewrite <- app_assoc; cbn [app]; rewrite <- app_assoc; reflexivity).
  unfold sysex_parse. rewrite (delta_slice d delta) by assumption. cbn [bind].
  change (240 =? 240) with true. cbn [orb negb].
  rewrite (length_slice l data) by assumption. cbn [bind].
  replace (d ++ 240 :: l ++ data) with ((d ++ [240]) ++ l ++ data) by (rewrite <- app_assoc; reflexivity).
  rewrite ends_f7_raw by apply Hl. reflexivity.
Qed.

Lemma parse_f7 : forall env c tick d delta l data rest,
  reads d delta -> reads_len l data ->
  parse env c tick (d ++ 247 :: l ++ data ++ rest) =
  do e <- (if c_casio c then unmarshal_continuation (tick + delta) delta data (d ++ 247 :: l ++ data)
           else Ok (make_escape (tick + delta) delta data (d ++ 247 :: l ++ data)));
  Ok (e, set_casio (c_casio c && negb (match data with [] => false | _ => ends_f7 data end)) (set_running 0 c), rest).
Proof.
  intros env c tick d delta l data rest Hd Hl. unfold parse.
  rewrite (delta_stream d delta) by assumption. cbn [bind].
  change (247 <? 128) with false. cbn [andb]. change (247 =? 255) with false.
  change (247 =? 240) with false. change (247 =? 247) with true. cbn [orb]. cbn iota.
  rewrite (length_stream l data) by assumption. cbn [bind andb].
  rewrite (consumed_eq _ (d ++ 247 :: l ++ data) rest)
    by (rewrite <- app_assoc; cbn [app]; rewrite <- app_assoc; reflexivity).
  unfold sysex_parse. rewrite (delta_slice d delta) by assumption. cbn [bind].
  change (247 =? 240) with false. change (247 =? 247) with true. cbn [orb negb].
  rewrite (length_slice l data) by assumption. cbn [bind]. cbn iota.
  replace (d ++ 247 :: l ++ data) with ((d ++ [247]) ++ l ++ data) by (rewrite <- app_assoc; reflexivity).
  rewrite ends_f7_raw by apply Hl.
  destruct (c_casio c); cbn [andb negb]; [|reflexivity].
  destruct data as [|x data']; [reflexivity|]. destruct (ends_f7 (x :: data')); reflexivity.
Qed.

(** ** Unmarshalling the messages of the grammar *)

Lemma land_channel : forall s ch, In s [128; 144; 160; 176; 192; 208; 224] -> 0 <= ch < 16 ->
  Z.land (s + ch) 15 = ch /\ Z.land (s + ch) 240 = s /\ or_status s ch = s + ch.
Proof.
  intros s ch Hs Hc.
  assert (H : forallb (fun s => forallb (fun c => (Z.land (s + c) 15 =? c) && (Z.land (s + c) 240 =? s)
                && (or_status s c =? s + c)) (map Z.of_nat (seq 0 16)))
                [128; 144; 160; 176; 192; 208; 224] = true) by (vm_compute; reflexivity).
  rewrite forallb_forall in H. specialize (H s Hs). rewrite forallb_forall in H.
  specialize (H ch). assert (I : In ch (map Z.of_nat (seq 0 16))).
  { apply in_map_iff. exists (Z.to_nat ch). split; [lia|]. apply in_seq. lia. }
  specialize (H I). lia.
Qed.

Ltac in_list := cbn [In]; repeat (first [left; reflexivity | right]).

Lemma lookup_controller_id : forall id, 0 <= id < 256 -> c_id (lookup_controller id) = id.
Proof.
  intros id H.
  pose proof (byte_sweep (fun b => c_id (lookup_controller b) =? b) ltac:(vm_compute; reflexivity) id H) as E.
  lia.
Qed.

(** Normalise the nibble tests of an explicit status. *)
Ltac status_tests s ch Hc :=
  destruct (land_channel s ch ltac:(in_list) Hc) as (L15 & L240 & Lor);
  rewrite ?L15, ?L240, ?Lor;
  repeat match goal with
  | |- context[?a =? ?b] => let v := eval vm_compute in (a =? b) in
      match v with true => change (a =? b) with true | false => change (a =? b) with false end
  end; cbn iota.

Lemma bend_value : forall a b, 0 <= a < 128 -> 0 <= b < 128 ->
  Z.lor (Z.shiftl a 7 mod 65536) (Z.land b 127) = a * 128 + b.
Proof.
  intros a b Ha Hb. rewrite land7f, shl7, !Z.mod_small by lia.
  rewrite Z.add_nocarry_lxor, Z.lxor_lor; auto.
  all: apply Z.bits_inj'; intros n Hn; rewrite Z.land_spec, Z.bits_0.
  all: replace (a * 128) with (Z.shiftl a 7) by (rewrite Z.shiftl_mul_pow2 by lia; reflexivity).
  all: destruct (Z.ltb_spec n 7);
    [rewrite Z.shiftl_spec_low by lia; reflexivity
    |rewrite <- (Z.mod_small b (2 ^ 7)) by lia; rewrite Z.mod_pow2_bits_high by lia; apply andb_false_r].
Qed.

Lemma unmarshal_chan : forall env tick delta st data c bs, chan_msg st data c ->
  exists b, unmarshal_midi env tick delta st data bs = Ok (Event tick delta bs st 0 b) /\ view b = c.
Proof.
  intros env tick delta st data c bs H. destruct H; unfold unmarshal_midi.
  - status_tests 128 ch H.
    unfold make_note_off. replace (127 <? v) with false by lia. replace (15 <? ch) with false by lia.
    rewrite lor_channel by (try in_list; lia). eexists. split; reflexivity.
  - status_tests 144 ch H.
    unfold make_note_on. replace (127 <? v) with false by lia. replace (15 <? ch) with false by lia.
    rewrite lor_channel by (try in_list; lia). eexists. split; reflexivity.
  - status_tests 160 ch H.
    unfold make_polyphonic_pressure. replace (127 <? p) with false by lia. replace (15 <? ch) with false by lia.
    rewrite Lor. eexists. split; reflexivity.
  - status_tests 176 ch H.
    unfold make_controller. replace (15 <? ch) with false by lia.
    rewrite Lor. eexists. split; [reflexivity|]. cbn [view]. rewrite lookup_controller_id by lia. reflexivity.
  - status_tests 192 ch H.
    unfold make_program_change. replace (15 <? ch) with false by lia.
    rewrite Lor. eexists. split; reflexivity.
  - status_tests 208 ch H.
    unfold make_channel_pressure. replace (127 <? p) with false by lia. replace (15 <? ch) with false by lia.
    rewrite Lor. eexists. split; reflexivity.
  - status_tests 224 ch H.
    unfold make_pitch_bend. replace (15 <? ch) with false by lia.
    rewrite lor_channel by (try in_list; lia). eexists. split; [reflexivity|].
    cbn [view]. rewrite bend_value by lia. reflexivity.
Qed.

Lemma chan_msg_facts : forall st data c, chan_msg st data c ->
  128 <= st < 240 /\ length data = data_length st /\ data <> [] /\ hd 0 data < 128.
Proof.
  intros st data c H.
  destruct H; (split; [lia|]); unfold data_length.
  all: match goal with |- context[Z.land (?s + ?ch) 240] =>
    destruct (land_channel s ch ltac:(in_list) ltac:(lia)) as (_ & L & _); rewrite L end.
  all: split; [reflexivity|split; [discriminate|cbn; lia]].
Qed.

(** Manufacturer lookup. *)

Lemma hex2_byte : forall b, is_byte b -> hex2 b = hex_byte b.
Proof.
  intros b H.
  pose proof (byte_sweep (fun b => bytes_eqb (hex2 b) (hex_byte b)) ltac:(vm_compute; reflexivity) b H) as E.
  apply bytes_eqb_eq in E. exact E.
Qed.

Lemma assocb_in : forall A k (l : list (bytes * A)) v, assocb k l = Some v -> In (k, v) l.
Proof.
  induction l as [|[k' v'] l IH]; intros v H; cbn in H; [discriminate|].
  destruct (bytes_eqb k k') eqn:E.
  - injection H as <-. apply bytes_eqb_eq in E. subst. left. reflexivity.
  - right. apply IH, H.
Qed.

Lemma lookup_manufacturer_id : forall env id, is_bytes id -> id_faithful env id ->
  m_id (lookup_manufacturer env id) = id.
Proof.
  intros env id Hb Hf. unfold lookup_manufacturer. unfold id_faithful in Hf.
  destruct id as [|a [|b [|c [|d r]]]]; try reflexivity.
  - inversion Hb; subst. rewrite hex2_byte by assumption. cbn [id_key] in Hf.
    destruct (assocb _ _) eqn:E; [|reflexivity]. apply Hf, assocb_in, E.
  - inversion Hb as [|? ? ? Hb1]; subst. inversion Hb1 as [|? ? ? Hb2]; subst. inversion Hb2 as [|? ? ? Hb3]; subst.
    rewrite !hex2_byte by assumption. cbn [id_key] in Hf.
    destruct (assocb _ _) eqn:E; [|reflexivity]. apply Hf, assocb_in, E.
Qed.

Lemma smf_text_type_kind : forall k, text_kind (Z.land (smf_text_type k) 127) = Some k.
Proof. destruct k; reflexivity. Qed.

Lemma smf_text_type_eq : forall k, smf_text_type k = text_type k.
Proof. destruct k; reflexivity. Qed.

Lemma double_loop_pow : forall d, 0 <= d < 8 -> double_loop (Z.to_nat d) 1 = 2 ^ d.
Proof.
  intros d H.
  pose proof (byte_sweep (fun d => if d <? 8 then double_loop (Z.to_nat d) 1 =? 2 ^ d else true)
    ltac:(vm_compute; reflexivity) d ltac:(unfold is_byte; lia)) as E. cbn beta in E.
  destruct (Z.ltb_spec d 8); lia.
Qed.

Lemma log2_loop_pow : forall d, 0 <= d < 8 -> log2_loop 9 1 (2 ^ d) 0 = Ok d.
Proof.
  intros d H.
  pose proof (byte_sweep (fun d => if d <? 8 then
      match log2_loop 9 1 (2 ^ d) 0 with Ok x => x =? d | _ => false end else true)
    ltac:(vm_compute; reflexivity) d ltac:(unfold is_byte; lia)) as E. cbn beta in E.
  destruct (Z.ltb_spec d 8); [|lia].
  destruct (log2_loop 9 1 (2 ^ d) 0); try discriminate. f_equal. lia.
Qed.

Lemma scale_exists : forall acc, -7 <= acc <= 7 ->
  (exists s, major_scale acc = Some s) /\ (exists s, minor_scale acc = Some s).
Proof.
  intros acc H.
  assert (E : forallb (fun i => match major_scale (Z.of_nat i - 7), minor_scale (Z.of_nat i - 7) with
      | Some _, Some _ => true | _, _ => false end) (seq 0 15) = true) by (vm_compute; reflexivity).
  rewrite forallb_forall in E. specialize (E (Z.to_nat (acc + 7))).
  rewrite in_seq in E. specialize (E ltac:(lia)).
  replace (Z.of_nat (Z.to_nat (acc + 7)) - 7) with acc in E by lia.
  destruct (major_scale acc), (minor_scale acc); try discriminate. split; eexists; reflexivity.
Qed.

Lemma smpte_first : forall rr h, 0 <= rr < 4 -> 0 <= h < 32 ->
  Z.land (Z.shiftr (rr * 32 + h) 5) 3 = rr /\ Z.land (rr * 32 + h) 31 = h.
Proof.
  intros rr h Hr Hh. rewrite Z.shiftr_div_pow2 by lia. change (2 ^ 5) with 32.
  change 3 with (Z.ones 2). change 31 with (Z.ones 5). rewrite !Z.land_ones by lia.
  change (2 ^ 2) with 4. change (2 ^ 5) with 32. lia.
Qed.

Lemma of_be16_val : forall a b, of_be16 a b = a * 256 + b.
Proof. reflexivity. Qed.

Lemma be_fold3 : forall a b c, 0 <= a < 256 -> 0 <= b < 256 -> 0 <= c < 256 ->
  be_fold [a; b; c] = a * 65536 + b * 256 + c.
Proof.
  intros a b c Ha Hb Hc. unfold be_fold. cbn [fold_left].
  rewrite !Z.shiftl_mul_pow2 by lia. change (2 ^ 8) with 256. lia.
Qed.

Lemma int8_acc : forall acc, -7 <= acc <= 7 -> int8 (acc mod 256) = acc.
Proof. intros acc H. unfold int8. destruct (Z.ltb_spec (acc mod 256) 128); lia. Qed.

(** Evaluate equality tests between numerals. *)
Ltac eq_tests :=
  repeat match goal with
  | |- context[?a =? ?b] => let v := eval vm_compute in (a =? b) in
      match v with true => change (a =? b) with true | false => change (a =? b) with false end
  end; cbn iota.

Lemma unmarshal_meta_msg : forall env tick delta ty data c bs, meta_msg ty data c ->
  is_bytes data -> ids_faithful env c ->
  exists b, unmarshal_meta env tick delta (Z.land ty 127) data bs = Ok (Event tick delta bs 255 ty b) /\ view b = c.
Proof.
  intros env tick delta ty data c bs H Hbytes Hid. destruct H.
  - eexists. split; reflexivity.
  - unfold unmarshal_meta. rewrite smf_text_type_kind, smf_text_type_eq. eexists. split; reflexivity.
  - unfold unmarshal_meta. change (text_kind (Z.land 32 127)) with (@None textkind). cbn iota. eq_tests.
    unfold make_channel_prefix. replace (15 <? ch) with false by lia. eexists. split; reflexivity.
  - unfold unmarshal_meta. change (text_kind (Z.land 33 127)) with (@None textkind). cbn iota. eq_tests.
    unfold make_port. replace (127 <? p) with false by lia. eexists. split; reflexivity.
  - eexists. split; reflexivity.
  - unfold unmarshal_meta. change (text_kind (Z.land 81 127)) with (@None textkind). cbn iota. eq_tests.
    rewrite be_fold3 by lia. eexists. split; reflexivity.
  - unfold unmarshal_meta. change (text_kind (Z.land 84 127)) with (@None textkind). cbn iota. eq_tests.
    unfold unmarshal_smpte.
    assert (Hr : 0 <= rr < 4) by (destruct H; lia).
    assert (Hrate : smpte_rate rr = rate) by (destruct H; reflexivity).
    assert (Hrates : rate = 24 \/ rate = 25 \/ rate = 29 \/ rate = 30) by (destruct H; lia).
    destruct (smpte_first rr h Hr ltac:(lia)) as [-> ->]. rewrite Hrate.
    unfold make_smpte_offset.
    replace (24 <? h) with false by lia. replace (59 <? m) with false by lia.
    replace (59 <? s) with false by lia. replace (rate <=? f) with false by lia.
    replace (100 <? ff) with false by lia.
    replace (negb ((rate =? 24) || (rate =? 25) || (rate =? 29) || (rate =? 30))) with false by lia.
    eexists. split; reflexivity.
  - unfold unmarshal_meta. change (text_kind (Z.land 88 127)) with (@None textkind). cbn iota. eq_tests.
    unfold make_time_signature. rewrite double_loop_pow, log2_loop_pow by lia.
    eexists. split; reflexivity.
  - unfold unmarshal_meta. change (text_kind (Z.land 89 127)) with (@None textkind). cbn iota. eq_tests.
    unfold unmarshal_key. subst a. rewrite int8_acc by lia.
    destruct (scale_exists acc H) as [[s1 E1] [s2 E2]].
    unfold make_key_signature.
    destruct H1; subst kt; eq_tests; rewrite ?E1, ?E2; eexists; split; reflexivity.
  - unfold unmarshal_meta. change (text_kind (Z.land 127 127)) with (@None textkind). cbn iota. eq_tests.
    cbn [ids_faithful] in Hid. unfold unmarshal_seqspec.
    destruct H; cbn [app seqspec_id] in *.
    + inversion Hbytes; subst.
      assert (Hne : (a =? 0) = false) by lia. rewrite Hne.
      assert (Hid' : id_faithful env [a]).
      { destruct a; [lia| |lia]. exact Hid. }
      eexists. split; [reflexivity|]. cbn [view].
      rewrite lookup_manufacturer_id; [reflexivity|(constructor; [assumption|constructor])|exact Hid'].
    + change (0 =? 0) with true. cbn iota. eexists. split; [reflexivity|]. cbn [view].
      rewrite lookup_manufacturer_id; [reflexivity| |exact Hid].
      repeat constructor; unfold is_byte; lia.
Qed.

(** ** Post-processing keeps everything but names and bank *)

Lemma post_process_view : forall env c e e' c', post_process env c e = (e', c') ->
  ev_view e' = ev_view e /\ e_tick e' = e_tick e /\ e_bytes e' = e_bytes e /\ e_delta e' = e_delta e
  /\ e_status e' = e_status e /\ e_type e' = e_type e
  /\ c_running c' = c_running c /\ c_casio c' = c_casio c.
Proof.
  intros env c e e' c' H. unfold post_process in H. destruct e as [t d bs st ty b]. cbn [e_body] in H.
  destruct b; try (injection H as <- <-; repeat split; reflexivity).
  destruct (c_id c0 =? 0); [injection H as <- <-; repeat split; reflexivity|].
  destruct (c_id c0 =? 32); injection H as <- <-; repeat split; reflexivity.
Qed.

(** ** The event loop: fuel *)

Lemma stream_vlq_shorter : forall r v rest, stream_vlq r = Ok (v, rest) -> (length rest < length r)%nat.
Proof.
  intros r v rest H. unfold stream_vlq in H. destruct (vlq_read 0 r) as [[v' rest']|] eqn:E; [|discriminate].
  injection H as <- <-. apply vlq_read_suffix in E as (bs & -> & Hne & _).
  rewrite app_length. destruct bs; [congruence|cbn; lia].
Qed.

Lemma stream_vlf_shorter : forall r v rest, stream_vlf r = Ok (v, rest) -> (length rest < length r)%nat.
Proof.
  intros r v rest H. unfold stream_vlf in H. destruct (stream_vlq r) as [[n r']| | | |] eqn:E; try discriminate.
  cbn [bind] in H. apply stream_vlq_shorter in E.
  destruct (zlen r' <? n); [discriminate|]. injection H as <- <-. rewrite skipn_length. lia.
Qed.

Lemma parse_shorter : forall env c tick r e c' rest, parse env c tick r = Ok (e, c', rest) ->
  (length rest < length r)%nat.
Proof.
  intros env c tick r e c' rest H. unfold parse in H.
  destruct (stream_vlq r) as [[delta r1]| | | |] eqn:E; try discriminate. cbn [bind] in H.
  apply stream_vlq_shorter in E. destruct r1 as [|b r1']; [discriminate|].
  destruct ((b <? 128) && (c_running c <? 128)); [discriminate|].
  cbv zeta in H.
  set (status := if b <? 128 then c_running c else b) in *.
  set (r2 := if b <? 128 then b :: r1' else r1') in *.
  assert (L : (length r2 <= length (b :: r1'))%nat) by (unfold r2; destruct (b <? 128); cbn; lia).
  clearbody r2 status.
  destruct (status =? 255).
  - destruct r2 as [|x r3]; [discriminate|].
    destruct (stream_vlf r3) as [[d' rest']| | | |] eqn:E3; try discriminate. cbn [bind] in H.
    destruct (new_event _); try discriminate. cbn [bind] in H. injection H as <- <- <-.
    apply stream_vlf_shorter in E3. cbn [length] in *. lia.
  - destruct ((status =? 240) || (status =? 247)).
    + destruct (stream_vlf r2) as [[d' rest']| | | |] eqn:E3; try discriminate. cbn [bind] in H.
      destruct ((status =? 240) && c_casio c); [discriminate|].
      destruct (sysex_parse _ _ _ _); try discriminate. cbn [bind] in H. injection H as <- <- <-.
      apply stream_vlf_shorter in E3. lia.
    + destruct (length r2 <? data_length status)%nat; [discriminate|].
      destruct (new_event _); try discriminate. cbn [bind] in H. injection H as <- <- <-.
      rewrite skipn_length. lia.
Qed.

Lemma events_loop_fuel : forall f1 f2 env c tick r, (length r < f1)%nat -> (length r < f2)%nat ->
  events_loop f1 env c tick r = events_loop f2 env c tick r.
Proof.
  induction f1 as [|f1 IH]; intros f2 env c tick r H1 H2; [lia|].
  destruct f2 as [|f2]; [lia|]. cbn [events_loop].
  destruct (parse env c tick r) as [[[e c1] rest]| | | |] eqn:E; try reflexivity.
  apply parse_shorter in E. destruct (post_process env c1 e) as [e' c2].
  rewrite (IH f2) by lia. reflexivity.
Qed.

(** Unfolding the loop without the fuel. *)
Definition loop_from (env : env) (c : ctx) (tick : Z) (r : bytes) : outcome (list event * ctx) :=
  events_loop (S (length r)) env c tick r.

Lemma loop_from_eq : forall env c tick r, loop_from env c tick r =
  match parse env c tick r with
  | Ok (e, c1, rest) =>
      let (e', c2) := post_process env c1 e in
      do (es, c3) <- loop_from env c2 ((tick + e_delta e) mod 4294967296) rest;
      Ok (e' :: es, c3)
  | Eof => Ok ([], c)
  | Err => Err
  | Panic => Panic
  | Loop => Loop
  end.
Proof.
  intros. unfold loop_from at 1. cbn [events_loop].
  destruct (parse env c tick r) as [[[e c1] rest]| | | |] eqn:E; try reflexivity.
  apply parse_shorter in E. destruct (post_process env c1 e) as [e' c2].
  unfold loop_from. rewrite (events_loop_fuel (length r) (S (length rest))) by lia. reflexivity.
Qed.

Lemma decode_events_eq : forall env c r, decode_events env c r = loop_from env c 0 r.
Proof. reflexivity. Qed.

Lemma parse_nil : forall env c tick, parse env c tick [] = Eof.
Proof. reflexivity. Qed.

Lemma is_bytes_app : forall a b, is_bytes (a ++ b) <-> is_bytes a /\ is_bytes b.
Proof. intros. unfold is_bytes. apply Forall_app. Qed.

Lemma unmarshal_sysex_single : forall env tick delta payload bs, payload <> [] ->
  is_bytes payload -> id_faithful env (payload_id payload) ->
  exists b, unmarshal_sysex env tick delta (payload ++ [247]) bs = Ok (Event tick delta bs 240 0 b)
    /\ view b = CSysEx payload true.
Proof.
  intros env tick delta payload bs Hne Hb Hid. destruct payload as [|x p]; [congruence|].
  unfold unmarshal_sysex. cbn [app]. destruct (p ++ [247]) as [|y q] eqn:E.
  { destruct p; discriminate. }
  rewrite <- E, ends_f7_snoc. change (247 =? 247) with true. cbn iota.
  rewrite removelast_last. eexists. split; [reflexivity|]. cbn [view].
  inversion Hb; subst. rewrite lookup_manufacturer_id; [reflexivity|(constructor; [assumption|constructor])|exact Hid].
Qed.

Lemma unmarshal_sysex_first : forall env tick delta payload z bs, payload <> [] -> z <> 247 ->
  is_bytes payload -> id_faithful env (payload_id (payload ++ [z])) ->
  exists b, unmarshal_sysex env tick delta (payload ++ [z]) bs = Ok (Event tick delta bs 240 0 b)
    /\ view b = CSysEx (payload ++ [z]) false.
Proof.
  intros env tick delta payload z bs Hne Hz Hb Hid. destruct payload as [|x p]; [congruence|].
  unfold unmarshal_sysex. cbn [app]. destruct (p ++ [z]) as [|y q] eqn:E.
  { destruct p; discriminate. }
  rewrite <- E, ends_f7_snoc. destruct (Z.eqb_spec z 247); [congruence|].
  eexists. split; [reflexivity|]. cbn [view].
  inversion Hb; subst. rewrite lookup_manufacturer_id; [reflexivity|(constructor; [assumption|constructor])|exact Hid].
Qed.

(** ** Decoding a track written in the grammar *)

Theorem decode_grammar : forall env rs op evs bs, track_bytes rs op evs bs ->
  is_bytes bs -> Forall (fun p => ids_faithful env (snd p)) evs ->
  forall c tick, c_running c = rs -> c_casio c = op ->
  exists es c', loop_from env c tick bs = Ok (es, c') /\
    map ev_view es = map (fun p => (fst p, forget_end (snd p))) evs.
Proof.
  intros env rs op evs bs H.
  induction H as
   [ rs op
   | rs op d delta st data c0 evs bs Hd Hm Ht IH
   | op d delta st data c0 evs bs Hd Hm Ht IH
   | rs op d delta ty l data c0 evs bs Hd Hm Hl Ht IH
   | rs d delta l payload evs bs Hd Hne Hl Ht IH
   | rs d delta l payload x evs bs Hd Hne Hx Hl Ht IH
   | rs d delta l payload evs bs Hd Hx Hl Ht IH
   | rs d delta l payload evs bs Hd Hl Ht IH
   | rs d delta l payload evs bs Hd Hl Ht IH ]; intros Hb Hid c tick Hrs Hop;
  try apply delta_reads in Hd; try apply length_reads in Hl; rewrite loop_from_eq.
  - rewrite parse_nil. exists [], c. split; reflexivity.
  - assert (Hf : forget_end c0 = c0) by (destruct Hm; reflexivity).
    destruct (chan_msg_facts _ _ _ Hm) as (Hst & Hlen & _ & _).
    rewrite (parse_status env c tick d delta st data bs Hd Hst Hlen).
    destruct (unmarshal_chan env (tick + delta) delta st data c0 (d ++ st :: data) Hm) as (b & -> & Hv).
    subst c0. cbn [new_event bind]. destruct (post_process _ _ _) as [e' c2] eqn:P.
    apply post_process_view in P as (Pv & _ & _ & _ & _ & _ & Pr & Pc). cbn [e_delta].
    apply is_bytes_app in Hb as [_ Hb]. inversion Hb as [|? ? _ Hb']; subst. apply is_bytes_app in Hb' as [_ Hb'].
    inversion Hid; subst.
    destruct (IH Hb' ltac:(assumption) c2 ((tick + delta) mod 4294967296) ltac:(rewrite Pr; reflexivity) ltac:(rewrite Pc; reflexivity)) as (es & c' & E & Ev).
    rewrite E. cbn [bind]. exists (e' :: es), c'. split; [reflexivity|]. cbn [map fst snd]. rewrite Pv, Ev.
    unfold ev_view. cbn [e_delta e_body]. rewrite Hf. reflexivity.
  - assert (Hf : forget_end c0 = c0) by (destruct Hm; reflexivity).
    destruct (chan_msg_facts _ _ _ Hm) as (Hst & Hlen & Hne & Hhd). subst st.
    rewrite (parse_running env c tick d delta data bs Hd Hst Hlen Hne Hhd).
    destruct (unmarshal_chan env (tick + delta) delta (c_running c) data c0 (d ++ data) Hm) as (b & -> & Hv).
    subst c0. cbn [new_event bind]. destruct (post_process _ _ _) as [e' c2] eqn:P.
    apply post_process_view in P as (Pv & _ & _ & _ & _ & _ & Pr & Pc). cbn [e_delta].
    apply is_bytes_app in Hb as [_ Hb]. apply is_bytes_app in Hb as [_ Hb'].
    inversion Hid; subst.
    destruct (IH Hb' ltac:(assumption) c2 ((tick + delta) mod 4294967296) Pr Pc) as (es & c' & E & Ev).
    rewrite E. cbn [bind]. exists (e' :: es), c'. split; [reflexivity|]. cbn [map fst snd]. rewrite Pv, Ev.
    unfold ev_view. cbn [e_delta e_body]. rewrite Hf. reflexivity.
  - assert (Hf : forget_end c0 = c0) by (destruct Hm; reflexivity).
    rewrite (parse_meta env c tick d delta ty l data bs Hd Hl).
    apply is_bytes_app in Hb as [_ Hb]. inversion Hb as [|? ? _ Hb1]; subst. inversion Hb1 as [|? ? _ Hb2]; subst.
    apply is_bytes_app in Hb2 as [_ Hb2]. apply is_bytes_app in Hb2 as [Hdata Hb'].
    inversion Hid; subst. cbn [snd] in *.
    destruct (unmarshal_meta_msg env (tick + delta) delta ty data c0 (d ++ 255 :: ty :: l ++ data) Hm Hdata ltac:(assumption)) as (b & -> & Hv).
    subst c0. cbn [new_event bind]. destruct (post_process _ _ _) as [e' c2] eqn:P.
    apply post_process_view in P as (Pv & _ & _ & _ & _ & _ & Pr & Pc). cbn [e_delta].
    destruct (IH Hb' ltac:(assumption) c2 ((tick + delta) mod 4294967296) ltac:(rewrite Pr; reflexivity) ltac:(rewrite Pc; reflexivity)) as (es & c' & E & Ev).
    rewrite E. cbn [bind]. exists (e' :: es), c'. split; [reflexivity|]. cbn [map fst snd]. rewrite Pv, Ev.
    unfold ev_view. cbn [e_delta e_body]. rewrite Hf. reflexivity.
  - rewrite (parse_f0 env c tick d delta l (payload ++ [247]) bs Hd Hl Hop).
    apply is_bytes_app in Hb as [_ Hb]. inversion Hb as [|? ? _ Hb1]; subst.
    apply is_bytes_app in Hb1 as [_ Hb2]. apply is_bytes_app in Hb2 as [Hdata Hb'].
    apply is_bytes_app in Hdata as [Hdata _].
    inversion Hid as [|? ? Hid1 Hid2]; subst. cbn [snd ids_faithful] in Hid1.
    destruct (unmarshal_sysex_single env (tick + delta) delta payload (d ++ 240 :: l ++ payload ++ [247]) Hne Hdata Hid1) as (b & -> & Hv).
    cbn [bind]. replace (match payload ++ [247] with [] => false | _ => ends_f7 (payload ++ [247]) end) with true
      by (rewrite ends_f7_snoc; destruct payload; reflexivity).
    destruct (post_process _ _ _) as [e' c2] eqn:P.
    apply post_process_view in P as (Pv & _ & _ & _ & _ & _ & Pr & Pc). cbn [e_delta].
    destruct (IH Hb' Hid2 c2 ((tick + delta) mod 4294967296) ltac:(rewrite Pr; reflexivity) ltac:(rewrite Pc; reflexivity)) as (es & c' & E & Ev).
    rewrite E. cbn [bind]. exists (e' :: es), c'. split; [reflexivity|]. cbn [map fst snd]. rewrite Pv, Ev.
    unfold ev_view. cbn [e_delta e_body]. rewrite Hv. reflexivity.
  - rewrite (parse_f0 env c tick d delta l (payload ++ [x]) bs Hd Hl Hop).
    apply is_bytes_app in Hb as [_ Hb]. inversion Hb as [|? ? _ Hb1]; subst.
    apply is_bytes_app in Hb1 as [_ Hb2]. apply is_bytes_app in Hb2 as [Hdata Hb'].
    apply is_bytes_app in Hdata as [Hdata _].
    inversion Hid as [|? ? Hid1 Hid2]; subst. cbn [snd ids_faithful] in Hid1.
    destruct (unmarshal_sysex_first env (tick + delta) delta payload x (d ++ 240 :: l ++ payload ++ [x]) Hne Hx Hdata Hid1) as (b & -> & Hv).
    cbn [bind]. replace (match payload ++ [x] with [] => false | _ => ends_f7 (payload ++ [x]) end) with false
      by (rewrite ends_f7_snoc; destruct (Z.eqb_spec x 247); [congruence|destruct payload; reflexivity]).
    destruct (post_process _ _ _) as [e' c2] eqn:P.
    apply post_process_view in P as (Pv & _ & _ & _ & _ & _ & Pr & Pc). cbn [e_delta].
    destruct (IH Hb' Hid2 c2 ((tick + delta) mod 4294967296) ltac:(rewrite Pr; reflexivity) ltac:(rewrite Pc; reflexivity)) as (es & c' & E & Ev).
    rewrite E. cbn [bind]. exists (e' :: es), c'. split; [reflexivity|]. cbn [map fst snd]. rewrite Pv, Ev.
    unfold ev_view. cbn [e_delta e_body]. rewrite Hv. reflexivity.
  - rewrite (parse_f7 env c tick d delta l payload bs Hd Hl), Hop.
    apply is_bytes_app in Hb as [_ Hb]. inversion Hb as [|? ? _ Hb1]; subst.
    apply is_bytes_app in Hb1 as [_ Hb2]. apply is_bytes_app in Hb2 as [_ Hb'].
    inversion Hid as [|? ? Hid1 Hid2]; subst.
    assert (Hf : match payload with [] => false | _ => ends_f7 payload end = false).
    { destruct payload; [reflexivity|]. unfold ends_f7. destruct (Z.eqb_spec (last (z :: payload) 0) 247); [contradiction|reflexivity]. }
    rewrite Hf.
    assert (Hu : forall raw, unmarshal_continuation (tick + delta) delta payload raw = Ok (make_continuation (tick + delta) delta payload false raw)).
    { intro raw. unfold unmarshal_continuation. destruct payload; [reflexivity|]. rewrite Hf. reflexivity. }
    rewrite Hu. cbn [bind andb negb].
    destruct (post_process _ _ _) as [e' c2] eqn:P.
    apply post_process_view in P as (Pv & _ & _ & _ & _ & _ & Pr & Pc). cbn [e_delta make_continuation].
    destruct (IH Hb' Hid2 c2 ((tick + delta) mod 4294967296) ltac:(rewrite Pr; reflexivity) ltac:(rewrite Pc; reflexivity)) as (es & c' & E & Ev).
    rewrite E. cbn [bind]. exists (e' :: es), c'. split; [reflexivity|]. cbn [map fst snd]. rewrite Pv, Ev. reflexivity.
  - rewrite (parse_f7 env c tick d delta l (payload ++ [247]) bs Hd Hl), Hop.
    apply is_bytes_app in Hb as [_ Hb]. inversion Hb as [|? ? _ Hb1]; subst.
    apply is_bytes_app in Hb1 as [_ Hb2]. apply is_bytes_app in Hb2 as [_ Hb'].
    inversion Hid as [|? ? Hid1 Hid2]; subst.
    replace (match payload ++ [247] with [] => false | _ => ends_f7 (payload ++ [247]) end) with true
      by (rewrite ends_f7_snoc; destruct payload; reflexivity).
    assert (Hu : forall raw, unmarshal_continuation (tick + delta) delta (payload ++ [247]) raw = Ok (make_continuation (tick + delta) delta payload false raw)).
    { intro raw. unfold unmarshal_continuation. destruct (payload ++ [247]) eqn:E; [destruct payload; discriminate|].
      rewrite <- E, ends_f7_snoc, removelast_last. reflexivity. }
    rewrite Hu. cbn [bind andb negb].
    destruct (post_process _ _ _) as [e' c2] eqn:P.
    apply post_process_view in P as (Pv & _ & _ & _ & _ & _ & Pr & Pc). cbn [e_delta make_continuation].
    destruct (IH Hb' Hid2 c2 ((tick + delta) mod 4294967296) ltac:(rewrite Pr; reflexivity) ltac:(rewrite Pc; reflexivity)) as (es & c' & E & Ev).
    rewrite E. cbn [bind]. exists (e' :: es), c'. split; [reflexivity|]. cbn [map fst snd]. rewrite Pv, Ev. reflexivity.
  - rewrite (parse_f7 env c tick d delta l payload bs Hd Hl), Hop.
    apply is_bytes_app in Hb as [_ Hb]. inversion Hb as [|? ? _ Hb1]; subst.
    apply is_bytes_app in Hb1 as [_ Hb2]. apply is_bytes_app in Hb2 as [_ Hb'].
    inversion Hid as [|? ? Hid1 Hid2]; subst. cbn [bind andb].
    destruct (post_process _ _ _) as [e' c2] eqn:P.
    apply post_process_view in P as (Pv & _ & _ & _ & _ & _ & Pr & Pc). cbn [e_delta make_escape].
    destruct (IH Hb' Hid2 c2 ((tick + delta) mod 4294967296) ltac:(rewrite Pr; reflexivity) ltac:(rewrite Pc; reflexivity)) as (es & c' & E & Ev).
    rewrite E. cbn [bind]. exists (e' :: es), c'. split; [reflexivity|]. cbn [map fst snd]. rewrite Pv, Ev. reflexivity.
Qed.
