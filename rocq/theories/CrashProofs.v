(** * CrashProofs: when decoding a track or file fails or crashes (C20, C21). *)
From Verif Require Import Base Strings Tables SpecVlq Vlq VlqProofs Event SpecEvent SpecFile SpecPacket SpecHistory SpecCrash Marshal Parse
  Track File SpecTrack ParseProofs EncodeProofs DecodeProofs FileProofs TrackProofs.

(** ** One message *)

Lemma kind_cases : forall st, 128 <= st < 256 -> Z.land st 240 = st / 16 * 16 /\ (15 <? Z.land st 15) = false.
Proof.
  intros st H. pose proof (landf0 st ltac:(unfold is_byte; lia)). split; [lia|].
  pose proof (byte_sweep (fun st => negb (15 <? Z.land st 15)) ltac:(vm_compute; reflexivity) st ltac:(unfold is_byte; lia)) as E.
  cbv beta in E. destruct (15 <? Z.land st 15); [discriminate|reflexivity].
Qed.

(** Good: an event; bad: an error or a panic (which [new_event] makes a panic). *)
Definition is_ok {A} (x : outcome A) : bool := match x with Ok _ => true | _ => false end.
Definition is_bad {A} (x : outcome A) : bool := match x with Err | Panic => true | _ => false end.

Lemma midi_outcome : forall env tick delta st data raw op, 128 <= st < 256 -> length data = message_length st ->
  (if crashes op (PChan st data) then is_bad else is_ok) (unmarshal_midi env tick delta st data raw) = true.
Proof.
  intros env tick delta st data raw op Hst Hlen. destruct (kind_cases st Hst) as [K C]. unfold unmarshal_midi. rewrite K.
  unfold make_note_off, make_note_on, make_polyphonic_pressure, make_controller, make_program_change, make_channel_pressure, make_pitch_bend.
  rewrite C. unfold message_length in Hlen. unfold crashes.
  destruct (Z.ltb_spec st 160).
  - destruct data as [|a [|b [|]]]; try discriminate. cbn [nth].
    destruct (Z.eqb_spec (st / 16 * 16) 128); [|destruct (Z.eqb_spec (st / 16 * 16) 144); [|lia]].
    all: destruct (Z.ltb_spec 127 b).
    all: match goal with |- (if ?c then _ else _) _ = _ => first [replace c with true by lia|replace c with false by lia] end; reflexivity.
  - destruct (Z.ltb_spec st 176); [|destruct (Z.ltb_spec st 192); [|destruct (Z.ltb_spec st 224); [|destruct (Z.ltb_spec st 240)]]].
    + destruct data as [|a [|]]; try discriminate. cbn [nth].
      replace (st / 16 * 16) with 160 by lia. change (160 =? 128) with false. change (160 =? 144) with false. change (160 =? 160) with true. cbn iota.
      destruct (Z.ltb_spec 127 a); match goal with |- (if ?c then _ else _) _ = _ => first [replace c with true by lia|replace c with false by lia] end; reflexivity.
    + destruct data as [|a [|b [|]]]; try discriminate. cbn [nth].
      replace (st / 16 * 16) with 176 by lia. 
      match goal with |- (if ?c then _ else _) _ = _ => first [replace c with true by lia|replace c with false by lia] end; reflexivity.
    + destruct data as [|a [|]]; try discriminate. cbn [nth].
      destruct (Z.ltb_spec st 208).
      * replace (st / 16 * 16) with 192 by lia.
        match goal with |- (if ?c then _ else _) _ = _ => first [replace c with true by lia|replace c with false by lia] end; reflexivity.
      * replace (st / 16 * 16) with 208 by lia. change (208 =? 128) with false. change (208 =? 144) with false. change (208 =? 160) with false. 
        change (208 =? 176) with false. change (208 =? 192) with false. change (208 =? 208) with true. cbn iota.
        destruct (Z.ltb_spec 127 a); match goal with |- (if ?c then _ else _) _ = _ => first [replace c with true by lia|replace c with false by lia] end; reflexivity.
    + destruct data as [|a [|b [|]]]; try discriminate. cbn [nth].
      replace (st / 16 * 16) with 224 by lia. 
      match goal with |- (if ?c then _ else _) _ = _ => first [replace c with true by lia|replace c with false by lia] end; reflexivity.
    + replace (st / 16 * 16) with 240 by lia.
      match goal with |- (if ?c then _ else _) _ = _ => first [replace c with true by lia|replace c with false by lia] end; reflexivity.
Qed.

Lemma time_signature_ok : forall tick delta n d t q raw, is_byte d ->
  is_ok (make_time_signature tick delta n (double_loop (Z.to_nat d) 1) t q raw) = true.
Proof.
  intros tick delta n d t q raw Hd. unfold make_time_signature.
  pose proof (byte_sweep (fun d => is_ok (log2_loop 9 1 (double_loop (Z.to_nat d) 1) 0)) ltac:(vm_compute; reflexivity) d Hd) as E.
  cbv beta in E. destruct (log2_loop 9 1 (double_loop (Z.to_nat d) 1) 0); try discriminate. reflexivity.
Qed.

Lemma key_ok : forall tick delta a kt raw, is_byte a ->
  (if ((a <=? 7) || (249 <=? a)) && ((kt =? 0) || (kt =? 1)) then is_ok else is_bad) (unmarshal_key tick delta [a; kt] raw) = true.
Proof.
  intros tick delta a kt raw Ha. unfold unmarshal_key, make_key_signature.
  pose proof (byte_sweep (fun a => Bool.eqb ((a <=? 7) || (249 <=? a)) (match major_scale (int8 a) with Some _ => true | None => false end) &&
     Bool.eqb ((a <=? 7) || (249 <=? a)) (match minor_scale (int8 a) with Some _ => true | None => false end)) ltac:(vm_compute; reflexivity) a Ha) as E.
  cbv beta in E. apply andb_prop in E as [E1 E2]. apply eqb_prop in E1, E2.
  destruct (kt =? 0) eqn:K0.
  - rewrite E1. destruct (major_scale (int8 a)); reflexivity.
  - destruct (kt =? 1) eqn:K1.
    + rewrite E2. destruct (minor_scale (int8 a)); reflexivity.
    + rewrite andb_false_r. reflexivity.
Qed.

Lemma smpte_ok : forall tick delta a m s f ff raw, is_byte a ->
  (if (a mod 32 <=? 24) && (m <? 60) && (s <? 60) && (f <? rate_of (a / 32 mod 4)) && (ff <=? 100) then is_ok else is_bad)
    (unmarshal_smpte tick delta [a; m; s; f; ff] raw) = true.
Proof.
  intros tick delta a m s f ff raw Ha. unfold unmarshal_smpte, make_smpte_offset.
  pose proof (byte_sweep (fun a => (Z.land (Z.shiftr a 5) 3 =? a / 32 mod 4) && (Z.land a 31 =? a mod 32)) ltac:(vm_compute; reflexivity) a Ha) as E.
  cbv beta in E. assert (E1 : Z.land (Z.shiftr a 5) 3 = a / 32 mod 4) by lia. assert (E2 : Z.land a 31 = a mod 32) by lia.
  rewrite E1, E2. change (smpte_rate (a / 32 mod 4)) with (rate_of (a / 32 mod 4)).
  assert (R : rate_of (a / 32 mod 4) = 24 \/ rate_of (a / 32 mod 4) = 25 \/ rate_of (a / 32 mod 4) = 29 \/ rate_of (a / 32 mod 4) = 30).
  { unfold rate_of. destruct (_ =? 0); [auto|]. destruct (_ =? 1); [auto|]. destruct (_ =? 2); auto. }
  destruct (Z.ltb_spec 24 (a mod 32)), (Z.ltb_spec 59 m), (Z.ltb_spec 59 s), (Z.leb_spec (rate_of (a / 32 mod 4)) f), (Z.ltb_spec 100 ff);
    match goal with |- (if ?c then _ else _) _ = _ => first [replace c with true by lia|replace c with false by lia] end; try reflexivity.
  replace (negb _) with false by lia. reflexivity.
Qed.

Lemma zlen_cases : forall (data : bytes), 
  data = [] \/ (exists a, data = [a]) \/ (exists a b, data = [a; b]) \/ (exists a b c, data = [a; b; c])
  \/ (exists a b c d, data = [a; b; c; d]) \/ (exists a b c d e, data = [a; b; c; d; e]) \/ 
  (exists a b c d e f x, data = a :: b :: c :: d :: e :: f :: x /\ 6 <= zlen data).
Proof.
  intro data. destruct data as [|a [|b [|c [|d [|e [|f x]]]]]].
  - left. reflexivity.
  - do 1 right. left. repeat eexists.
  - do 2 right. left. repeat eexists.
  - do 3 right. left. repeat eexists.
  - do 4 right. left. repeat eexists.
  - do 5 right. left. repeat eexists.
  - do 6 right. exists a, b, c, d, e, f, x. split; [reflexivity|]. rewrite !zlen_cons. pose proof (zlen_nonneg _ x). lia.
Qed.

Lemma meta_outcome : forall env tick delta ty data raw, is_byte ty -> is_bytes data ->
  (if meta_acceptable ty data then is_ok else is_bad) (unmarshal_meta env tick delta (Z.land ty 127) data raw) = true.
Proof.
  intros env tick delta ty data raw Hty Hd. 
  assert (T : Z.land ty 127 = ty mod 128) by (change 127 with (Z.ones 7); rewrite Z.land_ones by lia; reflexivity).
  rewrite T. unfold unmarshal_meta, meta_acceptable. assert (Ht : 0 <= ty mod 128 < 128) by lia.
  set (t := ty mod 128) in *. clearbody t. clear T Hty.
  destruct ((1 <=? t) && (t <=? 9)) eqn:E19.
  { assert (exists k, text_kind t = Some k) as [k ->].
    { assert (t = 1 \/ t = 2 \/ t = 3 \/ t = 4 \/ t = 5 \/ t = 6 \/ t = 7 \/ t = 8 \/ t = 9) by lia.
      repeat (destruct H as [->|H]; [eexists; reflexivity|]). subst. eexists. reflexivity. }
    reflexivity. }
  assert (text_kind t = None) as ->.
  { unfold text_kind. replace (t =? 1) with false by lia. replace (t =? 2) with false by lia. replace (t =? 3) with false by lia.
    replace (t =? 4) with false by lia. replace (t =? 5) with false by lia. replace (t =? 6) with false by lia. 
    replace (t =? 7) with false by lia. replace (t =? 8) with false by lia. replace (t =? 9) with false by lia. reflexivity. }
  cbn [orb].
  destruct (Z.eqb_spec t 47) as [->|N47]; [reflexivity|].
  destruct (Z.eqb_spec t 0) as [->|N0].
  { destruct (zlen_cases data) as [->|[(a & ->)|[(a & b & ->)|[(a & b & c & ->)|[(a & b & c & d & ->)|[(a & b & c & d & e & ->)|(a & b & c & d & e & f & x & -> & H6)]]]]]]; try reflexivity.
    replace (_ =? 2) with false by lia. reflexivity. }
  destruct (Z.eqb_spec t 32) as [->|N32].
  { destruct (zlen_cases data) as [->|[(a & ->)|[(a & b & ->)|[(a & b & c & ->)|[(a & b & c & d & ->)|[(a & b & c & d & e & ->)|(a & b & c & d & e & f & x & -> & H6)]]]]]]; try reflexivity.
    2:{ replace (_ =? 1) with false by lia. reflexivity. }
    change (zlen [a] =? 1) with true. cbn [nth andb]. unfold make_channel_prefix.
    destruct (Z.ltb_spec 15 a); [replace (a <? 16) with false by lia|replace (a <? 16) with true by lia]; reflexivity. }
  destruct (Z.eqb_spec t 33) as [->|N33].
  { destruct (zlen_cases data) as [->|[(a & ->)|[(a & b & ->)|[(a & b & c & ->)|[(a & b & c & d & ->)|[(a & b & c & d & e & ->)|(a & b & c & d & e & f & x & -> & H6)]]]]]]; try reflexivity.
    2:{ replace (_ =? 1) with false by lia. reflexivity. }
    change (zlen [a] =? 1) with true. cbn [nth andb]. unfold make_port.
    destruct (Z.ltb_spec 127 a); [replace (a <? 128) with false by lia|replace (a <? 128) with true by lia]; reflexivity. }
  destruct (Z.eqb_spec t 81) as [->|N81].
  { destruct (zlen_cases data) as [->|[(a & ->)|[(a & b & ->)|[(a & b & c & ->)|[(a & b & c & d & ->)|[(a & b & c & d & e & ->)|(a & b & c & d & e & f & x & -> & H6)]]]]]]; try reflexivity.
    replace (_ =? 3) with false by lia. reflexivity. }
  destruct (Z.eqb_spec t 84) as [->|N84].
  { destruct (zlen_cases data) as [->|[(a & ->)|[(a & b & ->)|[(a & b & c & ->)|[(a & b & c & d & ->)|[(a & b & c & d & e & ->)|(a & b & c & d & e & f & x & -> & H6)]]]]]]; try reflexivity.
    2:{ replace (_ =? 5) with false by lia. reflexivity. }
    change (zlen [a; b; c; d; e] =? 5) with true. cbn [nth andb]. apply smpte_ok. inversion Hd; assumption. }
  destruct (Z.eqb_spec t 88) as [->|N88].
  { destruct (zlen_cases data) as [->|[(a & ->)|[(a & b & ->)|[(a & b & c & ->)|[(a & b & c & d & ->)|[(a & b & c & d & e & ->)|(a & b & c & d & e & f & x & -> & H6)]]]]]]; try reflexivity.
    2:{ replace (_ =? 4) with false by lia. reflexivity. }
    change (zlen [a; b; c; d] =? 4) with true. change (88 =? 0) with false. cbn iota. apply time_signature_ok.
    inversion Hd as [|? ? ? Hd']. inversion Hd'; assumption. }
  destruct (Z.eqb_spec t 89) as [->|N89].
  { destruct (zlen_cases data) as [->|[(a & ->)|[(a & b & ->)|[(a & b & c & ->)|[(a & b & c & d & ->)|[(a & b & c & d & e & ->)|(a & b & c & d & e & f & x & -> & H6)]]]]]]; try reflexivity.
    2:{ replace (_ =? 2) with false by lia. reflexivity. }
    inversion Hd as [|? ? Ha Hd']. inversion Hd' as [|? ? Hb _]; subst. unfold is_byte in Hb.
    change (zlen [a; b] =? 2) with true. cbn [nth andb]. replace (b <=? 1) with ((b =? 0) || (b =? 1)) by lia. apply key_ok. assumption. }
  destruct (Z.eqb_spec t 127) as [->|N127]; [|reflexivity].
  change (127 =? 0) with false. change (127 =? 32) with false. change (127 =? 33) with false. change (127 =? 81) with false. cbn iota.
  destruct data as [|a data]; [reflexivity|]. rewrite !zlen_cons. pose proof (zlen_nonneg _ data) as Hz.
  replace (1 <=? 1 + zlen data) with true by lia. cbn [nth andb]. cbn [unmarshal_seqspec].
  destruct (Z.eqb_spec a 0); cbn [negb orb]; [|reflexivity].
  destruct data as [|b [|c x]]; [reflexivity|reflexivity|]. rewrite !zlen_cons. pose proof (zlen_nonneg _ x).
  replace (3 <=? _) with true by lia. reflexivity.
Qed.

Lemma shape_parts : forall rs p delta k, shape rs p delta k -> is_bytes p -> (rs = 0 \/ 128 <= rs < 240) ->
  match k with
  | PChan st data => 128 <= st < 256 /\ length data = message_length st
  | PMeta ty data => is_byte ty /\ is_bytes data
  | PSys st data => st = 240 \/ st = 247
  end.
Proof.
  intros rs p delta k H Hp Hr. destruct H.
  - split; assumption.
  - split; [lia|assumption].
  - apply is_bytes_app in Hp as [_ Hp]. apply is_bytes_inv in Hp as [_ Hp]. apply is_bytes_inv in Hp as [Ht Hp].
    apply is_bytes_app in Hp as [_ Hp]. split; assumption.
  - assumption.
Qed.

Lemma packet_outcome : forall env c tick delta k raw p, ctx_ok c -> shape (c_running c) p delta k -> is_bytes p ->
  if rejects (c_casio c) k then read_packet env c tick delta k raw = Err
  else if crashes (c_casio c) k then read_packet env c tick delta k raw = Panic
  else exists e c', read_packet env c tick delta k raw = Ok (e, c').
Proof.
  intros env c tick delta k raw p Hc Hs Hp. pose proof (shape_parts _ _ _ _ Hs Hp Hc) as F. destruct k as [st data|ty data|st data].
  - cbn [rejects]. destruct F as [F1 F2]. pose proof (midi_outcome env (tick + delta) delta st data raw (c_casio c) F1 F2) as O.
    cbn [read_packet]. destruct (crashes _ _), (unmarshal_midi _ _ _ _ _ _); try discriminate; cbn; eauto.
  - cbn [rejects]. destruct F as [F1 F2]. pose proof (meta_outcome env (tick + delta) delta ty data raw F1 F2) as O.
    cbn [read_packet crashes]. destruct (meta_acceptable ty data), (unmarshal_meta _ _ _ _ _ _); try discriminate; cbn; eauto.
  - cbn [rejects crashes read_packet]. destruct F as [-> | ->].
    + change (240 =? 240) with true. cbn iota. cbn [andb]. destruct (c_casio c) eqn:Ec; [reflexivity|]. cbn [orb negb andb].
      destruct data as [|a [|b data]]; [reflexivity|reflexivity|]. rewrite !zlen_cons. pose proof (zlen_nonneg _ data).
      replace (_ =? 0) with false by lia. replace (_ =? 1) with false by lia.
      unfold unmarshal_sysex. destruct (ends_f7 (b :: data)); cbn; eauto.
    + change (247 =? 240) with false. cbn iota. cbn [andb]. destruct (c_casio c); [|cbn; eauto].
      unfold unmarshal_continuation. destruct data; cbn [bind]; eauto.
Qed.

(** ** Tracks *)

Lemma loop_outcome : forall n env c tick r, (length r <= n)%nat -> is_bytes r -> ctx_ok c ->
  (exists es c', loop_from env c tick r = Ok (es, c')) \/
  exists crash p q es c' , r = p ++ q /\ loop_from env c tick p = Ok (es, c') /\ concat (map e_bytes es) = p /\
    trouble (c_running c') (c_casio c') q crash /\ loop_from env c tick r = (if crash then Panic else Err).
Proof.
  induction n as [|n IH]; intros env c tick r Hn Hr Hc.
  - destruct r; [|cbn in Hn; lia]. left. eexists. eexists. reflexivity.
  - assert (Stop : forall crash, trouble (c_running c) (c_casio c) r crash -> loop_from env c tick r = (if crash then Panic else Err) ->
        exists crash p q es c' , r = p ++ q /\ loop_from env c tick p = Ok (es, c') /\ concat (map e_bytes es) = p /\
        trouble (c_running c') (c_casio c') q crash /\ loop_from env c tick r = (if crash then Panic else Err)).
    { intros crash T E. exists crash, [], r, [], c. repeat split; auto. }
    rewrite loop_from_eq in *.
    destruct (parse_cases env c tick r Hr Hc) as [E|[(d & delta & b & x & R1 & R2 & R3 & R4 & E)|(p & rest & delta & k & -> & Hs)]].
    + rewrite E. left. eexists. eexists. reflexivity.
    + right. rewrite E in *. apply (Stop false); [|reflexivity]. rewrite R2. apply (tr_data _ _ d delta b x); auto.
      rewrite R2 in Hr. apply is_bytes_app in Hr as [_ Hr]. apply is_bytes_inv in Hr as [Hb _]. lia.
    + rewrite (parse_shape env c tick p delta k rest Hs) in *. apply is_bytes_app in Hr as [Hp Hrest].
      pose proof (packet_outcome env c tick delta k p p Hc Hs Hp) as O.
      destruct (rejects (c_casio c) k) eqn:Er; [|destruct (crashes (c_casio c) k) eqn:Ec].
      * right. rewrite O in *. apply (Stop false); [|reflexivity]. eapply tr_reject; eassumption.
      * right. rewrite O in *. apply (Stop true); [|reflexivity]. eapply tr_crash; eassumption.
      * clear Stop. destruct O as (e & c1 & O). rewrite O. cbn [bind]. destruct (post_process env c1 e) as [e' c2] eqn:Epp.
        destruct (read_packet_facts _ _ _ _ _ _ _ _ _ Hc Hs O) as ((S1 & S2 & S3) & Hc1).
        destruct (post_process_facts _ _ _ _ _ Epp) as (P1 & P2 & P3 & P4).
        assert (Hc2 : ctx_ok c2) by (unfold ctx_ok in *; rewrite P4; exact Hc1).
        pose proof (shape_not_nil _ _ _ _ Hs) as Hnn.
        destruct (IH env c2 ((tick + e_delta e) mod 4294967296) rest) as [(es & c' & E)|(crash & p' & q & es & c' & E1 & E2 & E3 & E4 & E5)]; auto.
        { rewrite app_length in Hn. destruct p; [congruence|]. cbn in Hn. lia. }
        -- left. rewrite E. cbn [bind]. eexists. eexists. reflexivity.
        -- right. exists crash, (p ++ p'), q, (e' :: es), c'. split; [rewrite E1, app_assoc; reflexivity|].
           split; [|split; [|split; [assumption|]]].
           ++ rewrite loop_from_eq, (parse_shape env c tick p delta k p' Hs), O. cbn [bind]. rewrite Epp, E2. reflexivity.
           ++ cbn [map concat]. rewrite E3, P2, S3. reflexivity.
           ++ rewrite E5. destruct crash; reflexivity.
Qed.

Lemma trouble_stops : forall env c tick q crash, ctx_ok c -> is_bytes q -> trouble (c_running c) (c_casio c) q crash ->
  loop_from env c tick q = (if crash then Panic else Err).
Proof.
  intros env c tick q crash Hc Hq T. rewrite loop_from_eq. destruct T as [p delta k x Hs Hk|p delta k x Hs Hk|d delta b x Hd Hb Hr].
  - apply is_bytes_app in Hq as [Hp _]. rewrite (parse_shape env c tick p delta k x Hs).
    pose proof (packet_outcome env c tick delta k p p Hc Hs Hp) as O. rewrite Hk in O.
    assert (rejects (c_casio c) k = false) as E.
    { destruct k as [| |st data]; try reflexivity. cbn [crashes rejects] in *. destruct (st =? 240), (c_casio c); cbn in *; lia. }
    rewrite E in O. rewrite O. reflexivity.
  - apply is_bytes_app in Hq as [Hp _]. rewrite (parse_shape env c tick p delta k x Hs).
    pose proof (packet_outcome env c tick delta k p p Hc Hs Hp) as O. rewrite Hk in O. rewrite O. reflexivity.
  - unfold parse. rewrite (delta_stream d delta) by assumption. cbn [bind]. rewrite Hr.
    replace (b <? 128) with true by lia. reflexivity.
Qed.

Theorem track_stops : forall env r (crash : bool), is_bytes r ->
  (decode_events env new_context r = (if crash then Panic else Err) <->
   exists p q es c', r = p ++ q /\ decode_events env new_context p = Ok (es, c') /\ concat (map e_bytes es) = p /\
     trouble (running_after es) (sysex_open es) q crash).
Proof.
  intros env r crash Hr. assert (C0 : ctx_ok new_context) by (left; reflexivity).
  assert (HC : forall p es c', is_bytes p -> loop_from env new_context 0 p = Ok (es, c') ->
     ctx_ok c' /\ c_running c' = running_after es /\ c_casio c' = sysex_open es).
  { intros p es c' Hp H. destruct (loop_history (length p) env [] new_context 0 p es c' (le_n _) Hp C0 hist_new H) as [(H1 & H2 & _) _].
    destruct (loop_facts (length p) env new_context 0 p es c' (le_n _) Hp C0 H) as (H3 & _). auto. }
  split.
  - intro H. rewrite decode_events_eq in H. destruct (loop_outcome (length r) env new_context 0 r (le_n _) Hr C0)
      as [(es & c' & E)|(crash' & p & q & es & c' & E1 & E2 & E3 & E4 & E5)].
    + rewrite E in H. destruct crash; discriminate.
    + exists p, q, es, c'. repeat split; auto. rewrite E5 in H. assert (crash' = crash) by (destruct crash, crash'; congruence). subst crash'.
      subst r. apply is_bytes_app in Hr as [Hp _]. destruct (HC p es c' Hp E2) as (_ & <- & <-). assumption.
  - intros (p & q & es & c' & -> & E2 & E3 & E4). rewrite decode_events_eq in *. apply is_bytes_app in Hr as [Hp Hq].
    rewrite (loop_app (length p) env new_context 0 p q es c' (le_n _) Hp C0 ltac:(lia) E2 E3).
    destruct (HC p es c' Hp E2) as (K1 & K2 & K3). rewrite <- K2, <- K3 in E4. rewrite (trouble_stops env c' _ q crash K1 Hq E4).
    destruct crash; reflexivity.
Qed.

Theorem track_outcomes : forall env r, is_bytes r ->
  (exists es c', decode_events env new_context r = Ok (es, c')) \/ decode_events env new_context r = Err \/
  decode_events env new_context r = Panic.
Proof.
  intros env r Hr. rewrite decode_events_eq. destruct (loop_outcome (length r) env new_context 0 r (le_n _) Hr ltac:(left; reflexivity))
    as [E|(crash & p & q & es & c' & _ & _ & _ & _ & E)]; [left; assumption|]. right. rewrite E. destruct crash; auto.
Qed.

(** ** Chunks *)

Lemma chunks_eq : forall r, chunks r =
  match next_chunk r with
  | Ok (chunk, rest) => do cs <- chunks rest; Ok (chunk :: cs)
  | Eof => Ok [] | Err => Err | Panic => Panic | Loop => Loop
  end.
Proof.
  intro r. unfold chunks at 1. cbn [chunks_loop]. destruct (next_chunk r) as [[c rest]| | | |] eqn:E; try reflexivity.
  pose proof (next_chunk_shorter _ _ _ E). rewrite (chunks_loop_fuel (length r) (S (length rest))) by lia. reflexivity.
Qed.

Lemma next_chunk_cases : forall r, is_bytes r ->
  (r = [] /\ next_chunk r = Eof) \/ (dangling r /\ next_chunk r = Eof) \/ next_chunk r = Err
  \/ exists tag payload w rest, chunk_bytes tag payload w /\ r = w ++ rest /\ next_chunk r = Ok (w, rest).
Proof.
  intros r Hr. destruct (next_chunk r) as [[w rest]| | | |] eqn:E; auto.
  - destruct (next_chunk_ok r w rest Hr E) as (tag & payload & C1 & C2). do 3 right. exists tag, payload, w, rest. auto.
  - unfold next_chunk in E. destruct r as [|a [|b [|c0 [|d [|l0 [|l1 [|l2 [|l3 r']]]]]]]]; try discriminate; auto.
    destruct (Z.leb_spec (of_be32 l0 l1 l2 l3) (zlen r')); [discriminate|]. destruct r'; [|discriminate].
    right. left. split; [|reflexivity]. exists a, b, c0, d, l0, l1, l2, l3. split; [reflexivity|].
    unfold of_be32 in *. change (zlen (@nil Z)) with 0 in *. lia.
  - unfold next_chunk in E. destruct r as [|a [|b [|c0 [|d [|l0 [|l1 [|l2 [|l3 r']]]]]]]]; try discriminate.
    destruct (_ <=? _); [discriminate|]. destruct r'; discriminate.
  - unfold next_chunk in E. destruct r as [|a [|b [|c0 [|d [|l0 [|l1 [|l2 [|l3 r']]]]]]]]; try discriminate.
    destruct (_ <=? _); [discriminate|]. destruct r'; discriminate.
Qed.

Definition wires (items : list (bytes * bytes)) (ws : list bytes) : Prop :=
  Forall2 (fun it w => chunk_bytes (fst it) (snd it) w) items ws.

Lemma chunks_cases : forall n r, (length r <= n)%nat -> is_bytes r ->
  chunks r = Err \/ exists items ws, readable items r /\ chunks r = Ok ws /\ wires items ws.
Proof.
  induction n as [|n IH]; intros r Hn Hr; rewrite chunks_eq;
    destruct (next_chunk_cases r Hr) as [[-> E]|[[D E]|[E|(tag & payload & w & rest & C & -> & E)]]]; rewrite E; auto.
  1, 4: right; exists [], []; repeat split; [exists [], []; repeat split; auto; constructor|constructor].
  1, 3: right; exists [], []; repeat split; [exists [], r; repeat split; auto; constructor|constructor].
  - destruct C. cbn in Hn. lia.
  - apply is_bytes_app in Hr as [Hw Hrest]. rewrite app_length in Hn. assert (1 <= length w)%nat by (destruct C; cbn; lia).
    destruct (IH rest ltac:(lia) Hrest) as [->|(items & ws & (r0 & tail & E1 & E2 & E3) & -> & W)]; [left; reflexivity|].
    right. exists ((tag, payload) :: items), (w :: ws). split; [|split; [reflexivity|constructor; assumption]].
    exists (w ++ r0), tail. split; [rewrite E1, app_assoc; reflexivity|]. split; [constructor; assumption|assumption].
Qed.

Lemma next_dangling : forall tail, dangling tail -> next_chunk tail = Eof.
Proof.
  intros tail (a & b & c & d & l0 & l1 & l2 & l3 & -> & H). cbn. unfold of_be32. change (zlen (@nil Z)) with 0.
  match goal with |- context[?x <=? 0] => replace (x <=? 0) with false by lia end. reflexivity.
Qed.

Lemma readable_chunks : forall items r, readable items r -> exists ws, chunks r = Ok ws /\ wires items ws.
Proof.
  intros items r (r0 & tail & -> & F & T). assert (E : chunks tail = Ok []).
  { rewrite chunks_eq. destruct T as [->|T]; [reflexivity|]. rewrite (next_dangling _ T). reflexivity. }
  induction F as [|tag payload w items r C F [ws [IH W]]].
  - exists []. split; [exact E|constructor].
  - rewrite <- app_assoc, chunks_eq, (chunk_next tag payload) by assumption. rewrite IH. cbn [bind].
    exists (w :: ws). split; [reflexivity|constructor; assumption].
Qed.

(** ** Files *)

Lemma unmarshal_mtrk_events : forall env n tag payload w, chunk_bytes tag payload w -> tag = tag_mtrk -> is_bytes payload ->
  (exists t, unmarshal_mtrk env n new_context w = Ok t /\ exists c', decode_events env new_context payload = Ok (t_events t, c')) \/
  (unmarshal_mtrk env n new_context w = Err /\ decode_events env new_context payload = Err) \/
  (unmarshal_mtrk env n new_context w = Panic /\ decode_events env new_context payload = Panic).
Proof.
  intros env n tag payload w C Ht D. destruct C. injection Ht as -> -> -> ->. cbn [app]. unfold unmarshal_mtrk.
  change (bytes_eqb [77; 84; 114; 107] (str "MTrk")) with true. cbn [negb].
  destruct (track_outcomes env payload D) as [(es & c' & E)|[E|E]]; rewrite E; cbn [bind]; auto.
  left. eexists. split; [reflexivity|]. exists c'. reflexivity.
Qed.

Lemma wires_bytes : forall items ws, wires items ws -> is_bytes (concat ws) -> Forall (fun it => is_bytes (snd it)) items.
Proof.
  intros items ws W. induction W as [|it w items ws C W IH]; intro H; [constructor|]. cbn [concat] in H.
  apply is_bytes_app in H as [Hw H]. constructor; [|auto]. destruct it as [tag payload]. cbn [fst snd] in *. destruct C.
  apply is_bytes_app in Hw as [_ Hw]. exact Hw.
Qed.

Lemma wires_concat : forall items ws r, wires items ws -> file_bytes items r -> r = concat ws.
Proof.
  intros items ws r W. revert r. induction W as [|it w items ws C W IH]; intros r F; inversion F; subst; [reflexivity|].
  cbn [concat fst snd] in *. rewrite (IH _ H3). f_equal. eapply chunk_bytes_det; eassumption.
Qed.

(** Tracks are decoded in order until one fails. *)
Lemma decode_tracks_outcome : forall env items ws n, wires items ws -> Forall (fun it => is_bytes (snd it)) items ->
  (exists ts, decode_tracks env n ws = Ok ts /\ Forall2 (fun it t => exists c', decode_events env new_context (snd it) = Ok (t_events t, c'))
     (filter is_mtrk items) ts) \/
  (exists pre it post, filter is_mtrk items = pre ++ it :: post /\
     Forall (fun it => exists es c', decode_events env new_context (snd it) = Ok (es, c')) pre /\
     (decode_tracks env n ws = Err /\ decode_events env new_context (snd it) = Err \/
      decode_tracks env n ws = Panic /\ decode_events env new_context (snd it) = Panic)).
Proof.
  intros env items ws n W. revert n. induction W as [|it w items ws C W IH]; intros n B.
  - left. exists []. split; [reflexivity|constructor].
  - inversion B as [|? ? B1 B2]; subst. cbn [decode_tracks filter]. destruct (chunk_wire_det _ _ _ C) as [_ T]. rewrite T.
    change (is_mtrk it) with (bytes_eqb (fst it) tag_mtrk). change (str "MTrk") with tag_mtrk. destruct (bytes_eqb (fst it) tag_mtrk) eqn:E.
    + apply bytes_eqb_eq in E. destruct (unmarshal_mtrk_events env n (fst it) (snd it) w C E B1) as [(t & U & c' & D)|[[U D]|[U D]]]; rewrite U; cbn [bind].
      * destruct (IH (n + 1) B2) as [(ts & -> & F)|(pre & x & post & E1 & E2 & [[-> E3]|[-> E3]])]; cbn [bind].
        -- left. exists (t :: ts). split; [reflexivity|]. constructor; [exists c'; exact D|exact F].
        -- right. exists (it :: pre), x, post. split; [rewrite E1; reflexivity|]. split; [constructor; eauto|]. auto.
        -- right. exists (it :: pre), x, post. split; [rewrite E1; reflexivity|]. split; [constructor; eauto|]. auto.
      * right. exists [], it, (filter is_mtrk items). repeat split; auto.
      * right. exists [], it, (filter is_mtrk items). repeat split; auto.
    + apply IH. assumption.
Qed.

Lemma header_outcome : forall tag payload w, chunk_bytes tag payload w -> is_bytes w ->
  (unmarshal_mthd w = Err /\ ~ exists hf, header_bytes w hf) \/
  (exists h, unmarshal_mthd w = Ok h /\ header_bytes w (fields_of h)).
Proof.
  intros tag payload w C B. pose proof (chunk_next tag payload w [] C) as N. rewrite app_nil_r in N.
  destruct (header_exact w w [] B N) as (X & Y & Z).
  destruct (unmarshal_mthd w) as [h| | | |] eqn:E; try congruence.
  - right. exists h. split; [reflexivity|]. apply X. exists h. auto.
  - left. split; [reflexivity|]. intros [hf H]. apply X in H as (h & H & _). discriminate.
  - exfalso. clear - E C. destruct C. unfold unmarshal_mthd in E. cbn [app] in E.
    repeat match type of E with
    | context[if ?c then _ else _] => destruct c eqn:?; try discriminate
    | context[match ?p with [] => _ | _ => _ end] => destruct p; try discriminate
    | context[match ?p with Some _ => _ | None => _ end] => destruct p as [[? ?]|]; try discriminate
    end.
  - exfalso. clear - E C. destruct C. unfold unmarshal_mthd in E. cbn [app] in E.
    repeat match type of E with
    | context[if ?c then _ else _] => destruct c eqn:?; try discriminate
    | context[match ?p with [] => _ | _ => _ end] => destruct p; try discriminate
    | context[match ?p with Some _ => _ | None => _ end] => destruct p as [[? ?]|]; try discriminate
    end.
Qed.

(** A file crashes the decoder exactly if a track payload does, all chunks before it being in order. *)
Definition crashing_file (env : env) (r : bytes) : Prop :=
  exists tag0 payload0 w0 hf items pre it post,
    readable ((tag0, payload0) :: items) r /\ chunk_bytes tag0 payload0 w0 /\ header_bytes w0 hf /\
    filter is_mtrk items = pre ++ it :: post /\
    Forall (fun it => exists es c', decode_events env new_context (snd it) = Ok (es, c')) pre /\
    decode_events env new_context (snd it) = Panic.

Lemma app_split_first : forall A (P Q : A -> Prop) (pre pre' post post' : list A) x x', pre ++ x :: post = pre' ++ x' :: post' ->
  (forall y, P y -> Q y -> False) -> Forall P pre -> Forall P pre' -> Q x -> Q x' -> x = x'.
Proof.
  intros A P Q pre. induction pre as [|y pre IH]; intros pre' post post' x x' E D F F' Hx Hx'; destruct pre' as [|y' pre']; cbn [app] in E.
  - congruence.
  - injection E as -> _. inversion F'; subst. exfalso. eauto.
  - injection E as <- _. inversion F; subst. exfalso. eauto.
  - injection E as -> E. inversion F; inversion F'; subst. eapply IH; eauto.
Qed.

Theorem file_outcome : forall env r, is_bytes r ->
  ((exists s, decode env r = Ok s) \/ decode env r = Err \/ decode env r = Panic) /\
  (decode env r = Panic <-> crashing_file env r).
Proof.
  intros env r Hr. destruct (chunks_cases (length r) r (le_n _) Hr) as [E|(items & ws & Rd & E & W)].
  - unfold decode. rewrite E. cbn [bind]. split; [auto|]. split; [discriminate|].
    intros (tag0 & payload0 & w0 & hf & items & pre & it & post & Rd & _). destruct (readable_chunks _ _ Rd) as (ws & E' & _). congruence.
  - assert (U : forall items', readable items' r -> exists ws', wires items' ws' /\ ws' = ws).
    { intros items' Rd'. destruct (readable_chunks _ _ Rd') as (ws' & E' & W'). exists ws'. split; [exact W'|]. congruence. }
    assert (B : is_bytes (concat ws)).
    { destruct Rd as (r0 & tail & -> & F & _). rewrite <- (wires_concat _ _ _ W F). apply is_bytes_app in Hr. apply Hr. }
    unfold decode. rewrite E. cbn [bind]. destruct W as [|[tag0 payload0] w0 items ws C0 W].
    + split; [auto|]. split; [discriminate|]. intros (tag0 & payload0 & w0 & hf & items & pre & it & post & Rd' & _).
      destruct (U _ Rd') as (ws' & W' & ->). inversion W'.
    + cbn [fst snd] in *. cbn [concat] in B. apply is_bytes_app in B as [B0 B]. pose proof (wires_bytes _ _ W B) as BI.
      destruct (header_outcome tag0 payload0 w0 C0 B0) as [[Eh Nh]|(h & Eh & Hh)]; rewrite Eh; cbn [bind].
      * split; [auto|]. split; [discriminate|]. intros (tag0' & payload0' & w0' & hf & items' & pre & it & post & Rd' & C0' & Hh & _).
        exfalso. apply Nh. exists hf. destruct (U _ Rd') as (ws' & W' & ->). inversion W' as [|? ? ? ? C1 _]; subst. cbn [fst snd] in C1.
        replace w0 with w0'; [assumption|]. eapply chunk_bytes_det; eassumption.
      * destruct (decode_tracks_outcome env items ws 0 W BI) as [(ts & Et & F)|(pre & it & post & E1 & E2 & [[Et E3]|[Et E3]])]; rewrite Et; cbn [bind].
        -- split; [destruct (_ =? _); [left; eauto|auto]|]. split; [destruct (_ =? _); discriminate|].
           intros (tag0' & payload0' & w0' & hf & items' & pre & it & post & Rd' & _ & _ & E1 & _ & E3). exfalso.
           destruct (U _ Rd') as (ws' & W' & ->). inversion W' as [|? ? ? ? C1 W1]; subst.
           assert (Forall2 (fun it w => chunk_bytes (fst it) (snd it) w) items' ws) by exact W1.
           destruct (decode_tracks_outcome env items' ws 0 W1 (wires_bytes _ _ W1 B)) as [(ts' & _ & F')|(p & x & q & _ & _ & [[Et' _]|[Et' _]])]; try congruence.
           rewrite E1 in F'. apply Forall2_app_inv_l in F' as (? & ? & _ & F' & _). inversion F' as [|? ? ? ? (c' & D) _]; subst. congruence.
        -- split; [auto|]. split; [discriminate|].
           intros (tag0' & payload0' & w0' & hf & items' & pre' & it' & post' & Rd' & _ & _ & E1' & E2' & E3'). exfalso.
           destruct (U _ Rd') as (ws' & W' & ->). inversion W' as [|? ? ? ? C1 W1]; subst.
           destruct (decode_tracks_outcome env items' ws 0 W1 (wires_bytes _ _ W1 B)) as [(ts' & Et' & _)|(p & x & q & D1 & D2 & [[Et' D3]|[Et' _]])]; try congruence.
           rewrite E1' in D1. pose proof (app_split_first _ (fun it => exists es c', decode_events env new_context (snd it) = Ok (es, c'))
             (fun it => decode_events env new_context (snd it) = Err \/ decode_events env new_context (snd it) = Panic) _ _ _ _ _ _ D1) as X.
           assert (it' = x); [|subst; congruence]. apply X; auto. intros y (es & c' & Y) [Z|Z]; congruence.
        -- split; [auto|]. split; [intros _|reflexivity].
           exists tag0, payload0, w0, (fields_of h), items, pre, it, post. repeat split; auto.
Qed.

(** ** Truncation *)

Lemma firstn_chunk : forall tag payload w k, chunk_bytes tag payload w -> (k < length w)%nat ->
  next_chunk (firstn k w) = Err \/ next_chunk (firstn k w) = Eof.
Proof.
  intros tag payload w k C Hk. destruct C as [a b c d l0 l1 l2 l3 payload B0 B1 B2 B3 Hl]. cbn [app] in *. 
  do 8 (destruct k as [|k]; [cbn; auto|]). cbn [firstn]. unfold next_chunk.
  cbn [length] in Hk. assert (zlen (firstn k payload) < zlen payload) by (unfold zlen; rewrite firstn_length; lia).
  replace (of_be32 l0 l1 l2 l3 <=? _) with false by (unfold of_be32; lia). destruct (firstn k payload); auto.
Qed.

Lemma chunks_firstn : forall n r ws k, (length r <= n)%nat -> is_bytes r -> chunks r = Ok ws ->
  chunks (firstn k r) = Err \/ exists j, chunks (firstn k r) = Ok (firstn j ws) /\ (length (concat (firstn j ws)) <= k)%nat.
Proof.
  induction n as [|n IH]; intros r ws k Hn Hr H.
  - destruct r; [|cbn in Hn; lia]. rewrite firstn_nil. right. exists O. cbn. split; [reflexivity|lia].
  - rewrite chunks_eq in H. destruct (next_chunk_cases r Hr) as [[-> E]|[[D E]|[E|(tag & payload & w & rest & C & -> & E)]]]; rewrite E in H.
    + rewrite firstn_nil. right. exists O. cbn. split; [reflexivity|lia].
    + apply Ok_inj in H. subst ws. destruct (Nat.le_gt_cases 8 k) as [G|G].
      * assert (firstn k r = r) as ->. { apply firstn_all2. destruct D as (? & ? & ? & ? & ? & ? & ? & ? & -> & _). cbn. lia. }
        right. exists O. rewrite chunks_eq, E. cbn. split; [reflexivity|lia].
      * destruct D as (a & b & c & d & l0 & l1 & l2 & l3 & -> & _). do 8 (destruct k as [|k]; [cbn; first [left; reflexivity|right; exists O; cbn; split; [reflexivity|lia]]|]). lia.
    + discriminate.
    + destruct (chunks rest) as [ws'| | | |] eqn:Er; try discriminate. cbn [bind] in H. apply Ok_inj in H. subst ws.
      apply is_bytes_app in Hr as [Hw Hrest]. rewrite app_length in Hn. assert (1 <= length w)%nat by (destruct C; cbn; lia).
      destruct (Nat.le_gt_cases (length w) k) as [G|G].
      * replace (firstn k (w ++ rest)) with (w ++ firstn (k - length w) rest)
          by (rewrite firstn_app; rewrite (firstn_all2 w) by lia; reflexivity).
        rewrite chunks_eq, (chunk_next tag payload) by assumption.
        destruct (IH rest ws' (k - length w)%nat ltac:(lia) Hrest Er) as [->|(j & -> & Hj)]; [left; reflexivity|].
        right. exists (S j). cbn [bind firstn concat]. split; [reflexivity|]. rewrite app_length. lia.
      * replace (firstn k (w ++ rest)) with (firstn k w) by (rewrite firstn_app; replace (k - length w)%nat with O by lia; cbn; rewrite app_nil_r; reflexivity).
        rewrite chunks_eq. destruct (firstn_chunk tag payload w k C G) as [-> | ->]; [left; reflexivity|].
        right. exists O. cbn. split; [reflexivity|lia].
Qed.

Lemma decode_tracks_firstn : forall env ws n ts j, decode_tracks env n ws = Ok ts ->
  exists m, decode_tracks env n (firstn j ws) = Ok (firstn m ts) /\ (m <= length (filter (fun w => bytes_eqb (firstn 4 w) tag_mtrk) (firstn j ws)))%nat.
Proof.
  intros env ws. induction ws as [|w ws IH]; intros n ts j H.
  - apply Ok_inj in H. subst ts. exists O. rewrite firstn_nil. cbn. split; [reflexivity|lia].
  - destruct j as [|j]; [exists O; cbn; split; [reflexivity|lia]|]. change (firstn (S j) (w :: ws)) with (w :: firstn j ws). cbn [decode_tracks filter] in *.
    change (str "MTrk") with tag_mtrk in *. destruct (bytes_eqb (firstn 4 w) tag_mtrk).
    + destruct (unmarshal_mtrk env n new_context w) as [t| | | |]; try discriminate. cbn [bind] in *.
      destruct (decode_tracks env (n + 1) ws) as [ts'| | | |] eqn:Et; try discriminate. cbn [bind] in *. apply Ok_inj in H. subst ts.
      destruct (IH (n + 1) ts' j Et) as (m & E1 & E2). exists (S m). rewrite E1. cbn [bind length]. split; [reflexivity|lia].
    + apply IH. assumption.
Qed.

Definition track_chunk (w : bytes) : bool := bytes_eqb (firstn 4 w) tag_mtrk.

Lemma decode_tracks_count : forall env ws n ts, decode_tracks env n ws = Ok ts -> length ts = length (filter track_chunk ws).
Proof.
  intros env ws. induction ws as [|w ws IH]; intros n ts H.
  - apply Ok_inj in H. subst ts. reflexivity.
  - cbn [decode_tracks filter] in *. unfold track_chunk at 1. change (str "MTrk") with tag_mtrk in *. destruct (bytes_eqb (firstn 4 w) tag_mtrk).
    + destruct (unmarshal_mtrk env n new_context w) as [t| | | |]; try discriminate. cbn [bind] in *.
      destruct (decode_tracks env (n + 1) ws) as [ts'| | | |] eqn:Et; try discriminate. cbn [bind] in *. apply Ok_inj in H. subst ts.
      cbn [length]. rewrite (IH _ _ Et). reflexivity.
    + eapply IH. eassumption.
Qed.

Lemma decode_firstn : forall env r s k, is_bytes r -> decode env r = Ok s ->
  decode env (firstn k r) = Err \/ decode env (firstn k r) = Ok s /\
    exists w ws j, chunks r = Ok (w :: ws) /\ (length (concat (w :: firstn j ws)) <= k)%nat /\
      (length (filter track_chunk ws) <= length (filter track_chunk (firstn j ws)))%nat.
Proof.
  intros env r s k Hr H. unfold decode in *. destruct (chunks r) as [ws| | | |] eqn:E; try discriminate. cbn [bind] in H.
  destruct (chunks_firstn (length r) r ws k (le_n _) Hr E) as [->|(j & Ej & Hj)]; [left; reflexivity|]. rewrite Ej. cbn [bind].
  destruct ws as [|w ws]; [discriminate|]. destruct j as [|j]; [left; reflexivity|]. cbn [firstn] in *.
  destruct (unmarshal_mthd w) as [h| | | |]; try discriminate. cbn [bind] in *.
  destruct (decode_tracks env 0 ws) as [ts| | | |] eqn:Et; try discriminate. cbn [bind] in H.
  destruct (decode_tracks_firstn env ws 0 ts j Et) as (m & Em & Hm). rewrite Em. cbn [bind].
  destruct (Z.eqb_spec (zlen ts) (h_tracks h)) as [Hn|]; [|discriminate]. apply Ok_inj in H. subst s.
  destruct (Z.eqb_spec (zlen (firstn m ts)) (h_tracks h)) as [Hn'|]; [|left; reflexivity].
  assert (L : (length ts <= m)%nat) by (unfold zlen in *; rewrite firstn_length in Hn'; lia).
  rewrite (firstn_all2 ts) in * by assumption. right. split; [reflexivity|]. exists w, ws, j.
  split; [reflexivity|]. split; [exact Hj|]. pose proof (decode_tracks_count _ _ _ _ Et) as N1. unfold track_chunk in *. lia.
Qed.

Lemma chunks_app : forall items r1 r2, file_bytes items r1 -> exists ws1, wires items ws1 /\ r1 = concat ws1 /\
  chunks (r1 ++ r2) = do ws2 <- chunks r2; Ok (ws1 ++ ws2).
Proof.
  intros items r1 r2 F. induction F as [|tag payload w items r C F (ws & W & -> & E)].
  - exists []. repeat split; [constructor|]. cbn [app]. destruct (chunks r2); reflexivity.
  - exists (w :: ws). repeat split; [constructor; assumption|]. cbn [concat]. rewrite <- app_assoc, chunks_eq, (chunk_next tag payload) by assumption.
    rewrite E. destruct (chunks r2); reflexivity.
Qed.

Theorem truncated : forall env r s k, is_bytes r -> decode env r = Ok s ->
  (decode env (firstn k r) = Err \/ decode env (firstn k r) = Ok s) /\
  (forall first items payload r1 r2, r = r1 ++ r2 -> file_bytes (first :: items ++ [(tag_mtrk, payload)]) r1 -> (k < length r1)%nat ->
     decode env (firstn k r) = Err).
Proof.
  intros env r s k Hr H. destruct (decode_firstn env r s k Hr H) as [E|(E & w & ws & j & E1 & E2 & E3)]; [auto|]. split; [auto|].
  intros first items payload r1 r2 -> F Hk. exfalso. destruct (chunks_app _ r1 r2 F) as (ws1 & W & -> & E4). rewrite E4 in E1.
  destruct (chunks r2) as [ws2| | | |]; try discriminate. cbn [bind] in E1. apply Ok_inj in E1.
  inversion W as [|? w1 ? wm C W1]; subst. apply Forall2_app_inv_l in W1 as (wa & wb & Wa & Wb & ->).
  inversion Wb as [|? wl ? ? Cl Wn]; subst. inversion Wn; subst. cbn [app] in E1. injection E1 as -> <-.
  cbn [fst snd] in Cl. destruct (chunk_wire_det _ _ _ Cl) as [_ T].
  assert (Hj : (j <= length wa)%nat).
  { destruct (Nat.le_gt_cases j (length wa)) as [G|G]; [assumption|]. exfalso.
    cbn [concat] in E2, Hk. rewrite app_length in E2, Hk. rewrite <- app_assoc in E2. rewrite firstn_app in E2. rewrite (firstn_all2 wa) in E2 by lia.
    rewrite !concat_app, !app_length in *. cbn [concat] in *. rewrite app_nil_r in Hk.
    destruct (j - length wa)%nat eqn:Ej; [lia|]. cbn [app firstn concat] in E2. rewrite app_length in E2. lia. }
  rewrite <- app_assoc in E3. rewrite firstn_app in E3. replace (j - length wa)%nat with O in E3 by lia. cbn [firstn] in E3. rewrite app_nil_r in E3.
  rewrite !filter_app, !app_length in E3. cbn [filter] in E3. unfold track_chunk at 2 in E3. rewrite T, bytes_eqb_refl in E3. cbn [length] in E3.
  assert (length (filter track_chunk (firstn j wa)) <= length (filter track_chunk wa))%nat.
  { rewrite <- (firstn_skipn j wa) at 2. rewrite filter_app, app_length. lia. }
  lia.
Qed.

(** ** Incomplete final events are dropped *)

Lemma vlq_prefix_free : forall d1 d2 x1 x2, vlq_string d1 -> vlq_string d2 -> d1 ++ x1 = d2 ++ x2 -> d1 = d2 /\ x1 = x2.
Proof.
  intros d1 d2 x1 x2 V1. revert d2. induction V1 as [b Hb|b bs Hb V1 IH]; intros d2 V2 E; destruct V2 as [b' Hb'|b' bs' Hb' V2]; cbn [app] in E; injection E as -> E; try lia.
  - auto.
  - destruct (IH bs' V2 E) as [-> ->]. auto.
Qed.

Lemma shape_prefix_free : forall rs p1 p2 d1 d2 k1 k2 x1 x2, shape rs p1 d1 k1 -> shape rs p2 d2 k2 -> p1 ++ x1 = p2 ++ x2 -> length p1 = length p2.
Proof.
  assert (L : forall l1 l2 a1 a2 x1 x2, reads_len l1 a1 -> reads_len l2 a2 -> l1 ++ a1 ++ x1 = l2 ++ a2 ++ x2 -> length (l1 ++ a1) = length (l2 ++ a2)).
  { intros l1 l2 a1 a2 x1 x2 [V1 R1] [V2 R2] E. destruct (vlq_prefix_free _ _ _ _ V1 V2 E) as [-> _]. rewrite !app_length. unfold zlen in *. lia. }
  intros rs p1 p2 d1 d2 k1 k2 x1 x2 S1 S2 E.
  destruct S1 as [e1 ? st1 a1 [V1 _] B1 N1 N2 N3 L1|e1 ? a1 [V1 _] B1 L1 N1 H1|e1 ? ty1 l1 a1 [V1 _] R1|e1 ? st1 l1 a1 [V1 _] Hs1 R1];
  destruct S2 as [e2 ? st2 a2 [V2 _] B2 M1 M2 M3 L2|e2 ? a2 [V2 _] B2 L2 M1 H2|e2 ? ty2 l2 a2 [V2 _] R2|e2 ? st2 l2 a2 [V2 _] Hs2 R2];
  rewrite <- !app_assoc in E; destruct (vlq_prefix_free _ _ _ _ V1 V2 E) as [-> F]; rewrite !app_length; f_equal; cbn [length app] in *;
  try (destruct a1; [congruence|]); try (destruct a2; [congruence|]); cbn [app hd] in *; try (injection F as F0 F); subst; try congruence; try lia.
  - f_equal. f_equal. rewrite <- !app_assoc in F. eapply L; eassumption.
  - f_equal. rewrite <- !app_assoc in F. eapply L; eassumption.
Qed.

Theorem incomplete_dropped : forall env p es c' q q' delta k, is_bytes (p ++ q') ->
  decode_events env new_context p = Ok (es, c') -> concat (map e_bytes es) = p ->
  shape (running_after es) q delta k -> (exists x, x <> [] /\ q = q' ++ x) ->
  decode_events env new_context (p ++ q') = Ok (es, c').
Proof.
  intros env p es c' q q' delta k Hb H Hc Hs (x & Hx & ->). rewrite decode_events_eq in *. assert (C0 : ctx_ok new_context) by (left; reflexivity).
  apply is_bytes_app in Hb as [Hp Hq].
  rewrite (loop_app (length p) env new_context 0 p q' es c' (le_n _) Hp C0 ltac:(lia) H Hc).
  destruct (loop_history (length p) env [] new_context 0 p es c' (le_n _) Hp C0 hist_new H) as [(H1 & _) _]. cbn [app] in H1.
  destruct (loop_facts (length p) env new_context 0 p es c' (le_n _) Hp C0 H) as (H3 & _).
  rewrite <- H1 in Hs. rewrite loop_from_eq.
  destruct (parse_cases env c' ((0 + total es) mod 4294967296) q' Hq H3) as [->|[(d & dl & b & y & R1 & R2 & R3 & R4 & _)|(p2 & rest & d2 & k2 & E2 & S2)]].
  - cbn [bind]. rewrite app_nil_r. reflexivity.
  - exfalso. subst q'. rewrite <- app_assoc in Hs. cbn [app] in Hs. remember (d ++ b :: y ++ x) as q eqn:Eq.
    destruct R1 as [V1 _]. rewrite R4 in Hs.
    destruct Hs as [e ? st a [V2 _] B|e ? a [V2 _] B|e ? ty l a [V2 _] R|e ? st l a [V2 _] Hst R]; try lia;
      destruct (vlq_prefix_free _ _ _ _ V2 V1 Eq) as [_ F]; injection F as F _; lia.
  - exfalso. subst q'. rewrite <- app_assoc in Hs.
    assert (p2 ++ (rest ++ x) = (p2 ++ rest ++ x) ++ []) as E by (rewrite app_nil_r; reflexivity).
    pose proof (shape_prefix_free _ _ _ _ _ _ _ _ _ S2 Hs E) as L. rewrite !app_length in L. destruct x; [congruence|]. cbn in L. lia.
Qed.
