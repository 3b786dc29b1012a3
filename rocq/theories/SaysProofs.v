(** * SaysProofs: the decoder reports exactly what SpecSays.v says (C75). *)
From Verif Require Import Base Strings Tables SpecVlq Vlq VlqProofs Event SpecEvent SpecFile SpecPacket SpecHistory SpecCrash SpecSays Marshal Parse
  Track File SpecTrack ParseProofs EncodeProofs DecodeProofs FileProofs TrackProofs CrashProofs.

(** ** Manufacturers *)

Lemma assocb_first : forall A k (l : list (bytes * A)), 
  match assocb k l with
  | Some v => exists pre post, l = pre ++ (k, v) :: post /\ ~ In k (map fst pre)
  | None => ~ In k (map fst l)
  end.
Proof.
  intros A k l. induction l as [|[k' v'] l IH]; cbn [assocb]; [intros []|].
  destruct (bytes_eqb k k') eqn:E.
  - apply bytes_eqb_eq in E. subst k'. exists [], l. split; [reflexivity|intros []].
  - assert (k <> k') by (intros ->; rewrite bytes_eqb_refl in E; discriminate).
    destruct (assocb k l) as [v|].
    + destruct IH as (pre & post & -> & N). exists ((k', v') :: pre), post. split; [reflexivity|]. intros [I|I]; cbn in *; auto.
    + intros [I|I]; cbn in *; auto.
Qed.

Lemma filed_assocb : forall table id id', filed table id id' <->
  match assocb (id_key id) table with Some m => id' = m_id m | None => id' = id end.
Proof.
  intros table id id'. pose proof (assocb_first _ (id_key id) table) as F. split.
  - intros [pre m post -> N|N].
    + destruct (assocb _ _) as [m'|].
      * destruct F as (pre' & post' & E & N'). clear - E N N'. revert pre' E N'. induction pre as [|[k x] pre IH]; intros [|[k' x'] pre'] E N'; cbn [app] in E.
        -- injection E as -> _. reflexivity.
        -- injection E as <- _. exfalso. apply N'. left. reflexivity.
        -- injection E as -> _. exfalso. apply N. left. reflexivity.
        -- injection E as _ _ E. apply (IH ltac:(intro I; apply N; right; exact I) pre' E). intro I. apply N'. right. exact I.
      * exfalso. apply F. rewrite map_app, in_app_iff. right. left. reflexivity.
    + destruct (assocb _ _); [|reflexivity]. destruct F as (pre & post & -> & _). exfalso. apply N. rewrite map_app, in_app_iff. right. left. reflexivity.
  - destruct (assocb _ _) as [m|]; intros ->; [|apply fd_unknown; exact F]. destruct F as (pre & post & E & N). eapply fd_known; eassumption.
Qed.

Lemma lookup_filed : forall env id id', wire_id id -> 
  (filed (env_manufacturers env) id id' <-> id' = m_id (lookup_manufacturer env id)).
Proof.
  intros env id id' W. rewrite filed_assocb. destruct W as [a Ha|b c Hb Hc]; unfold lookup_manufacturer; cbn [id_key].
  - rewrite hex2_byte by (unfold is_byte; lia). destruct (assocb _ _); tauto.
  - rewrite !hex2_byte by (unfold is_byte; lia). destruct (assocb _ _); tauto.
Qed.

(** The ID 0 of a system exclusive message is a single byte, too. *)
Lemma lookup_filed_one : forall env a id', is_byte a ->
  (filed (env_manufacturers env) [a] id' <-> id' = m_id (lookup_manufacturer env [a])).
Proof.
  intros env a id' Ha. rewrite filed_assocb. unfold lookup_manufacturer; cbn [id_key].
  rewrite hex2_byte by assumption. destruct (assocb _ _); tauto.
Qed.

(** ** Channel messages *)

Lemma bend_any : forall a b, 0 <= a < 256 -> 0 <= b < 256 ->
  Z.lor (Z.shiftl a 7 mod 65536) (Z.land b 127) = a * 128 + b mod 128.
Proof.
  intros a b Ha Hb. rewrite land7f, shl7 by lia. rewrite (Z.mod_small (a * 128)) by lia.
  assert (Hm : 0 <= b mod 128 < 128) by lia. set (m := b mod 128) in *. clearbody m.
  rewrite Z.add_nocarry_lxor, Z.lxor_lor; auto.
  all: apply Z.bits_inj'; intros n Hn; rewrite Z.land_spec, Z.bits_0.
  all: replace (a * 128) with (Z.shiftl a 7) by (rewrite Z.shiftl_mul_pow2 by lia; reflexivity).
  all: destruct (Z.ltb_spec n 7);
    [rewrite Z.shiftl_spec_low by lia; reflexivity
    |rewrite <- (Z.mod_small m (2 ^ 7)) by lia; rewrite Z.mod_pow2_bits_high by lia; apply andb_false_r].
Qed.

Lemma chan_inj : forall a b x y, PChan a x = PChan b y -> a = b /\ x = y.
Proof. intros a b x y H. split; congruence. Qed.
Lemma meta_inj : forall a b x y, PMeta a x = PMeta b y -> a = b /\ x = y.
Proof. intros a b x y H. split; congruence. Qed.

Lemma midi_says : forall env tick delta op st data raw c, is_bytes data -> says (env_manufacturers env) op (PChan st data) c ->
  exists e, unmarshal_midi env tick delta st data raw = Ok e /\ view (e_body e) = c.
Proof.
  intros env tick delta op st data raw c Hb H. 
  assert (B : forall i, is_byte (nth i data 0)).
  { intro i. destruct (nth_in_or_default i data 0) as [I| ->]; [|unfold is_byte; lia]. unfold is_bytes in Hb. rewrite Forall_forall in Hb. auto. }
  pose proof (B 0%nat) as B0. pose proof (B 1%nat) as B1. unfold is_byte in B0, B1. clear B Hb.
  remember (PChan st data) as k eqn:Ek. destruct H; try discriminate; apply chan_inj in Ek as [<- <-]; cbn [nth] in B0, B1; unfold unmarshal_midi.
  - match goal with HC : 0 <= ch < 16 |- _ => status_tests 128 ch HC end. unfold make_note_off. replace (127 <? v) with false by lia. replace (15 <? ch) with false by lia.
    eexists. split; reflexivity.
  - match goal with HC : 0 <= ch < 16 |- _ => status_tests 144 ch HC end. unfold make_note_on. replace (127 <? v) with false by lia. replace (15 <? ch) with false by lia.
    eexists. split; reflexivity.
  - match goal with HC : 0 <= ch < 16 |- _ => status_tests 160 ch HC end. unfold make_polyphonic_pressure. replace (127 <? p) with false by lia. replace (15 <? ch) with false by lia.
    eexists. split; reflexivity.
  - match goal with HC : 0 <= ch < 16 |- _ => status_tests 176 ch HC end. unfold make_controller. replace (15 <? ch) with false by lia.
    eexists. split; [reflexivity|]. cbn [view e_body]. rewrite lookup_controller_id by lia. reflexivity.
  - match goal with HC : 0 <= ch < 16 |- _ => status_tests 192 ch HC end. unfold make_program_change. replace (15 <? ch) with false by lia.
    eexists. split; reflexivity.
  - match goal with HC : 0 <= ch < 16 |- _ => status_tests 208 ch HC end. unfold make_channel_pressure. replace (127 <? p) with false by lia. replace (15 <? ch) with false by lia.
    eexists. split; reflexivity.
  - match goal with HC : 0 <= ch < 16 |- _ => status_tests 224 ch HC end. unfold make_pitch_bend. replace (15 <? ch) with false by lia.
    eexists. split; [reflexivity|]. cbn [view e_body]. rewrite bend_any by lia. reflexivity.
Qed.

Lemma midi_said : forall table op st data, 128 <= st < 256 -> length data = message_length st ->
  crashes op (PChan st data) = false -> exists c, says table op (PChan st data) c.
Proof.
  intros table op st data Hst Hl Hc. unfold crashes in Hc. unfold message_length in Hl.
  assert (st < 240) by lia. 
  assert (D : exists ch, 0 <= ch < 16 /\ (st = 128 + ch \/ st = 144 + ch \/ st = 160 + ch \/ st = 176 + ch \/ st = 192 + ch \/ st = 208 + ch \/ st = 224 + ch)).
  { exists (st mod 16). lia. }
  destruct D as (ch & Hch & D).
  destruct (Z.ltb_spec st 160); [|destruct (Z.ltb_spec st 176); [|destruct (Z.ltb_spec st 192); [|destruct (Z.ltb_spec st 224); [|destruct (Z.ltb_spec st 240); [|lia]]]]].
  - destruct data as [|a [|b [|]]]; try discriminate. cbn [nth] in Hc. assert (b < 128) by lia.
    destruct D as [-> | [-> | D]]; [eexists; apply sy_off; lia|eexists; apply sy_on; lia|lia].
  - destruct data as [|a [|]]; try discriminate. cbn [nth] in Hc. assert (a < 128) by lia. replace st with (160 + ch) by lia. eexists. apply sy_poly; lia.
  - destruct data as [|a [|b [|]]]; try discriminate. replace st with (176 + ch) by lia. eexists. apply sy_control; lia.
  - destruct data as [|a [|]]; try discriminate. cbn [nth] in Hc. destruct (Z.ltb_spec st 208).
    + replace st with (192 + ch) by lia. eexists. apply sy_program; lia.
    + assert (a < 128) by lia. replace st with (208 + ch) by lia. eexists. apply sy_pressure; lia.
  - destruct data as [|a [|b [|]]]; try discriminate. replace st with (224 + ch) by lia. eexists. apply sy_bend; lia.
Qed.

(** ** Meta events *)

Lemma double_loop_any : forall d, is_byte d -> double_loop (Z.to_nat d) 1 = 2 ^ d mod 256.
Proof.
  intros d H. pose proof (byte_sweep (fun d => double_loop (Z.to_nat d) 1 =? 2 ^ d mod 256) ltac:(vm_compute; reflexivity) d H) as E.
  cbv beta in E. lia.
Qed.

Lemma smpte_read : forall x rr rate h, smpte_code rr rate -> x = 0 \/ x = 1 -> 0 <= h <= 24 ->
  Z.land (Z.shiftr (x * 128 + rr * 32 + h) 5) 3 = rr /\ Z.land (x * 128 + rr * 32 + h) 31 = h /\ smpte_rate rr = rate /\
  (rate = 24 \/ rate = 25 \/ rate = 29 \/ rate = 30).
Proof.
  intros x rr rate h Hr Hx Hh. assert (R : 0 <= rr < 4 /\ smpte_rate rr = rate /\ (rate = 24 \/ rate = 25 \/ rate = 29 \/ rate = 30)) by (destruct Hr; repeat split; try lia; reflexivity).
  destruct R as (R1 & R2 & R3).
  pose proof (byte_sweep (fun a => (Z.land (Z.shiftr a 5) 3 =? a / 32 mod 4) && (Z.land a 31 =? a mod 32)) ltac:(vm_compute; reflexivity)
    (x * 128 + rr * 32 + h) ltac:(unfold is_byte; lia)) as E. cbv beta in E. repeat split; auto; lia.
Qed.

Lemma key_read : forall acc, -7 <= acc <= 7 -> int8 (acc mod 256) = acc /\ (exists s, major_scale acc = Some s) /\ (exists s, minor_scale acc = Some s).
Proof.
  intros acc H. split; [unfold int8; destruct (Z.ltb_spec (acc mod 256) 128); lia|].
  assert (D : acc = -7 \/ acc = -6 \/ acc = -5 \/ acc = -4 \/ acc = -3 \/ acc = -2 \/ acc = -1 \/ acc = 0 \/ acc = 1 \/ acc = 2 \/ acc = 3 \/ acc = 4 \/
     acc = 5 \/ acc = 6 \/ acc = 7) by lia.
  repeat (destruct D as [-> | D]; [split; eexists; reflexivity|]). subst. split; eexists; reflexivity.
Qed.

Lemma meta_says : forall env tick delta op ty data raw c, is_byte ty -> is_bytes data -> says (env_manufacturers env) op (PMeta ty data) c ->
  exists e, unmarshal_meta env tick delta (Z.land ty 127) data raw = Ok e /\ view (e_body e) = c.
Proof.
  intros env tick delta op ty data raw c Hty Hb H.
  assert (T : Z.land ty 127 = ty mod 128) by (change 127 with (Z.ones 7); rewrite Z.land_ones by lia; reflexivity). rewrite T. clear T.
  remember (PMeta ty data) as kk eqn:Ek. destruct H; try discriminate; apply meta_inj in Ek as [-> <-];
    match goal with E : ty mod 128 = _ |- _ => rewrite E end.
  - eexists. split; [reflexivity|]. cbn [view e_body make_sequence_number]. 
    apply is_bytes_inv in Hb as [Ha Hb]. apply is_bytes_inv in Hb as [Hb _]. reflexivity.
  - assert (text_kind (smf_text_type k) = Some k) as K by (destruct k; reflexivity). unfold unmarshal_meta. rewrite K. eexists. split; reflexivity.
  - unfold unmarshal_meta. cbn [text_kind]. change (text_kind 32) with (@None textkind). cbn iota. change (32 =? 0) with false. change (32 =? 32) with true. cbn iota.
    unfold make_channel_prefix. replace (15 <? ch) with false by lia. eexists. split; reflexivity.
  - unfold unmarshal_meta. change (text_kind 33) with (@None textkind). cbn iota. change (33 =? 0) with false. change (33 =? 32) with false. change (33 =? 33) with true. cbn iota.
    unfold make_port. replace (127 <? p) with false by lia. eexists. split; reflexivity.
  - eexists. split; reflexivity.
  - eexists. split; [reflexivity|]. cbn [view e_body make_tempo]. f_equal. 
    apply is_bytes_inv in Hb as [Ha Hb]. apply is_bytes_inv in Hb as [Hb Hc]. apply is_bytes_inv in Hc as [Hc _]. unfold is_byte in *.
    unfold be_fold. cbn [fold_left]. rewrite !Z.shiftl_mul_pow2 by lia. change (2 ^ 8) with 256. lia.
  - change (unmarshal_meta env tick delta 84) with (fun data bs : bytes => unmarshal_smpte tick delta data bs). cbv beta. unfold unmarshal_smpte, make_smpte_offset.
    destruct (smpte_read x rr rate h) as (R1 & R2 & R3 & R4); auto. rewrite R1, R2, R3.
    replace (24 <? h) with false by lia. replace (59 <? m) with false by lia. replace (59 <? s) with false by lia. replace (rate <=? f) with false by lia.
    replace (100 <? ff) with false by lia. replace (negb _) with false by lia. eexists. split; reflexivity.
  - apply is_bytes_inv in Hb as [_ Hb]. apply is_bytes_inv in Hb as [Hd _].
    change (unmarshal_meta env tick delta 88 [n; d; t; q] raw) with (make_time_signature tick delta n (double_loop (Z.to_nat d) 1) t q raw).
    pose proof (time_signature_ok tick delta n d t q raw Hd) as O. unfold make_time_signature in *. rewrite double_loop_any in * by assumption.
    destruct (log2_loop _ _ _ _); try discriminate. cbn [bind]. eexists. split; reflexivity.
  - change (unmarshal_meta env tick delta 89 [acc mod 256; kt] raw) with (unmarshal_key tick delta [acc mod 256; kt] raw).
    unfold unmarshal_key, make_key_signature. destruct (key_read acc) as (-> & (s1 & K1) & (s2 & K2)); [lia|]. rewrite K1, K2.
    match goal with K : kt = 0 \/ kt = 1 |- _ => destruct K as [-> | ->] end; eexists; split; reflexivity.
  - change (unmarshal_meta env tick delta 127 (id ++ d) raw) with (unmarshal_seqspec env tick delta (id ++ d) raw).
    match goal with W : wire_id id, F : filed _ _ _ |- _ => apply lookup_filed in F; [|exact W]; subst id'; destruct W as [a Ha|b c Hbb Hc] end.
    + cbn [app unmarshal_seqspec]. replace (a =? 0) with false by lia. eexists. split; reflexivity.
    + cbn [app unmarshal_seqspec]. change (0 =? 0) with true. cbn iota. eexists. split; reflexivity.
Qed.

Lemma filed_total : forall table id, exists id', filed table id id'.
Proof. intros table id. destruct (assocb (id_key id) table) as [m|] eqn:E; eexists; apply filed_assocb; rewrite E; reflexivity. Qed.

Lemma text_types : forall t, 1 <= t <= 9 -> exists k, t = smf_text_type k.
Proof.
  intros t H. assert (D : t = 1 \/ t = 2 \/ t = 3 \/ t = 4 \/ t = 5 \/ t = 6 \/ t = 7 \/ t = 8 \/ t = 9) by lia.
  destruct D as [->|[->|[->|[->|[->|[->|[->|[->| ->]]]]]]]]; [exists KText|exists KCopyright|exists KTrackName|exists KInstrumentName|
    exists KLyric|exists KMarker|exists KCuePoint|exists KProgramName|exists KDeviceName]; reflexivity.
Qed.

Lemma zlen_one : forall (data : bytes), zlen data = 1 -> exists a, data = [a].
Proof. intros [|a [|b r]] H; rewrite ?zlen_cons in H; [discriminate|eauto|pose proof (zlen_nonneg _ r); lia]. Qed.
Lemma zlen_succ : forall (data : bytes) n, zlen data = n -> 0 < n -> exists a r, data = a :: r /\ zlen r = n - 1.
Proof. intros [|a r] n H Hn; rewrite ?zlen_cons in H; [cbn in H; lia|]. exists a, r. split; [reflexivity|lia]. Qed.

Lemma meta_said : forall table op ty data, is_byte ty -> is_bytes data -> meta_acceptable ty data = true ->
  exists c, says table op (PMeta ty data) c.
Proof.
  intros table op ty data Hty Hb A. unfold meta_acceptable in A. cbv zeta in A.
  destruct ((1 <=? ty mod 128) && (ty mod 128 <=? 9) || (ty mod 128 =? 47)) eqn:E1.
  { apply orb_prop in E1 as [E1|E1]; [|eexists; apply sy_eot; lia]. destruct (text_types (ty mod 128)) as [k Hk]; [lia|]. eexists. apply sy_text, Hk. }
  destruct (Z.eqb_spec (ty mod 128) 0).
  { destruct data as [|a [|b [|]]]; rewrite ?zlen_cons in A; try discriminate; [|pose proof (zlen_nonneg _ l); lia]. eexists. apply sy_seqno. assumption. }
  destruct (Z.eqb_spec (ty mod 128) 32).
  { destruct (zlen_one data) as [a ->]; [lia|]. cbn [nth] in A. eexists. apply sy_prefix; [assumption|lia]. }
  destruct (Z.eqb_spec (ty mod 128) 33).
  { destruct (zlen_one data) as [a ->]; [lia|]. cbn [nth] in A. eexists. apply sy_port; [assumption|lia]. }
  destruct (Z.eqb_spec (ty mod 128) 81).
  { apply Z.eqb_eq in A. apply zlen_succ in A as (a & r & -> & A); [|lia]. apply zlen_succ in A as (b & r' & -> & A); [|lia].
    destruct (zlen_one r') as [c ->]; [lia|]. eexists. apply sy_tempo. assumption. }
  destruct (Z.eqb_spec (ty mod 128) 84).
  { assert (L : zlen data = 5) by lia. apply zlen_succ in L as (a & r & -> & L); [|lia]. apply zlen_succ in L as (m & r1 & -> & L); [|lia].
    apply zlen_succ in L as (s & r2 & -> & L); [|lia]. apply zlen_succ in L as (f & r3 & -> & L); [|lia]. destruct (zlen_one r3) as [ff ->]; [lia|].
    cbn [nth] in A. apply is_bytes_inv in Hb as [Ha _]. unfold is_byte in Ha.
    assert (smpte_code (a / 32 mod 4) (rate_of (a / 32 mod 4))) as C.
    { assert (D : a / 32 mod 4 = 0 \/ a / 32 mod 4 = 1 \/ a / 32 mod 4 = 2 \/ a / 32 mod 4 = 3) by lia. destruct D as [->|[->|[->| ->]]]; constructor. }
    set (rate := rate_of (a / 32 mod 4)) in *. clearbody rate.
    replace a with (a / 128 * 128 + (a / 32 mod 4) * 32 + a mod 32) by lia. eexists. apply sy_smpte with (rate := rate); auto; lia. }
  destruct (Z.eqb_spec (ty mod 128) 88).
  { apply Z.eqb_eq in A. apply zlen_succ in A as (a & r & -> & A); [|lia]. apply zlen_succ in A as (b & r1 & -> & A); [|lia].
    apply zlen_succ in A as (c & r2 & -> & A); [|lia]. destruct (zlen_one r2) as [d ->]; [lia|]. eexists. apply sy_timesig. assumption. }
  destruct (Z.eqb_spec (ty mod 128) 89).
  { assert (L : zlen data = 2) by lia. apply zlen_succ in L as (a & r & -> & L); [|lia]. destruct (zlen_one r) as [kt ->]; [lia|]. cbn [nth] in A.
    apply is_bytes_inv in Hb as [Ha Hb]. apply is_bytes_inv in Hb as [Hk _]. unfold is_byte in *.
    replace a with ((if a <? 128 then a else a - 256) mod 256) by (destruct (Z.ltb_spec a 128); lia).
    eexists. apply sy_keysig; [assumption|destruct (Z.ltb_spec a 128); lia|lia]. }
  destruct (Z.eqb_spec (ty mod 128) 127); [|discriminate].
  destruct data as [|a data]; [discriminate|]. cbn [nth] in A. apply is_bytes_inv in Hb as [Ha Hb]. unfold is_byte in Ha.
  destruct (Z.eqb_spec a 0) as [->|N].
  - destruct data as [|b [|c d]]; try discriminate. apply is_bytes_inv in Hb as [Hb1 Hb]. apply is_bytes_inv in Hb as [Hb2 _].
    destruct (filed_total table [0; b; c]) as [id' F]. change (0 :: b :: c :: d) with ([0; b; c] ++ d). eexists.
    apply sy_seqspec with (id' := id'); auto. constructor; assumption.
  - destruct (filed_total table [a]) as [id' F]. change (a :: data) with ([a] ++ data). eexists. apply sy_seqspec with (id' := id'); auto. constructor. lia.
Qed.

(** ** System exclusive messages *)

Lemma packet_f7_last : forall data, packet_f7 data = (last data 0 =? 247).
Proof. destruct data; reflexivity. Qed.

Lemma last_cons_snoc : forall (a : Z) d x, last (a :: d ++ [x]) 0 = x.
Proof. intros a d x. change (a :: d ++ [x]) with ((a :: d) ++ [x]). apply last_last. Qed.

Lemma list_snoc : forall (d : bytes), d = [] \/ exists y x, d = y ++ [x].
Proof. intro d. destruct d as [|a d] using rev_ind; [auto|]. right. eauto. Qed.

(** ** One message *)

Lemma read_says : forall env c tick delta k raw p, ctx_ok c -> shape (c_running c) p delta k -> is_bytes p ->
  forall t, (says (env_manufacturers env) (c_casio c) k t <->
  exists e c', read_packet env c tick delta k raw = Ok (e, c') /\ view (e_body e) = t).
Proof.
  intros env c tick delta k raw p Hc Hs Hp.
  assert (F : match k with PChan st data => 128 <= st < 256 /\ length data = message_length st /\ is_bytes data
      | PMeta ty data => is_byte ty /\ is_bytes data | PSys st data => (st = 240 \/ st = 247) /\ is_bytes data end).
  { destruct Hs; apply is_bytes_app in Hp as [_ Hp].
    - apply is_bytes_inv in Hp as [_ Hp]. auto.
    - repeat split; try assumption; lia.
    - apply is_bytes_inv in Hp as [_ Hp]. apply is_bytes_inv in Hp as [Ht Hp]. apply is_bytes_app in Hp as [_ Hp]. auto.
    - apply is_bytes_inv in Hp as [_ Hp]. apply is_bytes_app in Hp as [_ Hp]. auto. }
  (* what is said is reported *)
  assert (Fwd : forall t, says (env_manufacturers env) (c_casio c) k t -> exists e c', read_packet env c tick delta k raw = Ok (e, c') /\ view (e_body e) = t).
  { intros t S. destruct k as [st data|ty data|st data]; cbn [read_packet].
    - destruct F as (_ & _ & F). destruct (midi_says env (tick + delta) delta _ st data raw t F S) as (e & -> & V). eexists. eexists. split; [reflexivity|exact V].
    - destruct F as (F1 & F2). destruct (meta_says env (tick + delta) delta _ ty data raw t F1 F2 S) as (e & -> & V). eexists. eexists. split; [reflexivity|exact V].
    - destruct F as (_ & F). remember (PSys st data) as k eqn:Ek. remember (c_casio c) as op eqn:Eo. destruct S; try discriminate; injection Ek as <- <-.
      + change (240 =? 240) with true. cbn iota. apply is_bytes_inv in F as [Fi _]. apply lookup_filed_one in H; [|assumption]. subst id'.
        assert (U : unmarshal_sysex env (tick + delta) delta (id :: d ++ [247]) raw = Ok (make_sysex (tick + delta) delta (lookup_manufacturer env [id]) d true raw)).
        { unfold unmarshal_sysex, ends_f7. rewrite last_last, removelast_last. destruct d; reflexivity. }
        rewrite U. eexists. eexists. split; reflexivity.
      + change (240 =? 240) with true. cbn iota. apply is_bytes_inv in F as [Fi _]. apply lookup_filed_one in H; [|assumption]. subst id'.
        assert (U : unmarshal_sysex env (tick + delta) delta (id :: d ++ [x]) raw = Ok (make_sysex (tick + delta) delta (lookup_manufacturer env [id]) (d ++ [x]) false raw)).
        { unfold unmarshal_sysex, ends_f7. rewrite last_last. replace (x =? 247) with false by lia. destruct d; reflexivity. }
        rewrite U. eexists. eexists. split; reflexivity.
      + change (247 =? 240) with false. cbn iota. 
        assert (U : unmarshal_continuation (tick + delta) delta (d ++ [247]) raw = Ok (make_continuation (tick + delta) delta d false raw)).
        { unfold unmarshal_continuation, ends_f7. rewrite last_last, removelast_last. destruct d; reflexivity. }
        rewrite U. eexists. eexists. split; reflexivity.
      + change (247 =? 240) with false. cbn iota. 
        assert (U : unmarshal_continuation (tick + delta) delta d raw = Ok (make_continuation (tick + delta) delta d false raw)).
        { unfold unmarshal_continuation, ends_f7. replace (last d 0 =? 247) with false by lia. destruct d; reflexivity. }
        rewrite U. eexists. eexists. split; reflexivity.
      + change (247 =? 240) with false. cbn iota. eexists. eexists. split; reflexivity. }
  intro t. split; [apply Fwd|]. intros (e & c' & R & V).
  assert (exists t', says (env_manufacturers env) (c_casio c) k t') as [t' S].
  { pose proof (packet_outcome env c tick delta k raw p Hc Hs Hp) as O. rewrite R in O.
    destruct (rejects (c_casio c) k) eqn:Er; [discriminate|]. destruct (crashes (c_casio c) k) eqn:Ec; [discriminate|].
    destruct k as [st data|ty data|st data].
    - destruct F as (F1 & F2 & _). apply midi_said; assumption.
    - destruct F. apply meta_said; auto. cbn [crashes] in Ec. destruct (meta_acceptable ty data); [reflexivity|discriminate].
    - cbn [crashes rejects] in *. destruct F as [[-> | ->] Fb].
      + change (240 =? 240) with true in *. cbn [andb] in *. destruct (c_casio c); [discriminate|]. cbn [orb negb andb] in *.
        destruct data as [|a data]; [discriminate|]. destruct (list_snoc data) as [->|(y & x & ->)]; [discriminate|].
        destruct (filed_total (env_manufacturers env) [a]) as [id' Fd].
        destruct (Z.eq_dec x 247) as [->|N]; eexists; [apply sy_sysex_single|apply sy_sysex_first]; eassumption.
      + destruct (c_casio c); [|eexists; apply sy_escape].
        destruct (Z.eq_dec (last data 0) 247) as [El|Nl]; [|eexists; apply sy_cont; assumption].
        destruct (list_snoc data) as [->|(y & x & ->)]; [discriminate|]. rewrite last_last in El. subst x. eexists. apply sy_cont_last. }
  destruct (Fwd t' S) as (e1 & c1 & R1 & V1). rewrite R in R1. apply Ok_inj, pair_equal_spec in R1 as [<- <-]. congruence.
Qed.

Lemma read_state : forall env c tick delta k raw e c', read_packet env c tick delta k raw = Ok (e, c') ->
  match k with PSys st _ => st = 240 \/ st = 247 | _ => True end ->
  c_running c' = status_after k /\ c_casio c' = open_after (c_casio c) k.
Proof.
  intros env c tick delta k raw e c' R K. destruct k as [st data|ty data|st data]; cbn [read_packet] in R.
  - destruct (new_event _); try discriminate. cbn [bind] in R. apply Ok_inj, pair_equal_spec in R as [_ <-]. split; reflexivity.
  - destruct (new_event _); try discriminate. cbn [bind] in R. apply Ok_inj, pair_equal_spec in R as [_ <-]. split; reflexivity.
  - rewrite packet_f7_last in R. cbn [status_after open_after]. destruct K as [-> | ->].
    + change (240 =? 240) with true in *. cbn iota in *. destruct (c_casio c); [discriminate|]. destruct (unmarshal_sysex _ _ _ _ _); try discriminate. cbn [bind] in R.
      apply Ok_inj, pair_equal_spec in R as [_ <-]. split; reflexivity.
    + change (247 =? 240) with false in *. cbn iota in *. destruct (if c_casio c then _ else _); try discriminate. cbn [bind] in R.
      apply Ok_inj, pair_equal_spec in R as [_ <-]. split; reflexivity.
Qed.

Lemma shape_sys : forall rs p delta k, shape rs p delta k -> match k with PSys st _ => st = 240 \/ st = 247 | _ => True end.
Proof. intros rs p delta k H. destruct H; auto. Qed.

Lemma shape_unique : forall rs p1 p2 d1 d2 k1 k2 x1 x2, shape rs p1 d1 k1 -> shape rs p2 d2 k2 -> p1 ++ x1 = p2 ++ x2 ->
  p1 = p2 /\ d1 = d2 /\ k1 = k2 /\ x1 = x2.
Proof.
  intros rs p1 p2 d1 d2 k1 k2 x1 x2 S1 S2 E. pose proof (shape_prefix_free _ _ _ _ _ _ _ _ _ S1 S2 E) as L.
  assert (P : p1 = p2 /\ x1 = x2).
  { clear - E L. revert p2 E L. induction p1 as [|a p1 IH]; intros [|b p2] E L; try discriminate; [auto|]. cbn [app length] in *.
    injection E as -> E. injection L as L. destruct (IH p2 E L) as [-> ->]. auto. }
  destruct P as [<- <-]. clear E L. split; [reflexivity|]. rewrite <- and_assoc. split; [|reflexivity]. 
  remember p1 as p2 eqn:E in S2.
  assert (LL : forall l1 l2 a1 a2, reads_len l1 a1 -> reads_len l2 a2 -> l1 ++ a1 = l2 ++ a2 -> a1 = a2).
  { intros l1 l2 a1 a2 [W1 _] [W2 _] El. apply (vlq_prefix_free _ _ _ _ W1 W2 El). }
  destruct S1 as [e1 ? st1 a1 [V1 D1] B1 N1 N2 N3 L1|e1 ? a1 [V1 D1] B1 L1 N1 H1|e1 ? ty1 l1 a1 [V1 D1] R1|e1 ? st1 l1 a1 [V1 D1] Hs1 R1];
  destruct S2 as [e2 ? st2 a2 [V2 D2] B2 M1 M2 M3 L2|e2 ? a2 [V2 D2] B2 L2 M1 H2|e2 ? ty2 l2 a2 [V2 D2] R2|e2 ? st2 l2 a2 [V2 D2] Hs2 R2];
  destruct (vlq_prefix_free _ _ _ _ V2 V1 E) as [-> F]; (split; [congruence|]);
  try (destruct a1; [congruence|]); try (destruct a2; [congruence|]); cbn [app hd] in *; try congruence; try (injection F as F0 F); subst; try congruence; try lia.
  - f_equal. symmetry. eapply LL; eassumption.
  - f_equal. symmetry. eapply LL; eassumption.
Qed.

(** ** Tracks *)

Lemma parse_unfinished : forall env c tick r, is_bytes r -> ctx_ok c -> (parse env c tick r = Eof <-> unfinished (c_running c) r).
Proof.
  intros env c tick r Hr Hc. split.
  - intro E. split.
    + intros p delta k x Hs ->. rewrite (parse_shape env c tick p delta k x Hs) in E.
      pose proof (read_packet_not_eof env c tick delta k p) as N. destruct (read_packet env c tick delta k p) as [[e c']| | | |]; try discriminate. congruence.
    + intros Hrs d delta b x Hd ->. destruct (Z.ltb_spec b 128) as [L|L]; [|assumption]. exfalso.
      unfold parse in E. rewrite (delta_stream d delta) in E by assumption. cbn [bind] in E. rewrite Hrs in E.
      replace (b <? 128) with true in E by lia. change (0 <? 128) with true in E. cbn [andb] in E. discriminate.
  - intros [U1 U2]. destruct (parse_cases env c tick r Hr Hc) as [E|[(d & delta & b & x & R1 & R2 & R3 & R4 & E)|(p & rest & delta & k & -> & Hs)]].
    + exact E.
    + specialize (U2 R4 d delta b x R1 R2). lia.
    + exfalso. exact (U1 p delta k rest Hs eq_refl).
Qed.

Lemma tells_inv : forall table rs op evs p rs' op', tells table rs op evs p rs' op' ->
  (evs = [] /\ p = [] /\ rs' = rs /\ op' = op) \/
  exists p1 delta k t evs1 p2, evs = (delta, t) :: evs1 /\ p = p1 ++ p2 /\ shape rs p1 delta k /\ says table op k t /\
    tells table (status_after k) (open_after op k) evs1 p2 rs' op'.
Proof. intros table rs op evs p rs' op' H. destruct H; [left; auto|]. right. repeat eexists; eassumption. Qed.

Lemma loop_tells : forall n env c tick r evs, (length r <= n)%nat -> is_bytes r -> ctx_ok c ->
  ((exists es c', loop_from env c tick r = Ok (es, c') /\ map ev_view es = evs) <->
   exists p q rs op, r = p ++ q /\ tells (env_manufacturers env) (c_running c) (c_casio c) evs p rs op /\ unfinished rs q).
Proof.
  induction n as [n IH] using lt_wf_ind. intros env c tick r evs Hn Hr Hc. rewrite loop_from_eq.
  destruct (parse_cases env c tick r Hr Hc) as [E|[(d & delta & b & x & R1 & R2 & R3 & R4 & E)|(p & rest & delta & k & -> & Hs)]].
  - rewrite E. pose proof (proj1 (parse_unfinished env c tick r Hr Hc) E) as U. split.
    + intros (es & c' & H & V). apply Ok_inj, pair_equal_spec in H as [<- <-]. cbn [map] in V. subst evs.
      exists [], r, (c_running c), (c_casio c). split; [reflexivity|]. split; [constructor|exact U].
    + intros (p & q & rs & op & -> & T & Uq). apply tells_inv in T as [(-> & -> & -> & ->)|(p1 & delta & k & t & evs1 & p2 & -> & -> & Hs & S & T)].
      * exists [], c. split; reflexivity.
      * exfalso. destruct U as [U _]. apply (U p1 delta k (p2 ++ q) Hs). rewrite <- app_assoc. reflexivity.
  - rewrite E. split; [intros (es & c' & H & _); discriminate|].
    intros (p & q & rs & op & Er & T & Uq). exfalso. apply tells_inv in T as [(-> & -> & -> & ->)|(p1 & dl & k & t & evs1 & p2 & -> & -> & Hs & S & T)].
    + cbn [app] in Er. subst q. destruct Uq as [_ Uq]. specialize (Uq R4 d delta b x R1 R2). lia.
    + rewrite <- app_assoc in Er. clear R2. subst r. rewrite (parse_shape env c tick p1 dl k (p2 ++ q) Hs) in E.
      apply is_bytes_app in Hr as [Hp _]. destruct (proj1 (read_says env c tick dl k p1 p1 Hc Hs Hp t) S) as (e1 & c1 & Rd & _).
      rewrite Rd in E. discriminate.
  - rewrite (parse_shape env c tick p delta k rest Hs). apply is_bytes_app in Hr as [Hp Hrest].
    pose proof (shape_not_nil _ _ _ _ Hs) as Hnn. rewrite app_length in Hn. assert (Hlen : (length rest < n)%nat) by (destruct p; [congruence|cbn in Hn; lia]).
    assert (Inv : forall p' q rs op, p ++ rest = p' ++ q -> tells (env_manufacturers env) (c_running c) (c_casio c) evs p' rs op -> unfinished rs q ->
      exists t evs1 p2, evs = (delta, t) :: evs1 /\ rest = p2 ++ q /\ says (env_manufacturers env) (c_casio c) k t /\
        tells (env_manufacturers env) (status_after k) (open_after (c_casio c) k) evs1 p2 rs op).
    { intros p' q rs op Er T U. apply tells_inv in T as [(-> & -> & -> & ->)|(p1 & dl & k1 & t & evs1 & p2 & -> & -> & Hs1 & S & T)].
      - exfalso. cbn [app] in Er. destruct U as [U _]. exact (U p delta k rest Hs (eq_sym Er)).
      - rewrite <- app_assoc in Er. destruct (shape_unique _ _ _ _ _ _ _ _ _ Hs Hs1 Er) as (<- & <- & <- & ->). exists t, evs1, p2. auto. }
    destruct (read_packet env c tick delta k p) as [[e c1]| | | |] eqn:R.
    { cbn [bind]. destruct (post_process env c1 e) as [e' c2] eqn:Epp.
      destruct (read_packet_facts _ _ _ _ _ _ _ _ _ Hc Hs R) as ((S1 & S2 & S3) & Hc1).
      destruct (post_process_view _ _ _ _ _ Epp) as (P0 & _ & _ & _ & _ & _ & P4 & P5).
      assert (Hc2 : ctx_ok c2) by (unfold ctx_ok in *; rewrite P4; exact Hc1).
      destruct (read_state _ _ _ _ _ _ _ _ R (shape_sys _ _ _ _ Hs)) as [Q1 Q2].
      assert (V : ev_view e' = (delta, view (e_body e))) by (rewrite P0; unfold ev_view; rewrite S2; reflexivity).
      pose proof (fun evs => IH (length rest) Hlen env c2 ((tick + e_delta e) mod 4294967296) rest evs (le_n _) Hrest Hc2) as I.
      rewrite P4, P5, Q1, Q2 in I. split.
      - intros (es & c' & L & W). destruct (loop_from env c2 _ rest) as [[es1 c3]| | | |]; try discriminate. cbn [bind] in L.
        apply Ok_inj, pair_equal_spec in L as [<- <-]. cbn [map] in W. subst evs.
        destruct (proj1 (I (map ev_view es1)) ltac:(eauto)) as (p' & q & rs & op & -> & T & U).
        exists (p ++ p'), q, rs, op. split; [rewrite app_assoc; reflexivity|]. split; [|assumption]. rewrite V.
        apply te_cons with (k := k); auto. apply (read_says env c tick delta k p p Hc Hs Hp). eauto.
      - intros (p' & q & rs & op & Er & T & U). destruct (Inv p' q rs op Er T U) as (t & evs1 & p2 & -> & -> & S & T1).
        destruct (proj2 (I evs1) ltac:(eauto 10)) as (es & c' & L & W).
        rewrite L. cbn [bind]. exists (e' :: es), c'. split; [reflexivity|]. cbn [map]. rewrite V, W. f_equal. f_equal.
        destruct (proj1 (read_says env c tick delta k p p Hc Hs Hp _) S) as (e1 & c3 & Rd & Vd).
        rewrite R in Rd. apply Ok_inj, pair_equal_spec in Rd as [<- _]. exact Vd. }
    all: cbn [bind]; split; [intros (es & c' & L & _); try discriminate; exfalso; exact (read_packet_not_eof _ _ _ _ _ _ R)|].
    all: intros (p' & q & rs & op & Er & T & U); exfalso; destruct (Inv p' q rs op Er T U) as (t & evs1 & p2 & -> & -> & S & T1).
    all: destruct (proj1 (read_says env c tick delta k p p Hc Hs Hp _) S) as (e1 & c3 & Rd & Vd); congruence.
Qed.

Theorem track_says : forall env r evs, is_bytes r ->
  ((exists es c', decode_events env new_context r = Ok (es, c') /\ map ev_view es = evs) <-> track_tells (env_manufacturers env) r evs).
Proof.
  intros env r evs Hr. rewrite decode_events_eq. exact (loop_tells (length r) env new_context 0 r evs (le_n _) Hr ltac:(left; reflexivity)).
Qed.

(** ** Files *)

Lemma tracks_say : forall env items ws n ess, wires items ws -> Forall (fun it => is_bytes (snd it)) items ->
  ((exists ts, decode_tracks env n ws = Ok ts /\ map (fun t => map ev_view (t_events t)) ts = ess) <->
   Forall2 (fun it evs => track_tells (env_manufacturers env) (snd it) evs) (filter is_mtrk items) ess).
Proof.
  intros env items ws n ess W B. pose proof (decode_tracks_outcome env items ws n W B) as O.
  assert (B' : Forall (fun it => is_bytes (snd it)) (filter is_mtrk items)).
  { rewrite Forall_forall in *. intros it I. apply filter_In in I as [I _]. auto. }
  destruct O as [(ts & Et & F)|(pre & it & post & E1 & E2 & E3)].
  - rewrite Et. clear - F B'. split.
    + intros (ts' & T & <-). apply Ok_inj in T. subst ts'. induction F as [|it t its ts (c' & D) F IH]; [constructor|].
      inversion B'; subst. cbn [map]. constructor; [|auto]. apply track_says; eauto.
    + intro G. exists ts. split; [reflexivity|]. revert ess G. induction F as [|it t its ts (c' & D) F IH]; intros ess G; inversion G as [|? evs ? ess' T G']; subst; [reflexivity|].
      inversion B'; subst. cbn [map]. f_equal; [|auto]. apply track_says in T as (es & c2 & D2 & V); [|assumption]. rewrite D in D2. apply Ok_inj, pair_equal_spec in D2 as [<- _]. exact V.
  - split.
    + intros (ts & T & _). destruct E3 as [[E3 _]|[E3 _]]; congruence.
    + intro G. exfalso. rewrite E1 in G, B'. apply Forall2_app_inv_l in G as (e1 & e2 & _ & G & _). inversion G as [|? evs ? ess' T G']; subst.
      apply Forall_app in B' as [_ B']. inversion B'; subst. apply track_says in T as (es & c2 & D2 & V); [|assumption].
      destruct E3 as [[_ E3]|[_ E3]]; congruence.
Qed.

Lemma decoded_count : forall env items ws n ts, wires items ws -> decode_tracks env n ws = Ok ts -> Forall (fun it => is_bytes (snd it)) items ->
  zlen ts = zlen (filter is_mtrk items).
Proof.
  intros env items ws n ts W T B. destruct (decode_tracks_outcome env items ws n W B) as [(ts' & Et & F)|(pre & it & post & _ & _ & [[E3 _]|[E3 _]])]; try congruence.
  rewrite T in Et. apply Ok_inj in Et. subst ts'. unfold zlen. f_equal. clear - F. induction F; cbn [length]; congruence.
Qed.

Lemma wires_cons : forall it items ws, wires (it :: items) ws -> exists w ws', ws = w :: ws' /\ chunk_bytes (fst it) (snd it) w /\ wires items ws'.
Proof. intros it items ws W. inversion W; subst. eauto. Qed.

Theorem file_says : forall env r hf ess, is_bytes r ->
  ((exists s h, decode env r = Ok s /\ f_mthd s = Some h /\ fields_of h = hf /\ map (fun t => map ev_view (t_events t)) (f_tracks s) = ess) <->
   file_tells (env_manufacturers env) r hf ess).
Proof.
  intros env r hf ess Hr.
  assert (Bw : forall items ws, readable items r -> wires items ws -> is_bytes (concat ws)).
  { intros items ws (r0 & tail & -> & F & _) W. rewrite <- (wires_concat _ _ _ W F). apply is_bytes_app in Hr. apply Hr. }
  split.
  - intros (s & h & D & Hh & <- & <-). unfold decode in D.
    destruct (chunks_cases (length r) r (le_n _) Hr) as [E|(items & ws & Rd & E & W)]; rewrite E in D; cbn [bind] in D; [discriminate|].
    pose proof (Bw _ _ Rd W) as B. destruct W as [|[tag0 payload0] w0 items ws C0 W]; [discriminate|].
    cbn [concat fst snd] in *. apply is_bytes_app in B as [B0 B]. pose proof (wires_bytes _ _ W B) as BI.
    destruct (header_outcome tag0 payload0 w0 C0 B0) as [[Eh Nh]|(h0 & Eh & Hh0)]; rewrite Eh in D; cbn [bind] in D; [discriminate|].
    destruct (decode_tracks env 0 ws) as [ts| | | |] eqn:Et; try discriminate. cbn [bind] in D.
    destruct (Z.eqb_spec (zlen ts) (h_tracks h0)) as [En|]; [|discriminate]. apply Ok_inj in D. subst s. cbn [f_mthd f_tracks] in *. injection Hh as <-.
    exists tag0, payload0, w0, items. split; [exact Rd|]. split; [exact C0|]. split; [exact Hh0|]. split.
    + rewrite <- (decoded_count _ _ _ _ _ W Et BI), En. reflexivity.
    + apply (tracks_say env items ws 0 _ W BI). eauto.
  - intros (tag0 & payload0 & w0 & items & Rd & C0 & Hh & Ht & F). destruct (readable_chunks _ _ Rd) as (ws & E & W).
    pose proof (Bw _ _ Rd W) as B. apply wires_cons in W as (w & ws1 & -> & C1 & W1). cbn [fst snd] in C1.
    assert (w = w0) by (eapply chunk_bytes_det; eassumption). subst w.
    cbn [concat] in B. apply is_bytes_app in B as [B0 B]. pose proof (wires_bytes _ _ W1 B) as BI.
    pose proof (proj2 (tracks_say env items ws1 0 ess W1 BI) F) as (ts & Et & Hess). subst ess.
    pose proof (chunk_next tag0 payload0 w0 [] C0) as N. rewrite app_nil_r in N.
    destruct (header_exact w0 w0 [] B0 N) as (X & _ & _). apply X in Hh as (h & Eh & <-).
    exists (SMF (Some h) ts), h. split; [|auto]. unfold decode. rewrite E. cbn [bind]. rewrite Eh. cbn [bind]. rewrite Et. cbn [bind].
    rewrite (decoded_count _ _ _ _ _ W1 Et BI). rewrite Ht. change (hf_tracks (fields_of h)) with (h_tracks h). rewrite Z.eqb_refl. reflexivity.
Qed.

Theorem file_tells_once : forall table r hf ess hf' ess', is_bytes r ->
  file_tells table r hf ess -> file_tells table r hf' ess' -> hf' = hf /\ ess' = ess.
Proof.
  intros table r hf ess hf' ess' Hr H H'. apply (file_says (Env false table) r hf ess Hr) in H as (s & h & D & M & <- & <-).
  apply (file_says (Env false table) r hf' ess' Hr) in H' as (s' & h' & D' & M' & <- & <-).
  rewrite D in D'. apply Ok_inj in D'. subst s'. rewrite M in M'. injection M' as <-. auto.
Qed.
