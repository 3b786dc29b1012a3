From Coq Require Import Permutation.
From Verif Require Import Base Strings Tables Vlq SpecVlq VlqProofs Event SpecEvent Marshal Parse Track File
  SpecTrack SpecPacket SpecSurvive ParseProofs EncodeProofs DecodeProofs FileProofs Manufacturer.

Lemma marshal_packet : forall env e c tick rest, legal_event e -> ids_faithful env (view (e_body e)) ->
  expects (c_casio c) (e_body e) ->
  exists w, marshal e = Ok w /\
  exists e' c', parse env c tick (vlq_encode (e_delta e) ++ w ++ rest) = Ok (e', c', rest) /\
    ev_view e' = (e_delta e, forget_end (view (e_body e))) /\ e_tick e' = tick + e_delta e.
Proof.
  intros env e c tick rest He Hid Hexp. destruct (marshal_form e He) as (w & Ew & Hf).
  exists w. split; [exact Ew|]. destruct He as (_ & Hd & Hbody).
  pose proof (delta_reads _ _ (delta_field_encode _ Hd)) as Hr. set (d := vlq_encode (e_delta e)) in *.
  assert (Hbd : is_bytes d) by (apply vlq_encode_is_bytes, Hd).
  destruct Hf as [st data Hc Hbs Hsx|ty l data Hc Hlf Hbs Hsx|m dd single l Hbe Hlf Hbs|dd fin l Hbe Hlf Hbs|dd l Hbe Hlf Hbs].
  - destruct (chan_msg_facts _ _ _ Hc) as (Hst & Hlen & _ & _). cbn [app].
    rewrite (parse_status env c tick d _ st data rest Hr Hst Hlen).
    destruct (unmarshal_chan env (tick + e_delta e) (e_delta e) st data _ (d ++ st :: data) Hc) as (b & -> & Hv).
    cbn [new_event bind]. eexists _, _. split; [reflexivity|]. unfold ev_view. cbn [e_delta e_body e_tick].
    rewrite Hv. split; [|reflexivity]. f_equal. destruct Hc; reflexivity.
  - cbn [app]. rewrite <- app_assoc. rewrite (parse_meta env c tick d _ ty l data rest Hr (length_reads _ _ Hlf)).
    apply is_bytes_inv in Hbs as [_ Hbs]. apply is_bytes_inv in Hbs as [_ Hbs]. apply is_bytes_app in Hbs as [_ Hbs].
    destruct (unmarshal_meta_msg env (tick + e_delta e) (e_delta e) ty data _ (d ++ 255 :: ty :: l ++ data) Hc Hbs Hid) as (b & -> & Hv).
    cbn [new_event bind]. eexists _, _. split; [reflexivity|]. unfold ev_view. cbn [e_delta e_body e_tick].
    rewrite Hv. split; [|reflexivity]. f_equal. destruct Hc; reflexivity.
  - rewrite Hbe in *. cbn [expects view legal_body ids_faithful] in *. destruct Hbody as (B1 & B2 & B3).
    rewrite (app_assoc (m_id m)) in *. set (p := m_id m ++ dd) in *.
    cbn [app]. rewrite <- app_assoc. rewrite (parse_f0 env c tick d _ l _ rest Hr (length_reads _ _ Hlf) Hexp).
    destruct single.
    + destruct (unmarshal_sysex_single env (tick + e_delta e) (e_delta e) p (d ++ 240 :: l ++ p ++ [247]) B3 B1 Hid) as (b & -> & Hv).
      cbn [bind]. eexists _, _. split; [reflexivity|]. unfold ev_view. cbn [e_delta e_body e_tick]. rewrite Hv. split; reflexivity.
    + destruct B3 as [B3 B4]. destruct (snoc_exists p 0) as [q Eq]; [lia|].
      assert (Hq : q <> []) by (intro E; rewrite E in Eq; rewrite Eq in B3; cbn in B3; lia).
      rewrite app_nil_r. rewrite Eq in B1, Hid |- *. apply is_bytes_app in B1 as [B1 _].
      destruct (unmarshal_sysex_first env (tick + e_delta e) (e_delta e) q (last p 0) (d ++ 240 :: l ++ q ++ [last p 0]) Hq B4 B1 Hid) as (b & -> & Hv).
      cbn [bind]. eexists _, _. split; [reflexivity|]. unfold ev_view. cbn [e_delta e_body e_tick]. rewrite Hv. split; reflexivity.
  - rewrite Hbe in *. cbn [expects view legal_body ids_faithful forget_end] in *. destruct Hbody as (B1 & B2 & B3).
    cbn [app]. rewrite <- app_assoc. rewrite (parse_f7 env c tick d _ l _ rest Hr (length_reads _ _ Hlf)), Hexp.
    assert (Hu : forall raw, unmarshal_continuation (tick + e_delta e) (e_delta e) (dd ++ (if fin then [247] else [])) raw
       = Ok (make_continuation (tick + e_delta e) (e_delta e) dd false raw)).
    { intro raw. unfold unmarshal_continuation. destruct fin.
      - destruct (dd ++ [247]) eqn:E; [destruct dd; discriminate|]. rewrite <- E, ends_f7_snoc, removelast_last. reflexivity.
      - rewrite app_nil_r. destruct B3 as [B3|B3]; [discriminate|]. destruct dd; [reflexivity|].
        unfold ends_f7. destruct (Z.eqb_spec (last (z :: dd) 0) 247); [contradiction|reflexivity]. }
    rewrite Hu. cbn [bind]. eexists _, _. split; [reflexivity|]. split; reflexivity.
  - rewrite Hbe in *. cbn [expects view legal_body ids_faithful forget_end] in *.
    cbn [app]. rewrite <- app_assoc. rewrite (parse_f7 env c tick d _ l _ rest Hr (length_reads _ _ Hlf)), Hexp.
    cbn [bind]. eexists _, _. split; [reflexivity|]. split; reflexivity.
Qed.

Lemma legal_survives : forall env e, legal_event e -> ids_faithful env (view (e_body e)) ->
  forget_end (view (e_body e)) = view (e_body e) -> survives env e.
Proof.
  intros env e He Hid Hfe. destruct (marshal_form e He) as (w & Ew & _). exists w. split; [exact Ew|].
  intros c tick rest Hx. destruct (marshal_packet env e c tick rest He Hid Hx) as (w' & Ew' & e' & c' & P & V & T).
  assert (w' = w) by congruence. subst w'. exists e', c'. rewrite Hfe in V. auto.
Qed.

Lemma channel_roundtrip : forall env tick delta ch raw, 0 <= delta <= 268435455 -> 0 <= ch < 16 ->
  (forall n v, 0 <= n_value n < 128 -> 0 <= v < 128 ->
     exists e, make_note_on tick delta ch n v raw = Ok e /\ view (e_body e) = CNoteOn ch (n_value n) v /\ survives env e) /\
  (forall n v, 0 <= n_value n < 128 -> 0 <= v < 128 ->
     exists e, make_note_off tick delta ch n v raw = Ok e /\ view (e_body e) = CNoteOff ch (n_value n) v /\ survives env e) /\
  (forall p, 0 <= p < 128 ->
     exists e, make_polyphonic_pressure tick delta ch p raw = Ok e /\ view (e_body e) = CPoly ch p /\ survives env e) /\
  (forall c v, 0 <= c_id c < 128 -> 0 <= v < 128 ->
     exists e, make_controller tick delta ch c v raw = Ok e /\ view (e_body e) = CControl ch (c_id c) v /\ survives env e) /\
  (forall bank p, 0 <= p < 128 ->
     exists e, make_program_change tick delta ch bank p raw = Ok e /\ view (e_body e) = CProgram ch p /\ survives env e) /\
  (forall p, 0 <= p < 128 ->
     exists e, make_channel_pressure tick delta ch p raw = Ok e /\ view (e_body e) = CChanPressure ch p /\ survives env e).
Proof.
  intros env tick delta ch raw Hd Hch.
  assert (S : forall st b, legal_body b -> ids_faithful env (view b) -> forget_end (view b) = view b ->
     legal_header (Event tick delta raw st 0 b) -> survives env (Event tick delta raw st 0 b)).
  { intros st b Hb Hi Hf Hh. apply legal_survives; cbn [e_body]; auto. repeat split; auto; cbn; unfold vlq_max; lia. }
  unfold make_note_on, make_note_off, make_polyphonic_pressure, make_controller, make_program_change, make_channel_pressure.
  destruct (Z.ltb_spec 15 ch); [lia|].
  repeat split; intros; repeat match goal with |- context[127 <? ?x] => destruct (Z.ltb_spec 127 x); [lia|] end;
    (eexists; split; [reflexivity|]; split; [reflexivity|]; apply S; cbn; auto).
Qed.

(** C09 *)
Definition bend_read (b : Z) : Z := (b / 256) * 128 + b mod 128.

Lemma bend_roundtrip : forall env tick delta ch bend raw c tick' rest,
  0 <= delta <= 268435455 -> 0 <= ch < 16 -> 0 <= bend < 16384 ->
  exists e w e' c', make_pitch_bend tick delta ch bend raw = Ok e /\ marshal e = Ok w /\
    parse env c tick' (vlq_encode delta ++ w ++ rest) = Ok (e', c', rest) /\
    ev_view e' = (delta, CBend ch (bend_read bend)).
Proof.
  intros env tick delta ch bend raw c tick' rest Hd Hch Hb. unfold make_pitch_bend. destruct (Z.ltb_spec 15 ch); [lia|].
  eexists. assert (Hd' : 0 <= delta <= vlq_max) by (unfold vlq_max; lia).
  pose proof (delta_reads _ _ (delta_field_encode _ Hd')) as Hr.
  destruct (land_channel 224 ch ltac:(cbn; auto 10) Hch) as (L1 & L2 & L3).
  assert (Est : Z.lor 224 ch = 224 + ch) by (apply lor_channel; [in_list|lia]).
  set (hi := Z.land (Z.shiftr bend 8) 255). set (lo := Z.land bend 255).
  assert (Hhi : hi = bend / 256) by (unfold hi; rewrite landff, shr8; lia).
  assert (Hlo : lo = bend mod 256) by (unfold lo; rewrite landff; reflexivity).
  eexists. eexists _, _. split; [reflexivity|]. split; [reflexivity|]. rewrite Est. fold hi lo. cbn [app].
  change (224 + ch :: hi :: lo :: rest) with (224 + ch :: [hi; lo] ++ rest).
  rewrite (parse_status env c tick' _ delta (224 + ch) [hi; lo] rest Hr);
    [|lia|unfold data_length; rewrite L2; reflexivity].
  unfold unmarshal_midi. rewrite L1, L2. cbn [Z.eqb Pos.eqb]. unfold make_pitch_bend.
  destruct (Z.ltb_spec 15 ch); [lia|]. cbn [new_event bind].
  split; [reflexivity|]. unfold ev_view. cbn [e_delta e_body view]. f_equal. f_equal.
  replace (Z.land lo 127) with (Z.land (lo mod 128) 127) by (rewrite !land7f; lia).
  rewrite bend_value by lia. unfold bend_read. lia.
Qed.

(** C49 *)
Lemma log2_spec : forall d, 0 <= d < 256 ->
  (d <= 128 -> exists k, log2_loop 9 1 d 0 = Ok k /\ 0 <= k <= 7 /\ d <= 2 ^ k /\ (d <= 1 \/ 2 ^ (k - 1) < d)) /\
  (128 < d -> log2_loop 9 1 d 0 = Loop).
Proof.
  intros d H.
  pose proof (byte_sweep (fun d => match log2_loop 9 1 d 0 with
     | Ok k => (d <=? 128) && (0 <=? k) && (k <=? 7) && (d <=? 2 ^ k) && ((d <=? 1) || (2 ^ (k - 1) <? d))
     | Loop => 128 <? d | _ => false end) ltac:(vm_compute; reflexivity) d H) as E. cbn beta in E.
  destruct (log2_loop 9 1 d 0) as [k| | | |]; try discriminate; split; intro; try lia; auto.
  exists k. split; [reflexivity|]. lia.
Qed.

(** C47 *)
Lemma hex_byte_inj : forall a b, is_byte a -> is_byte b -> hex_byte a = hex_byte b -> a = b.
Proof.
  intros a b Ha Hb H.
  assert (E : forallb (fun a => forallb (fun b => if bytes_eqb (hex_byte a) (hex_byte b) then a =? b else true) all_bytes) all_bytes = true)
    by (vm_compute; reflexivity).
  rewrite forallb_forall in E. specialize (E a (all_bytes_in a Ha)). rewrite forallb_forall in E.
  specialize (E b (all_bytes_in b Hb)). rewrite H, bytes_eqb_refl in E. lia.
Qed.

Lemma hex_byte_length : forall a, length (hex_byte a) = 2%nat.
Proof. reflexivity. Qed.

Lemma id_key_inj : forall id id', wire_id id -> wire_id id' -> id_key id = id_key id' -> id = id'.
Proof.
  intros id id' H H' E. destruct H as [a Ha|b c Hb Hc]; destruct H' as [a' Ha'|b' c' Hb' Hc']; cbn [id_key] in E.
  - f_equal. apply hex_byte_inj; unfold is_byte; auto; lia.
  - apply (f_equal (@length _)) in E. rewrite app_length in E. cbn in E. lia.
  - apply (f_equal (@length _)) in E. rewrite app_length in E. cbn in E. lia.
  - assert (E2 : forall a b c d : bytes, length a = length b -> a ++ c = b ++ d -> a = b /\ c = d).
    { induction a as [|x a IHa]; intros [|y b0] c0 d0 HL HE; try discriminate; [auto|].
      cbn [app] in HE. injection HE as -> HE. injection HL as HL. destruct (IHa _ _ _ HL HE) as [-> ->]. auto. }
    apply E2 in E as [E E']; [|reflexivity].
    apply hex_byte_inj in E; [|unfold is_byte; auto..]. apply hex_byte_inj in E'; [|unfold is_byte; auto..]. congruence.
Qed.

Definition wire_idb (id : bytes) : bool :=
  match id with
  | [a] => (0 <? a) && (a <? 256)
  | [a; b; c] => (a =? 0) && (0 <=? b) && (b <? 256) && (0 <=? c) && (c <? 256)
  | _ => false
  end.
Lemma wire_idb_ok : forall id, wire_idb id = true -> wire_id id.
Proof.
  intros id H. destruct id as [|a [|b [|c [|]]]]; cbn in H; try discriminate.
  - apply wi_one. lia.
  - assert (a = 0) by lia. subst a. apply wi_three; lia.
Qed.

Lemma builtin_faithful : forall c4 id, wire_id id -> id <> [127] -> id_faithful (Env c4 manufacturers) id.
Proof.
  intros c4 id Hw Hne m Hin. cbn [env_manufacturers] in Hin.
  assert (T : forallb (fun km => bytes_eqb (fst km) (str "7F") || (bytes_eqb (fst km) (id_key (m_id (snd km))) && wire_idb (m_id (snd km)))) manufacturers = true)
    by (vm_compute; reflexivity).
  rewrite forallb_forall in T. specialize (T _ Hin). cbn [fst snd] in T. apply orb_prop in T as [T|T].
  - exfalso. apply bytes_eqb_eq in T. change (str "7F") with (id_key [127]) in T.
    apply Hne. apply id_key_inj; [assumption|apply wi_one; lia|assumption].
  - apply andb_prop in T as [T1 T2]. apply bytes_eqb_eq in T1. apply wire_idb_ok in T2.
    apply id_key_inj; congruence.
Qed.

(** Entries read from a user's file keep the table faithful. *)
Lemma make_manufacturer_key : forall id region name k m, is_bytes id -> wire_id id ->
  make_manufacturer id region name = Ok (k, m) -> k = id_key id /\ m_id m = id.
Proof.
  intros id region name k m Hb Hw H. destruct Hw; cbn [make_manufacturer] in H; destruct (trim name); try discriminate;
  apply Ok_inj in H; apply pair_equal_spec in H as [<- <-]; cbn [id_key m_id]; (split; [|reflexivity]).
  - apply hex2_byte. unfold is_byte; lia.
  - rewrite !hex2_byte by (unfold is_byte; lia). reflexivity.
Qed.

Lemma load_faithful : forall conf l, Forall (fun x => wire_id (fst (fst x))) conf ->
  load_manufacturers conf = Ok l -> forall km, In km l -> exists id, wire_id id /\ fst km = id_key id /\ m_id (snd km) = id.
Proof.
  induction conf as [|[[id region] name] conf IH]; intros l Hall H km Hin; cbn [load_manufacturers] in H.
  - injection H as <-. contradiction.
  - inversion Hall as [|? ? Hw Hr]; subst. cbn [fst] in Hw.
    destruct (make_manufacturer id region name) as [[k m]| | | |] eqn:E; try discriminate. cbn [bind] in H.
    destruct (load_manufacturers conf) as [l'| | | |] eqn:E'; try discriminate. cbn [bind] in H.
    apply Ok_inj in H. subst l. apply in_app_or in Hin as [Hin|[<-|[]]]; [eapply IH; eauto|].
    assert (Hb : is_bytes id) by (destruct Hw; repeat constructor; unfold is_byte; lia).
    destruct (make_manufacturer_key id region name k m Hb Hw E) as [-> Em]. exists id. auto.
Qed.

Theorem loaded_faithful : forall c4 conf l id, Forall (fun x => wire_id (fst (fst x))) conf ->
  load_manufacturers conf = Ok l -> wire_id id -> id <> [127] ->
  id_faithful (add_manufacturers (Env c4 manufacturers) l) id.
Proof.
  intros c4 conf l id Hall Hl Hw Hne m Hin. unfold add_manufacturers in Hin. cbn [env_manufacturers] in Hin.
  apply in_app_or in Hin as [Hin|Hin]; [|exact (builtin_faithful c4 id Hw Hne m Hin)].
  destruct (load_faithful conf l Hall Hl _ Hin) as (id' & Hw' & E1 & E2). cbn [fst snd] in *.
  rewrite E2. symmetry. apply id_key_inj; assumption.
Qed.

Theorem lookup_keeps_id : forall c4 conf l, Forall (fun x => wire_id (fst (fst x))) conf ->
  load_manufacturers conf = Ok l ->
  (forall id, wire_id id -> id <> [127] -> m_id (lookup_manufacturer (add_manufacturers (Env c4 manufacturers) l) id) = id) /\
  (forall id, 0 <= id < 256 -> c_id (lookup_controller id) = id).
Proof.
  intros c4 conf l Hall Hl. split; [|apply lookup_controller_id].
  intros id Hw Hne. apply lookup_manufacturer_id; [|eapply loaded_faithful; eauto].
  destruct Hw; repeat constructor; unfold is_byte; lia.
Qed.

(** C48 *)
Lemma find_in : forall table s m, find_manufacturer table s = Ok m -> exists k, In (k, m) table /\ m_name m = s.
Proof.
  induction table as [|[k m0] t IH]; intros s m H; cbn in H; [discriminate|].
  destruct (bytes_eqb s (m_name m0)) eqn:E.
  - injection H as <-. apply bytes_eqb_eq in E. exists k. split; [left; reflexivity|congruence].
  - destruct (IH s m H) as (k' & Hin & Hn). exists k'. split; [right; assumption|assumption].
Qed.

Lemma find_some : forall table k m, In (k, m) table -> exists m', find_manufacturer table (m_name m) = Ok m'.
Proof.
  induction table as [|[k0 m0] t IH]; intros k m Hin; [contradiction|]. cbn.
  destruct (bytes_eqb (m_name m) (m_name m0)) eqn:E; [exists m0; reflexivity|].
  destruct Hin as [Hin|Hin]; [injection Hin as -> ->; rewrite bytes_eqb_refl in E; discriminate|eapply IH, Hin].
Qed.

Theorem find_order_independent : forall table iteration k m, distinct_names table ->
  Permutation table iteration -> In (k, m) table -> find_manufacturer iteration (m_name m) = Ok m.
Proof.
  intros table it k m Hd Hp Hin. pose proof (Permutation_in _ Hp Hin) as Hin'.
  destruct (find_some it k m Hin') as [m' E]. rewrite E. f_equal.
  destruct (find_in it _ _ E) as (k' & Hk & Hn). apply (Permutation_in _ (Permutation_sym Hp)) in Hk.
  eapply Hd; eauto.
Qed.

Lemma builtin_distinct : distinct_names manufacturers.
Proof.
  assert (T : forallb (fun x => forallb (fun y => if bytes_eqb (m_name (snd x)) (m_name (snd y))
      then bytes_eqb (m_id (snd x)) (m_id (snd y)) && bytes_eqb (m_region (snd x)) (m_region (snd y)) else true)
      manufacturers) manufacturers = true) by (vm_compute; reflexivity).
  intros k m k' m' H H' E. rewrite forallb_forall in T. specialize (T _ H). rewrite forallb_forall in T.
  specialize (T _ H'). cbn [snd] in T. rewrite E, bytes_eqb_refl in T. apply andb_prop in T as [T1 T2].
  apply bytes_eqb_eq in T1, T2. destruct m, m'; cbn in *; congruence.
Qed.

Lemma find_absent : forall table iteration s, Permutation table iteration ->
  find_manufacturer table s = Err -> find_manufacturer iteration s = Err.
Proof.
  intros table it s Hp H. destruct (find_manufacturer it s) as [m| | | |] eqn:E; try reflexivity; exfalso.
  - destruct (find_in _ _ _ E) as (k & Hin & Hn). apply (Permutation_in _ (Permutation_sym Hp)) in Hin.
    destruct (find_some table k m Hin) as [m' E']. rewrite Hn in E'. congruence.
  - clear H Hp. induction it as [|[k m] t IH]; cbn in E; [discriminate|destruct (bytes_eqb _ _); [discriminate|auto]].
  - clear H Hp. induction it as [|[k m] t IH]; cbn in E; [discriminate|destruct (bytes_eqb _ _); [discriminate|auto]].
  - clear H Hp. induction it as [|[k m] t IH]; cbn in E; [discriminate|destruct (bytes_eqb _ _); [discriminate|auto]].
Qed.

(** The manufacturer table: the built-in entries plus any user supplied ones with proper IDs. *)
Lemma table_faithful : forall c4 conf l, Forall (fun x => wire_id (fst (fst x))) conf ->
  load_manufacturers conf = Ok l ->
  (forall a, 0 <= a < 256 -> a <> 127 -> id_faithful (add_manufacturers (Env c4 manufacturers) l) [a]) /\
  (forall id, wire_id id -> id <> [127] -> id_faithful (add_manufacturers (Env c4 manufacturers) l) id).
Proof.
  intros c4 conf l Hall Hl. split; [|intros id Hw Hn; eapply loaded_faithful; eauto].
  intros a Ha Hn. destruct (Z.eq_dec a 0) as [->|Hz].
  - assert (N : forall km, In km (l ++ manufacturers) -> fst km <> id_key [0]).
    { intros km Hin E. apply in_app_or in Hin as [Hin|Hin].
      - destruct (load_faithful conf l Hall Hl _ Hin) as (id' & Hw' & E1 & E2). rewrite E in E1.
        destruct Hw'; cbn [id_key] in E1.
        + apply hex_byte_inj in E1; unfold is_byte; lia.
        + apply (f_equal (@length _)) in E1. rewrite app_length in E1. cbn in E1. lia.
      - assert (T : forallb (fun km => negb (bytes_eqb (fst km) (id_key [0]))) manufacturers = true) by (vm_compute; reflexivity).
        rewrite forallb_forall in T. specialize (T _ Hin). rewrite E, bytes_eqb_refl in T. discriminate. }
    intros m Hin. exfalso. exact (N _ Hin eq_refl).
  - eapply loaded_faithful; eauto; [apply wi_one; lia|]. intro E. injection E as E. lia.
Qed.

Lemma text_roundtrip : forall env tick delta k s raw, 0 <= delta <= 268435455 -> is_bytes s ->
  zlen s < 128 \/ (k = KTrackName /\ zlen s < 268435456) ->
  view (e_body (make_text k tick delta s raw)) = CText k s /\ survives env (make_text k tick delta s raw).
Proof.
  intros env tick delta k s raw Hd Hs Hl. split; [reflexivity|]. unfold make_text.
  apply legal_survives; cbn [e_body view ids_faithful forget_end]; auto.
  repeat split; cbn [e_status e_type e_body e_delta legal_header]; auto; try (rewrite smf_text_type_eq; reflexivity); unfold vlq_max; try lia.
  destruct k; cbn [legal_body]; (split; [assumption|]); unfold vlq_max; destruct Hl as [Hl|[Hk Hl]]; try discriminate; lia.
Qed.

Lemma one_length_byte : forall env c tick d delta ty x s e c', reads d delta -> is_bytes (x :: s) ->
  parse env c tick (d ++ 255 :: ty :: x :: s) = Ok (e, c', []) ->
  exists l data, x :: s = l ++ data /\ reads_len l data /\
    unmarshal_meta env (tick + delta) delta (Z.land ty 127) data (d ++ 255 :: ty :: x :: s) = Ok e.
Proof.
  intros env c tick d delta ty x s e c' Hd Hb H. destruct (vlf_split (x :: s) Hb) as [E|(l & data & y & E & Hl)].
  - unfold parse in H. rewrite (delta_stream d delta) in H by assumption. cbn [bind] in H.
    change (255 <? 128) with false in H. change (255 =? 255) with true in H. cbn [andb] in H. cbn iota in H.
    rewrite E in H. cbn [bind] in H. discriminate.
  - rewrite E in H. rewrite (parse_meta env c tick d delta ty l data y Hd Hl) in H.
    destruct (unmarshal_meta env (tick + delta) delta (Z.land ty 127) data (d ++ 255 :: ty :: l ++ data)) as [e0| | | |] eqn:U; try discriminate.
    cbn [new_event bind] in H. apply Ok_inj in H. apply pair_equal_spec in H as [H ->]. apply pair_equal_spec in H as [-> _].
    rewrite app_nil_r in E. exists l, data. rewrite E. auto.
Qed.

Lemma len_byte_small : forall l s, reads_len l s -> (zlen s mod 256) :: s = l ++ s -> zlen s < 128.
Proof.
  intros l s [Hv Hd] E. assert (L : length l = 1%nat) by (apply (f_equal (@length _)) in E; rewrite app_length in E; cbn in E; lia).
  destruct l as [|x [|]]; try discriminate L. injection E as E. subst x.
  inversion Hv; subst; [|match goal with H : vlq_string [] |- _ => inversion H end].
  unfold vlq_denotes in Hd. cbn in Hd. lia.
Qed.

Lemma long_text_lost : forall env tick delta k s raw, 0 <= delta <= 268435455 -> is_bytes s ->
  k <> KTrackName -> 128 <= zlen s -> ~ survives env (make_text k tick delta s raw).
Proof.
  intros env tick delta k s raw Hd Hs Hk Hl (w & Ew & H).
  assert (Hd' : 0 <= delta <= vlq_max) by (unfold vlq_max; lia).
  pose proof (delta_reads _ _ (delta_field_encode _ Hd')) as Hr.
  assert (W : w = 255 :: text_type k :: (zlen s mod 256) :: s).
  { unfold make_text, marshal in Ew. cbn [e_body e_status e_type] in Ew. destruct k; try congruence; symmetry; apply Ok_inj in Ew; exact Ew. }
  destruct (H new_context 0 [] I) as (e' & c' & P & V & _). rewrite app_nil_r, W in P. cbn [make_text e_delta] in P.
  apply one_length_byte with (delta := delta) in P as (l & data & E & Hlen & U); [|assumption|constructor; [unfold is_byte; lia|assumption]].
  rewrite <- smf_text_type_eq in U. unfold unmarshal_meta in U. rewrite smf_text_type_kind in U. apply Ok_inj in U. subst e'.
  unfold ev_view in V. cbn [make_text e_delta e_body view] in V. injection V as V. subst data.
  apply len_byte_small in E; [lia|assumption].
Qed.

Lemma numeric_roundtrip : forall env tick delta raw, 0 <= delta <= 268435455 ->
  (forall n, 0 <= n < 65536 -> view (e_body (make_sequence_number tick delta n raw)) = CSeqNo n
      /\ survives env (make_sequence_number tick delta n raw)) /\
  (forall ch, 0 <= ch < 16 -> exists e, make_channel_prefix tick delta ch raw = Ok e /\ view (e_body e) = CChannelPrefix ch /\ survives env e) /\
  (forall p, 0 <= p < 128 -> exists e, make_port tick delta p raw = Ok e /\ view (e_body e) = CPort p /\ survives env e) /\
  (view (e_body (make_end_of_track tick delta raw)) = CEndOfTrack /\ survives env (make_end_of_track tick delta raw)) /\
  (forall t, 0 <= t < 16777216 -> view (e_body (make_tempo tick delta t raw)) = CTempo t
      /\ survives env (make_tempo tick delta t raw)) /\
  (forall h m s rate f ff, In rate [24; 25; 29; 30] -> 0 <= h <= 24 -> 0 <= m < 60 -> 0 <= s < 60 -> 0 <= f < rate -> 0 <= ff <= 100 ->
      exists e, make_smpte_offset tick delta h m s rate f ff raw = Ok e /\ view (e_body e) = CSMPTE h m s rate f ff /\ survives env e) /\
  (forall n d t q, 0 <= n < 256 -> In d [1; 2; 4; 8; 16; 32; 64; 128] -> 0 <= t < 256 -> 0 <= q < 256 ->
      exists e, make_time_signature tick delta n d t q raw = Ok e /\ view (e_body e) = CTimeSig n d t q /\ survives env e) /\
  (forall acc kt, -7 <= acc <= 7 -> kt = 0 \/ kt = 1 ->
      exists e, make_key_signature tick delta acc kt raw = Ok e /\ view (e_body e) = CKeySig acc kt /\ survives env e).
Proof.
  intros env tick delta raw Hd.
  assert (S : forall ty b, legal_body b -> ids_faithful env (view b) -> forget_end (view b) = view b ->
     legal_header (Event tick delta raw 255 ty b) -> survives env (Event tick delta raw 255 ty b)).
  { intros ty b Hb Hi Hf Hh. apply legal_survives; cbn [e_body]; auto. repeat split; auto; cbn; unfold vlq_max; lia. }
  repeat match goal with |- _ /\ _ => split end; intros.
  - split; [reflexivity|apply S; cbn; auto].
  - unfold make_channel_prefix. destruct (Z.ltb_spec 15 ch); [lia|]. eexists. split; [reflexivity|]. split; [reflexivity|apply S; cbn; auto].
  - unfold make_port. destruct (Z.ltb_spec 127 p); [lia|]. eexists. split; [reflexivity|]. split; [reflexivity|apply S; cbn; auto].
  - reflexivity.
  - apply S; cbn; auto.
  - split; [reflexivity|apply S; cbn; auto].
  - unfold make_smpte_offset.
    repeat match goal with |- context[?a <? ?b] => destruct (Z.ltb_spec a b); [lia|] end.
    destruct (Z.leb_spec rate f); [lia|].
    replace (negb _) with false by (cbn [In] in *; lia).
    eexists. split; [reflexivity|]. split; [reflexivity|]. apply S; cbn; auto. repeat split; try lia.
    cbn [In] in *. destruct H as [<-|[<-|[<-|[<-|[]]]]]; eexists; constructor.
  - unfold make_time_signature.
    assert (exists k, 0 <= k < 8 /\ d = 2 ^ k) as (k & Hk & ->).
    { cbn [In] in *. destruct H0 as [<-|[<-|[<-|[<-|[<-|[<-|[<-|[<-|[]]]]]]]]];
      [exists 0|exists 1|exists 2|exists 3|exists 4|exists 5|exists 6|exists 7]; split; try lia; reflexivity. }
    rewrite log2_loop_pow by lia. cbn [bind]. eexists. split; [reflexivity|]. split; [reflexivity|]. apply S; cbn [legal_body view]; auto; try exact I.
    + repeat split; unfold is_byte; auto; try lia. exists k. auto.
    + cbn. auto.
  - destruct (scale_exists acc H) as [[s1 E1] [s2 E2]]. unfold make_key_signature.
    destruct H0 as [-> | ->]; cbn [Z.eqb]; rewrite ?E1, ?E2; (eexists; split; [reflexivity|]; split; [reflexivity|]; apply S; cbn; auto).
Qed.

Lemma sysex_roundtrip : forall c4 conf l tick delta p raw m d, Forall (fun x => wire_id (fst (fst x))) conf ->
  load_manufacturers conf = Ok l -> 0 <= delta <= 268435455 -> is_bytes p -> zlen p < 268435455 ->
  p = m_id m ++ d -> hd 0 p <> 127 ->
  (p <> [] -> survives (add_manufacturers (Env c4 manufacturers) l) (make_sysex tick delta m d true raw)) /\
  (2 <= zlen p -> last p 0 <> 247 ->
    survives (add_manufacturers (Env c4 manufacturers) l) (make_sysex tick delta m d false raw)).
Proof.
  intros c4 conf l tick delta p raw m d Hc Hl Hd Hp Hlen E Hne.
  destruct (table_faithful c4 conf l Hc Hl) as [F _].
  assert (G : p <> [] -> id_faithful (add_manufacturers (Env c4 manufacturers) l) (payload_id p)).
  { intro Hn. destruct p as [|a p']; [congruence|]. cbn [payload_id firstn hd] in *. apply is_bytes_inv in Hp as [Ha _]. apply F; auto. }
  assert (V : zlen p < vlq_max) by (unfold vlq_max; lia).
  assert (Hd' : 0 <= delta <= vlq_max) by (unfold vlq_max; lia).
  split; intros; (apply legal_survives; cbn [make_sysex e_body view ids_faithful forget_end legal_event legal_header];
    rewrite <- ?E; [|apply G|reflexivity]).
  - split; [reflexivity|]. split; [assumption|]. cbn [legal_body make_sysex e_body]. rewrite <- E. auto.
  - assumption.
  - split; [reflexivity|]. split; [assumption|]. cbn [legal_body make_sysex e_body]. rewrite <- E. auto.
  - intro Ep. rewrite Ep in *. cbn in *. lia.
Qed.

Lemma packet_roundtrip : forall env tick delta d raw, 0 <= delta <= 268435455 -> is_bytes d -> zlen d < 268435455 ->
  (last d 0 <> 247 -> survives env (make_continuation tick delta d false raw)) /\
  survives env (make_escape tick delta d raw).
Proof.
  intros env tick delta d raw Hd Hb Hl. split; intros;
  (apply legal_survives; [split; [reflexivity|split; [unfold vlq_max; cbn; lia|]]|exact I|reflexivity]);
  cbn [make_continuation make_escape e_body legal_body]; repeat split; auto; unfold vlq_max; lia.
Qed.

Lemma seqspec_roundtrip : forall c4 conf l tick delta m d raw, Forall (fun x => wire_id (fst (fst x))) conf ->
  load_manufacturers conf = Ok l -> 0 <= delta <= 268435455 -> wire_id (m_id m) -> m_id m <> [127] ->
  is_bytes d -> zlen (m_id m ++ d) < 128 ->
  survives (add_manufacturers (Env c4 manufacturers) l) (make_sequencer_specific tick delta m d raw).
Proof.
  intros c4 conf l tick delta m d raw Hc Hl Hd Hw Hn Hb Hlen. destruct (table_faithful c4 conf l Hc Hl) as [_ F].
  assert (B : is_bytes (m_id m ++ d)).
  { apply Forall_app. split; [destruct Hw; repeat constructor; unfold is_byte; lia|assumption]. }
  apply legal_survives; cbn [make_sequencer_specific e_body view ids_faithful forget_end]; auto.
  - split; [split; reflexivity|]. split; [unfold vlq_max; cbn; lia|]. cbn [legal_body make_sequencer_specific e_body].
    repeat split; auto. exists (m_id m), d. auto.
  - replace (seqspec_id (m_id m ++ d)) with (m_id m); [apply F; assumption|].
    destruct Hw; cbn [app seqspec_id]; [|reflexivity]. destruct a; try lia; reflexivity.
Qed.

(** Long sequencer specific events never come back, whatever the manufacturer. *)
Lemma long_seqspec_lost : forall c4 tick delta m d raw, 0 <= delta <= 268435455 -> is_bytes (m_id m ++ d) ->
  128 <= zlen (m_id m ++ d) ->
  ~ survives (Env c4 manufacturers) (make_sequencer_specific tick delta m d raw).
Proof.
  intros c4 tick delta m d raw Hd Hs Hl (w & Ew & H).
  assert (Hd' : 0 <= delta <= vlq_max) by (unfold vlq_max; lia).
  pose proof (delta_reads _ _ (delta_field_encode _ Hd')) as Hr. set (s := m_id m ++ d) in *.
  assert (W : w = 255 :: 127 :: (zlen s mod 256) :: s).
  { unfold make_sequencer_specific, marshal in Ew. cbn [e_body e_status e_type] in Ew. symmetry. apply Ok_inj in Ew.
    rewrite <- zlen_app in Ew. exact Ew. }
  destruct (H new_context 0 [] I) as (e' & c' & P & V & _). rewrite app_nil_r, W in P. cbn [make_sequencer_specific e_delta] in P.
  apply one_length_byte with (delta := delta) in P as (l & data & E & Hlen & U); [|assumption|constructor; [unfold is_byte; lia|assumption]].
  assert (D : zlen data = zlen s).
  { unfold ev_view in V. cbn [make_sequencer_specific e_delta e_body view] in V. apply pair_equal_spec in V as [_ V]. fold s in V.
    change (Z.land 127 127) with 127 in U. unfold unmarshal_meta in U. cbn [text_kind Z.eqb Pos.eqb] in U.
    assert (M : forall id, length (m_id (lookup_manufacturer (Env c4 manufacturers) id)) = length id).
    { intro id. unfold lookup_manufacturer. cbn [env_manufacturers].
      assert (T1 : forallb (fun km => (length (fst km) =? 2)%nat && (length (m_id (snd km)) =? 1)%nat || (length (fst km) =? 4)%nat && (length (m_id (snd km)) =? 3)%nat) manufacturers = true) by (vm_compute; reflexivity).
      rewrite forallb_forall in T1.
      destruct id as [|a [|b [|c [|]]]]; try reflexivity.
      - destruct (assocb (hex2 a) manufacturers) as [m0|] eqn:A; [|reflexivity]. apply assocb_in in A. apply T1 in A. cbn in A. cbn. lia.
      - destruct (assocb (hex2 b ++ hex2 c) manufacturers) as [m0|] eqn:A; [|reflexivity]. apply assocb_in in A. apply T1 in A. cbn in A. cbn. lia. }
    unfold unmarshal_seqspec in U. destruct data as [|a d0]; [discriminate|].
    destruct (a =? 0).
    - destruct d0 as [|b [|c d1]]; try discriminate. apply Ok_inj in U. subst e'. cbn [make_sequencer_specific e_body view] in V.
      apply (f_equal (fun x => match x with CSeqSpec p => zlen p | _ => 0 end)) in V. rewrite zlen_app in V.
      unfold zlen in *. rewrite M in V. cbn [length] in *. lia.
    - apply Ok_inj in U. subst e'. cbn [make_sequencer_specific e_body view] in V.
      apply (f_equal (fun x => match x with CSeqSpec p => zlen p | _ => 0 end)) in V. rewrite zlen_app in V.
      unfold zlen in *. rewrite M in V. cbn [length] in *. lia. }
  assert (L : length l = 1%nat) by (apply (f_equal (@length _)) in E; unfold zlen in D; rewrite app_length in E; cbn in E; lia).
  destruct l as [|x [|]]; try discriminate L. injection E as E1 E2. subst x data.
  apply (len_byte_small [zlen s mod 256] s) in Hlen; [lia|reflexivity].
Qed.

(** The lookup by name is independent of the iteration order exactly for distinct names. *)
Lemma find_order_iff : forall table,
  (forall k m it, In (k, m) table -> Permutation table it -> find_manufacturer it (m_name m) = Ok m)
  <-> distinct_names table.
Proof.
  intro table. split; [|intros Hd k m it Hin Hp; eapply find_order_independent; eauto].
  intros H k m k' m' H1 H2 E.
  pose proof (H k m table H1 (Permutation_refl _)) as A.
  pose proof (H k' m' table H2 (Permutation_refl _)) as B. rewrite E in A. congruence.
Qed.

Lemma bend_survives_iff : forall env tick delta ch bend raw, 0 <= delta <= 268435455 -> 0 <= ch < 16 -> 0 <= bend < 16384 ->
  exists e, make_pitch_bend tick delta ch bend raw = Ok e /\ view (e_body e) = CBend ch bend /\
    (survives env e <-> bend < 128).
Proof.
  intros env tick delta ch bend raw Hd Hch Hb.
  assert (E : make_pitch_bend tick delta ch bend raw = Ok (Event tick delta raw (Z.lor 224 ch) 0 (PitchBend ch bend))).
  { unfold make_pitch_bend. destruct (Z.ltb_spec 15 ch); [lia|reflexivity]. }
  eexists. split; [exact E|]. split; [reflexivity|].
  assert (D : delta = e_delta (Event tick delta raw (Z.lor 224 ch) 0 (PitchBend ch bend))) by reflexivity.
  split.
  - intros (w & Ew & H). destruct (H new_context 0 [] I) as (e' & c' & P & V & _).
    destruct (bend_roundtrip env tick delta ch bend raw new_context 0 [] Hd Hch Hb) as (e1 & w1 & e2 & c2 & A1 & A2 & A3 & A4).
    rewrite E in A1. apply Ok_inj in A1. subst e1. rewrite Ew in A2. apply Ok_inj in A2. subst w1.
    rewrite <- D in P. rewrite A3 in P. apply Ok_inj in P. apply pair_equal_spec in P as [P _]. apply pair_equal_spec in P as [-> _].
    rewrite A4 in V. unfold ev_view in V. cbn [e_delta e_body view] in V. injection V as V. unfold bend_read in V. lia.
  - intro Hs. exists [Z.lor 224 ch; Z.land (Z.shiftr bend 8) 255; Z.land bend 255]. split; [reflexivity|].
    intros c tick' rest _. rewrite <- D.
    assert (L : legal_event (Event tick delta raw (Z.lor 224 ch) 0 (PitchBend ch bend))).
    { split; [exact I|]. split; [unfold vlq_max; cbn; lia|]. cbn. lia. }
    destruct (marshal_packet env _ c tick' rest L I I) as (w & Ew & X).
    unfold marshal in Ew. cbn [e_body] in Ew. apply Ok_inj in Ew. subst w. exact X.
Qed.

Lemma log2_never : forall fuel dd d k, 128 < d < 256 -> In dd [0; 1; 2; 4; 8; 16; 32; 64; 128] ->
  log2_loop fuel dd d k = Loop.
Proof.
  induction fuel as [|f IH]; intros dd d k Hd Hin; cbn [log2_loop];
  (destruct (Z.ltb_spec dd d); [|cbn [In] in Hin; lia]); [reflexivity|].
  apply IH; [assumption|]. cbn [In] in *. lia.
Qed.

Lemma time_signature_written : forall tick delta n d t q raw, 0 <= d < 256 ->
  (d <= 128 -> exists e k, make_time_signature tick delta n d t q raw = Ok e /\
     view (e_body e) = CTimeSig n d t q /\ marshal e = Ok [255; 88; 4; n; k; t; q] /\
     0 <= k <= 7 /\ d <= 2 ^ k /\ (d <= 1 \/ 2 ^ (k - 1) < d)) /\
  (128 < d -> forall fuel, log2_loop fuel 1 d 0 = Loop).
Proof.
  intros tick delta n d t q raw Hd. destruct (log2_spec d Hd) as [L _]. split.
  - intro H. destruct (L H) as (k & E & K). exists (Event tick delta raw 255 88 (TimeSignature n d t q)), k.
    unfold make_time_signature, marshal, marshal_time_signature. cbn [e_body e_status e_type]. rewrite E. cbn [bind]. rewrite (Z.mod_small k 256) by lia.
    repeat split; try tauto; reflexivity.
  - intros H fuel. apply log2_never; [lia|cbn; auto].
Qed.
