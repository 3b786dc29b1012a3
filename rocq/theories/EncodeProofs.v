From Verif Require Import Base Strings Tables Vlq SpecVlq VlqProofs Event SpecEvent Marshal Parse Track File
  SpecTrack ParseProofs.

Lemma delta_field_encode : forall v, 0 <= v <= vlq_max -> delta_field (vlq_encode v) v.
Proof.
  intros v H. rewrite vlq_encode_closed by assumption. unfold delta_field. split; [|split].
  - apply vlq_closed_string, H.
  - apply vlq_closed_denotes, H.
  - unfold vlq_max in H. lia.
Qed.

Lemma length_field_encode : forall data, zlen data <= vlq_max ->
  exists l, vlf_encode data = l ++ data /\ length_field l data /\ is_bytes l.
Proof.
  intros data H. pose proof (zlen_nonneg _ data). unfold vlf_encode.
  unfold vlq_max in H. rewrite Z.mod_small by lia.
  exists (vlq_encode (zlen data)). split; [reflexivity|].
  destruct (delta_field_encode (zlen data)) as (A & B & C); [unfold vlq_max; lia|].
  split; [repeat split; auto|]. apply vlq_encode_is_bytes. unfold vlq_max; lia.
Qed.

Lemma length_field_byte : forall data, zlen data < 128 -> length_field [zlen data mod 256] data.
Proof.
  intros data H. pose proof (zlen_nonneg _ data). rewrite Z.mod_small by lia.
  split; [apply vs_last; lia|]. cbn [vlq_denotes length]. change (128 ^ Z.of_nat 0) with 1. lia.
Qed.

Lemma is_byte_cons : forall x l, is_byte x -> is_bytes l -> is_bytes (x :: l).
Proof. intros. constructor; assumption. Qed.

Lemma is_bytes_nil : is_bytes [].
Proof. constructor. Qed.

Ltac bytes_tac :=
  repeat first [ apply is_bytes_nil
               | apply is_byte_cons; [unfold is_byte; lia|]
               | apply is_bytes_app; split
               | assumption ].

(** The ways an encoded event can look. *)
Inductive event_form (e : event) : bytes -> Prop :=
| ef_chan : forall st data, chan_msg st data (view (e_body e)) -> is_bytes (st :: data) ->
    (forall op r, sysex_sequence op (e_body e :: r) = sysex_sequence op r) ->
    event_form e (st :: data)
| ef_meta : forall ty l data, meta_msg ty data (view (e_body e)) -> length_field l data ->
    is_bytes (255 :: ty :: l ++ data) ->
    (forall op r, sysex_sequence op (e_body e :: r) = sysex_sequence op r) ->
    event_form e (255 :: ty :: l ++ data)
| ef_sysex : forall m d single l, e_body e = SysExMessage m d single ->
    length_field l (m_id m ++ d ++ (if single then [247] else [])) ->
    is_bytes (240 :: l ++ m_id m ++ d ++ (if single then [247] else [])) ->
    event_form e (240 :: l ++ m_id m ++ d ++ (if single then [247] else []))
| ef_cont : forall d fin l, e_body e = SysExContinuation d fin ->
    length_field l (d ++ (if fin then [247] else [])) ->
    is_bytes (247 :: l ++ d ++ (if fin then [247] else [])) ->
    event_form e (247 :: l ++ d ++ (if fin then [247] else []))
| ef_escape : forall d l, e_body e = SysExEscape d -> length_field l d ->
    is_bytes (247 :: l ++ d) -> event_form e (247 :: l ++ d).

Lemma land_ff_byte : forall x, is_byte (Z.land x 255).
Proof. intro x. rewrite landff. unfold is_byte. lia. Qed.

Lemma tempo_bytes : forall t, 0 <= t < 16777216 ->
  Z.land (Z.shiftr t 16) 255 * 65536 + Z.land (Z.shiftr t 8) 255 * 256 + Z.land t 255 = t.
Proof.
  intros t H. rewrite !landff, !Z.shiftr_div_pow2 by lia.
  change (2 ^ 16) with 65536. change (2 ^ 8) with 256. lia.
Qed.

Lemma smpte_byte : forall rr rate h, smpte_code rr rate -> 0 <= h <= 24 ->
  Z.lor (smpte_rate_bits rate) (Z.land h 31) = rr * 32 + h.
Proof.
  intros rr rate h H Hh. change 31 with (Z.ones 5). rewrite Z.land_ones by lia.
  rewrite Z.mod_small by (change (2 ^ 5) with 32; lia).
  assert (E : forallb (fun p => forallb (fun h => Z.lor (smpte_rate_bits (snd p)) h =? fst p * 32 + h)
     (map Z.of_nat (seq 0 25))) [(0, 24); (1, 25); (2, 29); (3, 30)] = true) by (vm_compute; reflexivity).
  rewrite forallb_forall in E. specialize (E (rr, rate)).
  assert (Hin : In (rr, rate) [(0, 24); (1, 25); (2, 29); (3, 30)]) by (destruct H; cbn; auto).
  specialize (E Hin). rewrite forallb_forall in E.
  cbn [fst snd] in E. apply Z.eqb_eq. apply E. apply in_map_iff. exists (Z.to_nat h).
  split; [lia|apply in_seq; lia].
Qed.

Lemma marshal_form : forall e, legal_event e -> exists b, marshal e = Ok b /\ event_form e b.
Proof.
  intros e (Hh & _ & Hb). destruct e as [tick delta raw st ty b].
  unfold legal_header in Hh. cbn [e_body e_status e_type] in *. unfold marshal. cbn [e_body e_status e_type].
  destruct b; cbn [legal_body] in Hb.
  - destruct Hb as (H1 & H2 & H3). rewrite lor_channel by (try in_list; lia).
    eexists. split; [reflexivity|]. apply ef_chan; cbn [e_body view]; [apply cm_off; lia|bytes_tac|reflexivity].
  - destruct Hb as (H1 & H2 & H3). rewrite lor_channel by (try in_list; lia).
    eexists. split; [reflexivity|]. apply ef_chan; cbn [e_body view]; [apply cm_on; lia|bytes_tac|reflexivity].
  - destruct Hb as (H1 & H2). rewrite lor_channel by (try in_list; lia).
    eexists. split; [reflexivity|]. apply ef_chan; cbn [e_body view]; [apply cm_poly; lia|bytes_tac|reflexivity].
  - destruct Hb as (H1 & H2 & H3). rewrite lor_channel by (try in_list; lia).
    eexists. split; [reflexivity|]. apply ef_chan; cbn [e_body view]; [apply cm_control; lia|bytes_tac|reflexivity].
  - destruct Hb as (H1 & H2). rewrite lor_channel by (try in_list; lia).
    eexists. split; [reflexivity|]. apply ef_chan; cbn [e_body view]; [apply cm_program; lia|bytes_tac|reflexivity].
  - destruct Hb as (H1 & H2). rewrite lor_channel by (try in_list; lia).
    eexists. split; [reflexivity|]. apply ef_chan; cbn [e_body view]; [apply cm_pressure; lia|bytes_tac|reflexivity].
  - destruct Hb as (H1 & H2). rewrite lor_channel by (try in_list; lia).
    rewrite !landff, shr8. replace (bend / 256) with 0 by lia. rewrite !Z.mod_small by lia.
    eexists. split; [reflexivity|]. apply ef_chan; cbn [e_body view]; [|bytes_tac|reflexivity].
    replace (CBend ch bend) with (CBend ch (0 * 128 + bend)) by (f_equal; lia). apply cm_bend; lia.
  - destruct Hh as [-> ->]. unfold be16. eexists. split; [reflexivity|].
    apply (ef_meta _ 0 [2] [(n / 256) mod 256; n mod 256]); cbn [e_body view].
    + replace (CSeqNo n) with (CSeqNo ((n / 256) mod 256 * 256 + n mod 256)) by (f_equal; lia).
      apply mm_seqno; lia.
    + apply (length_field_byte [(n / 256) mod 256; n mod 256]). reflexivity.
    + cbn [app]. bytes_tac.
    + reflexivity.
  - destruct Hh as [-> ->].
    assert (Short : is_bytes s -> zlen s < 128 ->
       event_form (Event tick delta raw 255 (smf_text_type k) (TextEvent k s))
         ([255; smf_text_type k; zlen s mod 256] ++ s)).
    { intros Hs Hl. apply (ef_meta _ (smf_text_type k) [zlen s mod 256] s); cbn [e_body view].
      - apply mm_text.
      - apply length_field_byte, Hl.
      - pose proof (zlen_nonneg _ s).
        assert (0 <= smf_text_type k < 128) by (destruct k; cbn; lia). bytes_tac.
      - reflexivity. }
    destruct k; try (destruct Hb as [Hs Hl]; eexists; split; [reflexivity|]; apply Short; assumption).
    destruct Hb as [Hs Hl]. destruct (length_field_encode s Hl) as (l & E & Hf & Hlb). rewrite E.
    eexists. split; [reflexivity|]. apply (ef_meta _ 3 l s); cbn [e_body view smf_text_type].
    + apply (mm_text KTrackName).
    + exact Hf.
    + bytes_tac.
    + reflexivity.
  - destruct Hh as [-> ->]. eexists. split; [reflexivity|].
    apply (ef_meta _ 32 [1] [ch]); cbn [e_body view]; [apply mm_prefix; lia|apply (length_field_byte [ch]); reflexivity|cbn [app]; bytes_tac|reflexivity].
  - destruct Hh as [-> ->]. eexists. split; [reflexivity|].
    apply (ef_meta _ 33 [1] [port]); cbn [e_body view]; [apply mm_port; lia|apply (length_field_byte [port]); reflexivity|cbn [app]; bytes_tac|reflexivity].
  - destruct Hh as [-> ->]. eexists. split; [reflexivity|].
    apply (ef_meta _ 47 [0] []); cbn [e_body view]; [apply mm_eot|apply (length_field_byte []); reflexivity|cbn [app]; bytes_tac|reflexivity].
  - destruct Hh as [-> ->]. eexists. split; [reflexivity|].
    pose proof (land_ff_byte (Z.shiftr tempo 16)) as B1. pose proof (land_ff_byte (Z.shiftr tempo 8)) as B2.
    pose proof (land_ff_byte tempo) as B3. pose proof (tempo_bytes tempo Hb) as E.
    set (a := Z.land (Z.shiftr tempo 16) 255) in *. set (b := Z.land (Z.shiftr tempo 8) 255) in *.
    set (c := Z.land tempo 255) in *. unfold is_byte in B1, B2, B3.
    apply (ef_meta _ 81 [3] [a; b; c]); cbn [e_body view]; [|apply (length_field_byte [a; b; c]); reflexivity|cbn [app]; bytes_tac|reflexivity].
    rewrite <- E. apply mm_tempo; assumption.
  - destruct Hh as [-> ->]. destruct Hb as ([rr Hc] & H1 & H2 & H3 & H4 & H5).
    rewrite (smpte_byte rr rate hour Hc H1).
    assert (0 <= rr < 4) by (destruct Hc; lia).
    assert (rate < 128) by (destruct Hc; lia).
    eexists. split; [reflexivity|].
    apply (ef_meta _ 84 [5] [rr * 32 + hour; minute; second; frames; fractions]); cbn [e_body view];
      [|apply (length_field_byte [rr * 32 + hour; minute; second; frames; fractions]); reflexivity|cbn [app]; bytes_tac|reflexivity].
    apply mm_smpte; assumption.
  - destruct Hh as [-> ->]. destruct Hb as (H1 & (k & Hk & ->) & H3 & H4).
    unfold marshal_time_signature. rewrite log2_loop_pow by assumption. cbn [bind].
    rewrite Z.mod_small by lia. unfold is_byte in *.
    eexists. split; [reflexivity|].
    apply (ef_meta _ 88 [4] [numerator; k; ticks; thirtyseconds]); cbn [e_body view];
      [apply mm_timesig; assumption|apply (length_field_byte [numerator; k; ticks; thirtyseconds]); reflexivity|cbn [app]; bytes_tac|reflexivity].
  - destruct Hh as [-> ->]. destruct Hb as (H1 & H2).
    eexists. split; [reflexivity|].
    apply (ef_meta _ 89 [2] [accidentals mod 256; keytype]); cbn [e_body view];
      [apply mm_keysig; [assumption|reflexivity|assumption]|apply (length_field_byte [accidentals mod 256; keytype]); reflexivity|cbn [app]; bytes_tac|reflexivity].
  - destruct Hh as [-> ->]. destruct Hb as (H1 & H2 & id & r & H3 & H4).
    rewrite <- zlen_app. eexists. split; [reflexivity|].
    apply (ef_meta _ 127 [zlen (m_id m ++ data) mod 256] (m_id m ++ data)); cbn [e_body view].
    + rewrite H4. apply mm_seqspec, H3.
    + apply length_field_byte, H2.
    + pose proof (zlen_nonneg _ (m_id m ++ data)). cbn [app].
      apply is_byte_cons; [unfold is_byte; lia|]. apply is_byte_cons; [unfold is_byte; lia|].
      apply is_byte_cons; [unfold is_byte; lia|]. exact H1.
    + reflexivity.
  - subst st. destruct Hb as (H1 & H2 & H3).
    destruct (length_field_encode (m_id m ++ data ++ (if single then [247] else []))) as (l & E & Hf & Hl).
    { rewrite app_assoc, zlen_app. destruct single; cbn; unfold vlq_max in *; lia. }
    rewrite E. eexists. split; [reflexivity|]. apply ef_sysex; [reflexivity|exact Hf|].
    apply is_byte_cons; [unfold is_byte; lia|]. apply is_bytes_app. split; [exact Hl|].
    rewrite app_assoc. apply is_bytes_app. split; [exact H1|]. destruct single; bytes_tac.
  - subst st. destruct Hb as (H1 & H2 & H3).
    destruct (length_field_encode (data ++ (if fin then [247] else []))) as (l & E & Hf & Hl).
    { rewrite zlen_app. destruct fin; cbn; unfold vlq_max in *; lia. }
    rewrite E. eexists. split; [reflexivity|]. apply ef_cont; [reflexivity|exact Hf|].
    apply is_byte_cons; [unfold is_byte; lia|]. apply is_bytes_app. split; [exact Hl|].
    apply is_bytes_app. split; [exact H1|]. destruct fin; bytes_tac.
  - subst st. destruct Hb as (H1 & H2).
    destruct (length_field_encode data H2) as (l & E & Hf & Hl).
    rewrite E. eexists. split; [reflexivity|]. apply ef_escape; [reflexivity|exact Hf|bytes_tac].
Qed.

Lemma marshal_events_ok : forall es, Forall legal_event es -> exists cs, marshal_events es = Ok cs.
Proof.
  induction es as [|e es IH]; intro H; [exists []; reflexivity|].
  inversion H as [|? ? He Hes]; subst. destruct (IH Hes) as [cs E].
  destruct (marshal_form e He) as (b & Eb & _). cbn [marshal_events]. rewrite Eb, E. cbn [bind].
  eexists. reflexivity.
Qed.

(** Relation between the previously written first byte and the running status. *)
Definition last_ok (last : option Z) (rs : Z) : Prop :=
  match last with None => True | Some l => 128 <= l < 240 -> rs = l end.

Lemma flatten_cons : forall d e cs, flatten ((d, e) :: cs) = d ++ e ++ flatten cs.
Proof. intros. unfold flatten. cbn [map concat fst snd]. rewrite app_assoc. reflexivity. Qed.

Lemma snoc_exists : forall (l : bytes) x, 1 <= zlen l -> exists p, l = p ++ [last l x].
Proof.
  intros l x H. exists (removelast l). apply app_removelast_last. intro E. subst. cbn in H. lia.
Qed.

(** The encoder's output (with running status compression) is a track of the grammar. *)
Lemma encode_grammar : forall es cs op rs last, Forall legal_event es ->
  sysex_sequence op (map e_body es) -> marshal_events es = Ok cs -> last_ok last rs ->
  track_bytes rs op (map ev_view es) (flatten (running_status_fixup last cs))
  /\ is_bytes (flatten (running_status_fixup last cs)).
Proof.
  induction es as [|e es IH]; intros cs op rs last Hl Hseq Hm Hlast.
  - injection Hm as <-. split; [apply tb_end|constructor].
  - inversion Hl as [|? ? He Hes]; subst. cbn [marshal_events] in Hm.
    destruct (marshal_form e He) as (b & Eb & Hf). rewrite Eb in Hm. cbn [bind] in Hm.
    destruct (marshal_events es) as [cs'| | | |] eqn:Ecs; try discriminate. cbn [bind] in Hm.
    injection Hm as <-. cbn [map] in *.
    destruct He as (_ & Hd & Hbody).
    pose proof (delta_field_encode _ Hd) as Hdf. pose proof (vlq_encode_is_bytes _ Hd) as Hdb.
    set (d := vlq_encode (e_delta e)) in *.
    destruct Hf as [st data Hc Hbs Hsx|ty l data Hc Hlf Hbs Hsx|m dd single l Hbe Hlf Hbs|dd fin l Hbe Hlf Hbs|dd l Hbe Hlf Hbs].
    + rewrite Hsx in Hseq.
      destruct (chan_msg_facts _ _ _ Hc) as (Hst & _ & Hne & Hhd).
      cbn [running_status_fixup hd tl].
      set (strip := match last with
                    | Some l => ((Z.land st 240 =? 128) || (Z.land st 240 =? 144)) && (st =? l)
                    | None => false end).
      assert (Es : match last with
         | Some l => if ((Z.land st 240 =? 128) || (Z.land st 240 =? 144)) && (st =? l) then data else st :: data
         | None => st :: data end = if strip then data else st :: data).
      { unfold strip. destruct last; [destruct (_ && _)|]; reflexivity. }
      rewrite Es. rewrite flatten_cons.
      destruct strip eqn:Estrip.
      * assert (Hrs : rs = st).
        { unfold strip in Estrip. destruct last as [x|]; [|discriminate].
          apply andb_prop in Estrip as [_ E]. cbn [last_ok] in Hlast. lia. }
        subst rs.
        destruct (IH cs' op st (Some (hd 0 data)) Hes Hseq eq_refl) as [G B].
        { cbn [last_ok]. intro. lia. }
        split; [apply tb_running; assumption|].
        apply is_bytes_app. split; [assumption|]. apply is_bytes_app. split; [|assumption].
        inversion Hbs; assumption.
      * destruct (IH cs' op st (Some st) Hes Hseq eq_refl) as [G B].
        { cbn [last_ok]. reflexivity. }
        cbn [hd]. split; [cbn [app]; apply tb_status; assumption|].
        apply is_bytes_app. split; [assumption|]. apply is_bytes_app. split; assumption.
    + rewrite Hsx in Hseq. cbn [running_status_fixup hd].
      change (Z.land 255 240 =? 128) with false. change (Z.land 255 240 =? 144) with false. cbn [orb andb].
      replace (match last with Some _ => 255 :: ty :: l ++ data | None => 255 :: ty :: l ++ data end)
        with (255 :: ty :: l ++ data) by (destruct last; reflexivity).
      rewrite flatten_cons. cbn [hd].
      destruct (IH cs' op 0 (Some 255) Hes Hseq eq_refl) as [G B].
      { cbn [last_ok]. lia. }
      split.
      * cbn [app]. rewrite <- app_assoc. apply tb_meta; assumption.
      * apply is_bytes_app. split; [assumption|]. apply is_bytes_app. split; assumption.
    + unfold ev_view. rewrite Hbe in *. cbn [view]. cbn [sysex_sequence] in Hseq. destruct Hseq as [-> Hseq].
      cbn [running_status_fixup hd].
      change (Z.land 240 240 =? 128) with false. change (Z.land 240 240 =? 144) with false. cbn [orb andb].
      set (w := 240 :: l ++ m_id m ++ dd ++ (if single then [247] else [])) in *.
      replace (match last with Some _ => w | None => w end) with w by (destruct last; reflexivity).
      rewrite flatten_cons. change (hd 0 w) with 240.
      destruct (IH cs' (negb single) 0 (Some 240) Hes Hseq eq_refl) as [G B].
      { cbn [last_ok]. lia. }
      split; [|apply is_bytes_app; split; [assumption|]; apply is_bytes_app; split; assumption].
      unfold w. rewrite (app_assoc (m_id m)) in *. destruct Hbody as (_ & _ & Hbody).
      set (p := m_id m ++ dd) in *.
      destruct single.
      * cbn [app]. rewrite <- app_assoc. apply tb_sysex_single; assumption.
      * destruct Hbody as [Hb1 Hb2].
        destruct (snoc_exists p 0) as [q Eq]; [lia|].
        rewrite app_nil_r in Hlf. rewrite app_nil_r. cbn [app]. rewrite <- app_assoc.
        rewrite Eq in Hlf |- *. apply tb_sysex_first; try assumption.
        intro E. rewrite E in Eq. rewrite Eq in Hb1. cbn in Hb1. lia.
    + unfold ev_view. rewrite Hbe in *. cbn [view]. cbn [sysex_sequence] in Hseq. destruct Hseq as [-> Hseq].
      cbn [running_status_fixup hd].
      change (Z.land 247 240 =? 128) with false. change (Z.land 247 240 =? 144) with false. cbn [orb andb].
      set (w := 247 :: l ++ dd ++ (if fin then [247] else [])) in *.
      replace (match last with Some _ => w | None => w end) with w by (destruct last; reflexivity).
      rewrite flatten_cons. change (hd 0 w) with 247.
      destruct (IH cs' (negb fin) 0 (Some 247) Hes Hseq eq_refl) as [G B].
      { cbn [last_ok]. lia. }
      split; [|apply is_bytes_app; split; [assumption|]; apply is_bytes_app; split; assumption].
      unfold w. destruct Hbody as (_ & _ & Hbody).
      destruct fin.
      * cbn [app]. rewrite <- app_assoc. apply tb_cont_last; assumption.
      * destruct Hbody as [Hbody|Hbody]; [discriminate|].
        rewrite app_nil_r in Hlf. rewrite app_nil_r. cbn [app]. rewrite <- app_assoc.
        apply tb_cont; assumption.
    + unfold ev_view. rewrite Hbe in *. cbn [view]. cbn [sysex_sequence] in Hseq. destruct Hseq as [-> Hseq].
      cbn [running_status_fixup hd].
      change (Z.land 247 240 =? 128) with false. change (Z.land 247 240 =? 144) with false. cbn [orb andb].
      set (w := 247 :: l ++ dd) in *.
      replace (match last with Some _ => w | None => w end) with w by (destruct last; reflexivity).
      rewrite flatten_cons. change (hd 0 w) with 247.
      destruct (IH cs' false 0 (Some 247) Hes Hseq eq_refl) as [G B].
      { cbn [last_ok]. lia. }
      split; [|apply is_bytes_app; split; [assumption|]; apply is_bytes_app; split; assumption].
      unfold w. cbn [app]. rewrite <- app_assoc. apply tb_escape; assumption.
Qed.

(** ** Tracks and files *)

Lemma be32_length : forall v, length (be32 v) = 4%nat.
Proof. reflexivity. Qed.

Lemma be32_value : forall v, 0 <= v < 4294967296 -> exists a b c d,
  be32 v = [a; b; c; d] /\ of_be32 a b c d = v.
Proof. intros v H. unfold be32. eexists _, _, _, _. split; [reflexivity|]. unfold of_be32. lia. Qed.

Theorem track_roundtrip : forall env c es cs, legal_events es -> faithful_events env es ->
  c_running c = 0 -> c_casio c = false -> marshal_events es = Ok cs ->
  exists es' c', decode_events env c (flatten (running_status_fixup None cs)) = Ok (es', c')
    /\ map ev_view es' = contents es.
Proof.
  intros env c es cs [Hl Hseq] Hf Hr Hc Hm.
  destruct (encode_grammar es cs false 0 None Hl Hseq Hm I) as [G B].
  rewrite decode_events_eq.
  destruct (decode_grammar env 0 false _ _ G B) with (c := c) (tick := 0) as (es' & c' & E & Ev); auto.
  { unfold faithful_events in Hf. clear - Hf. induction es; cbn; constructor; inversion Hf; subst; auto. }
  exists es', c'. split; [exact E|]. rewrite Ev. unfold contents. rewrite map_map. reflexivity.
Qed.

Lemma str_MTrk : str "MTrk" = [77; 84; 114; 107].
Proof. reflexivity. Qed.
Lemma str_MThd : str "MThd" = [77; 84; 104; 100].
Proof. reflexivity. Qed.

(** One encoded track is one chunk, and decoding the chunk gives the events back. *)
Lemma encode_mtrk_chunk : forall env n t b rest, t_tag t = str "MTrk" -> legal_events (t_events t) ->
  faithful_events env (t_events t) -> encode_mtrk t = Ok b -> zlen b < 4294967296 ->
  next_chunk (b ++ rest) = Ok (b, rest) /\ firstn 4 b = str "MTrk" /\ (8 <= length b)%nat /\
  exists t', unmarshal_mtrk env n new_context b = Ok t' /\ t_number t' = n
    /\ t_tag t' = str "MTrk" /\ map ev_view (t_events t') = contents (t_events t).
Proof.
  intros env n t b rest Ht Hl Hf He Hlen. unfold encode_mtrk in He.
  destruct (marshal_events (t_events t)) as [cs| | | |] eqn:E; try discriminate. cbn [bind] in He.
  apply Ok_inj in He. subst b. rewrite Ht in *.
  set (body := flatten (running_status_fixup None cs)) in *.
  pose proof (zlen_nonneg _ body) as Hp.
  rewrite !zlen_app in Hlen. change (zlen (str "MTrk")) with 4 in Hlen.
  change (zlen (be32 (zlen body mod 4294967296))) with 4 in Hlen.
  assert (Em : zlen body mod 4294967296 = zlen body) by (apply Z.mod_small; lia).
  rewrite Em. clear Em.
  destruct (be32_value (zlen body) ltac:(lia)) as (l0 & l1 & l2 & l3 & El & Ev). rewrite El.
  rewrite str_MTrk. cbn [app]. repeat split.
  - unfold next_chunk. rewrite Ev.
    rewrite zlen_app. pose proof (zlen_nonneg _ rest).
    destruct (Z.leb_spec (zlen body) (zlen body + zlen rest)); [|lia].
    unfold zlen. rewrite Nat2Z.id, firstn_app_exact, skipn_app_exact. reflexivity.
  - cbn [length]. lia.
  - unfold unmarshal_mtrk. rewrite Ev.
    change (bytes_eqb [77; 84; 114; 107] (str "MTrk")) with true. cbn [negb].
    destruct (track_roundtrip env new_context (t_events t) cs Hl Hf eq_refl eq_refl E) as (es' & c' & Ed & Ec).
    fold body in Ed. rewrite Ed. cbn [bind]. eexists. split; [reflexivity|].
    cbn [t_number t_tag t_events]. repeat split; auto.
Qed.

(** Chunk loop without fuel. *)
Lemma next_chunk_shorter : forall r c rest, next_chunk r = Ok (c, rest) -> (length rest < length r)%nat.
Proof.
  intros r c rest H. unfold next_chunk in H.
  destruct r as [|a [|b [|c0 [|d [|l0 [|l1 [|l2 [|l3 r']]]]]]]]; try discriminate.
  destruct (_ <=? _); [|destruct r'; discriminate]. injection H as <- <-.
  rewrite skipn_length. cbn [length]. lia.
Qed.

Lemma chunks_loop_fuel : forall f1 f2 r, (length r < f1)%nat -> (length r < f2)%nat ->
  chunks_loop f1 r = chunks_loop f2 r.
Proof.
  induction f1 as [|f1 IH]; intros f2 r H1 H2; [lia|]. destruct f2 as [|f2]; [lia|].
  cbn [chunks_loop]. destruct (next_chunk r) as [[c rest]| | | |] eqn:E; try reflexivity.
  apply next_chunk_shorter in E. rewrite (IH f2) by lia. reflexivity.
Qed.

Lemma chunks_eq : forall r, chunks r =
  match next_chunk r with
  | Ok (chunk, rest) => do cs <- chunks rest; Ok (chunk :: cs)
  | Eof => Ok []
  | Err => Err
  | Panic => Panic
  | Loop => Loop
  end.
Proof.
  intro r. unfold chunks at 1. cbn [chunks_loop].
  destruct (next_chunk r) as [[c rest]| | | |] eqn:E; try reflexivity.
  apply next_chunk_shorter in E. unfold chunks. rewrite (chunks_loop_fuel (length r) (S (length rest))) by lia. reflexivity.
Qed.

Lemma encode_tracks_chunks : forall env ts bs n,
  Forall (fun t => t_tag t = str "MTrk" /\ legal_events (t_events t)) ts ->
  Forall (fun t => faithful_events env (t_events t)) ts ->
  encode_tracks ts = Ok bs -> zlen bs < 4294967296 ->
  exists cs ts', chunks bs = Ok cs /\ decode_tracks env n cs = Ok ts' /\
    map (fun t => map ev_view (t_events t)) ts' = map (fun t => contents (t_events t)) ts
    /\ length ts' = length ts.
Proof.
  intros env ts. induction ts as [|t ts IH]; intros bs n Hl Hf He Hlen.
  - injection He as <-. exists [], []. repeat split.
  - inversion Hl as [|? ? [Ht Hle] Hl']; subst. inversion Hf as [|? ? Hft Hf']; subst.
    cbn [encode_tracks] in He.
    destruct (encode_mtrk t) as [b| | | |] eqn:Eb; try discriminate. cbn [bind] in He.
    destruct (encode_tracks ts) as [bs'| | | |] eqn:Ebs; try discriminate. cbn [bind] in He.
    injection He as <-. rewrite zlen_app in Hlen.
    pose proof (zlen_nonneg _ b). pose proof (zlen_nonneg _ bs').
    destruct (IH bs' (n + 1) Hl' Hf' eq_refl ltac:(lia)) as (cs & ts' & Ec & Ed & Ev & En).
    destruct (encode_mtrk_chunk env n t b bs' Ht Hle Hft Eb ltac:(lia)) as (Hn & Hp & _ & t' & Eu & _ & _ & Evt).
    exists (b :: cs), (t' :: ts'). rewrite chunks_eq, Hn, Ec. cbn [bind decode_tracks].
    rewrite Hp, bytes_eqb_refl, Eu. cbn [bind]. rewrite Ed. cbn [bind map length].
    rewrite Evt, Ev, En. repeat split.
Qed.

Lemma division_smpte : forall hi lo, In hi [232; 231; 227; 226] -> 0 <= lo < 256 ->
  Z.land (hi * 256 + lo) 32768 = 32768 /\ Z.shiftr (Z.land (hi * 256 + lo) 65280) 8 = hi
  /\ Z.land (hi * 256 + lo) 255 = lo.
Proof.
  intros hi lo Hh Hl.
  assert (H : forallb (fun hi => forallb (fun lo => (Z.land (hi * 256 + lo) 32768 =? 32768)
      && (Z.shiftr (Z.land (hi * 256 + lo) 65280) 8 =? hi) && (Z.land (hi * 256 + lo) 255 =? lo)) all_bytes)
      [232; 231; 227; 226] = true) by (vm_compute; reflexivity).
  rewrite forallb_forall in H. specialize (H hi Hh). rewrite forallb_forall in H.
  specialize (H lo (all_bytes_in lo Hl)). lia.
Qed.

Lemma division_metrical : forall d, 0 <= d < 32768 -> Z.land d 32768 = 0 /\ Z.land d 32767 = d.
Proof.
  intros d H. split.
  - apply Z.bits_inj'. intros n Hn. rewrite Z.land_spec, Z.bits_0.
    change 32768 with (2 ^ 15). rewrite Z.pow2_bits_eqb by lia.
    destruct (Z.eqb_spec 15 n); [|apply andb_false_r]. subst.
    rewrite <- (Z.mod_small d (2 ^ 15)) by lia. rewrite Z.mod_pow2_bits_high by lia. reflexivity.
  - change 32767 with (Z.ones 15). rewrite Z.land_ones by lia. apply Z.mod_small. lia.
Qed.

Lemma be16_pair : forall v, 0 <= v < 65536 -> exists a b, be16 v = [a; b] /\ of_be16 a b = v /\ is_byte a /\ is_byte b.
Proof. intros v H. eexists _, _. split; [reflexivity|]. unfold of_be16, is_byte. lia. Qed.

Lemma division_range : forall h, legal_mthd h -> 0 <= h_division h < 65536.
Proof.
  intros h (_ & _ & _ & _ & [H|(hi & lo & Hi & Hl & E)]); [lia|].
  cbn [In] in Hi. lia.
Qed.

Lemma mthd_roundtrip : forall h rest, legal_mthd h ->
  next_chunk (marshal_mthd h ++ rest) = Ok (marshal_mthd h, rest) /\
  exists h', unmarshal_mthd (marshal_mthd h) = Ok h' /\ same_header h h' /\ h_bytes h' = marshal_mthd h.
Proof.
  intros h rest H. pose proof (division_range h H) as Hd.
  destruct H as (Ht & Hlen & Hf & Htr & Hdiv).
  unfold marshal_mthd. rewrite Ht, Hlen.
  destruct (be16_pair (h_format h) ltac:(lia)) as (f0 & f1 & Ef & Vf & _ & _). rewrite Ef.
  destruct (be16_pair (h_tracks h) Htr) as (t0 & t1 & Et & Vt & _ & _). rewrite Et.
  destruct (be16_pair (h_division h) Hd) as (d0 & d1 & Ed & Vd & _ & _). rewrite Ed.
  change (be32 6) with [0; 0; 0; 6]. rewrite str_MThd. cbn [app]. split.
  - unfold next_chunk. change (of_be32 0 0 0 6) with 6.
    rewrite !zlen_cons. pose proof (zlen_nonneg _ rest).
    destruct (Z.leb_spec 6 (1 + (1 + (1 + (1 + (1 + (1 + zlen rest))))))); [|lia]. reflexivity.
  - unfold unmarshal_mthd. change (bytes_eqb [77; 84; 104; 100] (str "MThd")) with true. cbn [negb].
    change (of_be32 0 0 0 6) with 6. change (6 =? 6) with true. cbn [negb]. cbv zeta. rewrite Vf, Vt, Vd.
    replace (negb ((h_format h =? 0) || (h_format h =? 1) || (h_format h =? 2))) with false by lia.
    destruct Hdiv as [Hdiv|(hi & lo & Hi & Hl & Ediv)].
    + destruct (division_metrical _ Hdiv) as [-> ->]. change (0 =? 0) with true. cbn iota.
      eexists. split; [reflexivity|]. unfold same_header. cbn [h_tag h_length h_format h_tracks h_division h_bytes].
      rewrite Ht, str_MThd, Hlen, ?Ediv. repeat split.
    + rewrite Ediv. destruct (division_smpte hi lo Hi Hl) as (-> & -> & ->).
      change (32768 =? 0) with false. cbn iota.
      assert (Hs : exists p, smpte_fps hi = Some p) by (cbn [In] in Hi; decompose [or] Hi; subst; try contradiction; eexists; reflexivity).
      destruct Hs as [[fps drop] ->]. eexists. split; [reflexivity|]. unfold same_header. cbn [h_tag h_length h_format h_tracks h_division h_bytes].
      rewrite Ht, str_MThd, Hlen, ?Ediv. repeat split.
Qed.

Theorem file_roundtrip : forall env s h bs, legal_smf s -> f_mthd s = Some h ->
  Forall (fun t => faithful_events env (t_events t)) (f_tracks s) ->
  encode s = Ok bs -> zlen bs < 4294967296 ->
  exists s' h', decode env bs = Ok s' /\ f_mthd s' = Some h' /\ same_header h h' /\
    map (fun t => map ev_view (t_events t)) (f_tracks s') = map (fun t => contents (t_events t)) (f_tracks s).
Proof.
  intros env s h bs [Hh Ht] Hm Hf He Hlen. rewrite Hm in Hh. destruct Hh as [Hh Hn].
  unfold encode in He. rewrite Hm in He.
  replace (negb (h_tracks h =? zlen (f_tracks s))) with false in He by lia.
  destruct (encode_tracks (f_tracks s)) as [tb| | | |] eqn:E; try discriminate. cbn [bind] in He.
  injection He as <-. rewrite zlen_app in Hlen. pose proof (zlen_nonneg _ (marshal_mthd h)).
  destruct (mthd_roundtrip h tb Hh) as (Hnext & h' & Eu & Hsame & _).
  destruct (encode_tracks_chunks env (f_tracks s) tb 0 Ht Hf E ltac:(lia)) as (cs & ts' & Ec & Ed & Ev & En).
  unfold decode. rewrite chunks_eq, Hnext, Ec. cbn [bind]. rewrite Eu. cbn [bind]. rewrite Ed. cbn [bind].
  assert (Hcount : zlen ts' = h_tracks h').
  { unfold zlen in *. rewrite En. destruct Hsame as (_ & _ & _ & -> & _). lia. }
  rewrite Hcount, Z.eqb_refl. exists (SMF (Some h') ts'), h'. repeat split; try apply Hsame. exact Ev.
Qed.

(** Encoding a legal file succeeds. *)
Lemma encode_legal : forall s, legal_smf s -> exists bs, encode s = Ok bs.
Proof.
  intros s [Hh Ht]. unfold encode. destruct (f_mthd s) as [h|]; [|contradiction]. destruct Hh as [_ Hn].
  replace (negb (h_tracks h =? zlen (f_tracks s))) with false by lia.
  assert (E : exists tb, encode_tracks (f_tracks s) = Ok tb).
  { clear Hn. induction Ht as [|t ts [_ [Hl _]] Hts [tb IH]]; [exists []; reflexivity|].
    cbn [encode_tracks]. unfold encode_mtrk. destruct (marshal_events_ok _ Hl) as [cs ->]. cbn [bind].
    rewrite IH. cbn [bind]. eexists. reflexivity. }
  destruct E as [tb ->]. cbn [bind]. eexists. reflexivity.
Qed.
