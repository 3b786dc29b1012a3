(** Facts about decoding arbitrary bytes (not only the grammar). *)
From Verif Require Import Base Strings Tables Vlq SpecVlq VlqProofs Event SpecEvent Parse Track File
  ParseProofs SpecPacket.

Definition ctx_ok (c : ctx) : Prop := c_running c = 0 \/ 128 <= c_running c < 240.

Lemma message_length_eq : forall st, 128 <= st < 256 -> message_length st = data_length st.
Proof.
  intros st H.
  pose proof (byte_sweep (fun st => if 128 <=? st then (message_length st =? data_length st)%nat else true)
    ltac:(vm_compute; reflexivity) st ltac:(unfold is_byte; lia)) as E. cbn beta in E.
  replace (128 <=? st) with true in E by lia. apply Nat.eqb_eq. exact E.
Qed.

Definition packet_f7 (data : bytes) : bool := match data with [] => false | _ => ends_f7 data end.

Definition read_packet (env : env) (c : ctx) (tick delta : Z) (k : packet) (raw : bytes)
  : outcome (event * ctx) :=
  match k with
  | PChan st data =>
      do e <- new_event (unmarshal_midi env (tick + delta) delta st data raw); Ok (e, set_running st c)
  | PMeta ty data =>
      do e <- new_event (unmarshal_meta env (tick + delta) delta (Z.land ty 127) data raw);
      Ok (e, set_running 0 c)
  | PSys st data =>
      if st =? 240 then
        if c_casio c then Err else
        do e <- unmarshal_sysex env (tick + delta) delta data raw;
        Ok (e, set_casio (negb (packet_f7 data)) (set_running 0 c))
      else
        do e <- (if c_casio c then unmarshal_continuation (tick + delta) delta data raw
                 else Ok (make_escape (tick + delta) delta data raw));
        Ok (e, set_casio (c_casio c && negb (packet_f7 data)) (set_running 0 c))
  end.

Lemma parse_status_any : forall env c tick d delta st data rest,
  reads d delta -> 128 <= st -> st <> 240 -> st <> 247 -> st <> 255 -> length data = data_length st ->
  parse env c tick (d ++ st :: data ++ rest) =
  do e <- new_event (unmarshal_midi env (tick + delta) delta st data (d ++ st :: data));
  Ok (e, set_running st c, rest).
Proof.
  intros env c tick d delta st data rest Hd Hst H1 H2 H3 Hlen. unfold parse.
  rewrite (delta_stream d delta) by assumption. cbn [bind].
  rewrite (status_ltb st) by lia. cbn [andb].
  destruct (Z.eqb_spec st 255); [lia|].
  destruct (Z.eqb_spec st 240); [lia|]. destruct (Z.eqb_spec st 247); [lia|]. cbn [orb].
  rewrite app_length, <- Hlen.
  destruct (Nat.ltb_spec (length data + length rest) (length data)); [lia|].
  rewrite skipn_app_exact.
  rewrite (consumed_eq _ (d ++ st :: data) rest) by (rewrite <- app_assoc; reflexivity).
  unfold midi_parse. rewrite (delta_slice d delta) by assumption. cbn [bind].
  rewrite (status_ltb st) by lia. reflexivity.
Qed.

Lemma set_running_same : forall c, set_running (c_running c) c = c.
Proof. destruct c; reflexivity. Qed.

Lemma bind_assoc : forall A B C (x : outcome A) (f : A -> outcome B) (g : B -> outcome C),
  bind (bind x f) g = bind x (fun a => bind (f a) g).
Proof. destruct x; reflexivity. Qed.

Lemma parse_f0_open : forall env c tick d delta l data rest, reads d delta -> reads_len l data ->
  c_casio c = true -> parse env c tick (d ++ 240 :: l ++ data ++ rest) = Err.
Proof.
  intros env c tick d delta l data rest Hd Hl Hc. unfold parse.
  rewrite (delta_stream d delta) by assumption. cbn [bind].
  change (240 <? 128) with false. cbn [andb]. change (240 =? 255) with false.
  change (240 =? 240) with true. cbn [orb]. cbn iota.
  rewrite (length_stream l data) by assumption. cbn [bind]. rewrite Hc. reflexivity.
Qed.

Lemma parse_shape : forall env c tick p delta k rest, shape (c_running c) p delta k ->
  parse env c tick (p ++ rest) =
  do (e, c') <- read_packet env c tick delta k p; Ok (e, c', rest).
Proof.
  intros env c tick p delta k rest H. destruct H as [d delta st data Hd Hst H1 H2 H3 Hlen|d delta data Hd Hst Hlen Hne Hhd|d delta ty l data Hd Hl|d delta st l data Hd Hst Hl].
  - rewrite message_length_eq in Hlen by lia. rewrite <- app_assoc. cbn [app]. rewrite parse_status_any with (delta := delta) by (auto; lia).
    cbn [read_packet]. rewrite bind_assoc. reflexivity.
  - rewrite message_length_eq in Hlen by lia. rewrite <- app_assoc. rewrite parse_running with (delta := delta) by assumption.
    cbn [read_packet]. rewrite bind_assoc. cbn [bind]. rewrite set_running_same. reflexivity.
  - rewrite <- app_assoc. cbn [app]. rewrite <- app_assoc. rewrite parse_meta with (delta := delta) by assumption.
    cbn [read_packet]. rewrite bind_assoc. reflexivity.
  - rewrite <- app_assoc. cbn [app]. rewrite <- app_assoc. destruct Hst as [-> | ->].
    + cbn [read_packet]. change (240 =? 240) with true. cbn iota. destruct (c_casio c) eqn:Ec.
      * rewrite parse_f0_open with (delta := delta) by assumption. reflexivity.
      * rewrite parse_f0 with (delta := delta) by assumption. rewrite bind_assoc. reflexivity.
    + cbn [read_packet]. change (247 =? 240) with false. cbn iota.
      rewrite parse_f7 with (delta := delta) by assumption. rewrite bind_assoc. reflexivity.
Qed.

Lemma reads_split : forall r, is_bytes r -> vlq_read 0 r = None \/
  exists d delta x, r = d ++ x /\ reads d delta.
Proof.
  intros r Hr. destruct (vlq_split r Hr) as [H|(d & x & -> & H)].
  - left. apply vlq_read_none; assumption.
  - right. exists d, (vlq_denotes d mod 4294967296), x. repeat split; assumption.
Qed.

Lemma vlf_split : forall r, is_bytes r -> stream_vlf r = Eof \/
  exists l data x, r = l ++ data ++ x /\ reads_len l data.
Proof.
  intros r Hr. destruct (reads_split r Hr) as [H|(d & n & x & -> & H)].
  - left. unfold stream_vlf, stream_vlq. rewrite H. reflexivity.
  - unfold stream_vlf. rewrite (delta_stream d n) by assumption. cbn [bind].
    destruct (Z.ltb_spec (zlen x) n) as [L|L]; [left; reflexivity|right].
    assert (0 <= n) by (destruct H as [_ <-]; apply Z.mod_pos_bound; lia).
    exists d, (firstn (Z.to_nat n) x), (skipn (Z.to_nat n) x). rewrite firstn_skipn. split; [reflexivity|].
    unfold reads_len. replace (zlen (firstn (Z.to_nat n) x)) with n; [exact H|].
    unfold zlen in *. rewrite firstn_length. lia.
Qed.

Lemma data_length_cases : forall st, 128 <= st < 240 -> (1 <= data_length st)%nat.
Proof.
  intros st H.
  pose proof (byte_sweep (fun st => if (128 <=? st) && (st <? 240) then (1 <=? data_length st)%nat else true)
    ltac:(vm_compute; reflexivity) st ltac:(unfold is_byte; lia)) as E. cbn beta in E.
  replace ((128 <=? st) && (st <? 240)) with true in E by lia. apply Nat.leb_le. exact E.
Qed.

(** What [parse] does on any input. *)
Lemma parse_cases : forall env c tick r, is_bytes r -> ctx_ok c ->
  parse env c tick r = Eof
  \/ (exists d delta b x, reads d delta /\ r = d ++ b :: x /\ b < 128 /\ c_running c = 0 /\ parse env c tick r = Err)
  \/ (exists p rest delta k, r = p ++ rest /\ shape (c_running c) p delta k).
Proof.
  intros env c tick r Hr Hc. destruct (reads_split r Hr) as [H|(d & delta & r1 & -> & Hd)].
  { left. unfold parse, stream_vlq. rewrite H. reflexivity. }
  apply is_bytes_app in Hr as [_ Hr]. unfold parse at 1 2. rewrite (delta_stream d delta) by assumption. cbn [bind].
  destruct r1 as [|b r1]; [left; reflexivity|]. inversion Hr as [|? ? Hb Hr1]; subst. unfold is_byte in Hb.
  destruct (Z.ltb_spec b 128) as [L|L]; cbn [andb].
  - destruct Hc as [Hc|Hc].
    + right. left. exists d, delta, b, r1. rewrite Hc. change (0 <? 128) with true. cbn iota. auto 10.
    + replace (c_running c <? 128) with false by lia. cbn iota.
      destruct (Z.eqb_spec (c_running c) 255); [lia|].
      destruct (Z.eqb_spec (c_running c) 240); [lia|]. destruct (Z.eqb_spec (c_running c) 247); [lia|]. cbn [orb].
      destruct (Nat.ltb_spec (length (b :: r1)) (data_length (c_running c))) as [N|N]; [left; reflexivity|].
      right. right. set (m := data_length (c_running c)) in *.
      pose proof (data_length_cases _ Hc) as Hn. fold m in Hn.
      exists (d ++ firstn m (b :: r1)), (skipn m (b :: r1)), delta, (PChan (c_running c) (firstn m (b :: r1))).
      rewrite <- app_assoc, firstn_skipn. split; [reflexivity|].
      apply sh_running; auto.
      * rewrite message_length_eq by lia. fold m. rewrite firstn_length. lia.
      * destruct m; [lia|discriminate].
      * destruct m; [lia|]. cbn [firstn hd]. exact L.
  - destruct (Z.eqb_spec b 255) as [->|N255].
    + destruct r1 as [|ty r3]; [left; reflexivity|]. inversion Hr1 as [|? ? Hty Hr3]; subst.
      destruct (vlf_split r3 Hr3) as [E|(l & data & x & -> & Hl)]; [left; rewrite E; reflexivity|].
      right. right. exists (d ++ 255 :: ty :: l ++ data), x, delta, (PMeta ty data).
      rewrite <- app_assoc. cbn [app]. rewrite <- app_assoc. split; [reflexivity|]. apply sh_meta; assumption.
    + destruct ((b =? 240) || (b =? 247)) eqn:E.
      * destruct (vlf_split r1 Hr1) as [E1|(l & data & x & -> & Hl)]; [left; rewrite E1; reflexivity|].
        right. right. exists (d ++ b :: l ++ data), x, delta, (PSys b data).
        rewrite <- app_assoc. cbn [app]. rewrite <- app_assoc. split; [reflexivity|]. apply sh_sys; auto; lia.
      * destruct (Nat.ltb_spec (length r1) (data_length b)) as [N|N]; [left; reflexivity|].
        right. right. exists (d ++ b :: firstn (data_length b) r1), (skipn (data_length b) r1), delta, (PChan b (firstn (data_length b) r1)).
        rewrite <- app_assoc. cbn [app]. rewrite firstn_skipn. split; [reflexivity|].
        apply sh_status; auto; try lia. rewrite message_length_eq by lia. rewrite firstn_length. lia.
Qed.

(** ** Facts about every event read *)

Ltac break H :=
  repeat match type of H with
  | context[if ?c then _ else _] => destruct c
  | context[match ?d with [] => _ | _ => _ end] => destruct d
  | context[match ?d with Some _ => _ | None => _ end] => destruct d
  end.

Definition stamped (tick delta : Z) (raw : bytes) (e : event) : Prop :=
  e_tick e = tick /\ e_delta e = delta /\ e_bytes e = raw.

Lemma unmarshal_midi_stamp : forall env tick delta st data raw e,
  unmarshal_midi env tick delta st data raw = Ok e -> stamped tick delta raw e.
Proof.
  intros env tick delta st data raw e H. unfold unmarshal_midi, make_note_off, make_note_on,
    make_polyphonic_pressure, make_controller, make_program_change, make_channel_pressure, make_pitch_bend in H.
  break H; try discriminate; injection H as <-; repeat split.
Qed.

Lemma unmarshal_meta_stamp : forall env tick delta ty data raw e,
  unmarshal_meta env tick delta ty data raw = Ok e -> stamped tick delta raw e.
Proof.
  intros env tick delta ty data raw e H. unfold unmarshal_meta in H.
  destruct (text_kind ty); [injection H as <-; repeat split|].
  destruct (ty =? 0); [break H; try discriminate; injection H as <-; repeat split|].
  destruct (ty =? 32); [unfold make_channel_prefix in H; break H; try discriminate; injection H as <-; repeat split|].
  destruct (ty =? 33); [unfold make_port in H; break H; try discriminate; injection H as <-; repeat split|].
  destruct (ty =? 47); [injection H as <-; repeat split|].
  destruct (ty =? 81); [break H; try discriminate; injection H as <-; repeat split|].
  destruct (ty =? 84); [unfold unmarshal_smpte, make_smpte_offset in H; cbv zeta in H; break H; try discriminate; injection H as <-; repeat split|].
  destruct (ty =? 88).
  { destruct data as [|a [|b [|c [|d [|]]]]]; try discriminate. unfold make_time_signature in H.
    destruct (log2_loop _ _ _ _); try discriminate. injection H as <-. repeat split. }
  destruct (ty =? 89); [unfold unmarshal_key, make_key_signature in H; cbv zeta in H; break H; try discriminate; injection H as <-; repeat split|].
  destruct (ty =? 127); [unfold unmarshal_seqspec in H; break H; try discriminate; injection H as <-; repeat split|].
  discriminate.
Qed.

Lemma new_event_ok : forall x e, new_event x = Ok e -> x = Ok e.
Proof. destruct x; cbn; congruence. Qed.

Lemma chan_status : forall env tick delta st data raw e, 128 <= st < 256 ->
  unmarshal_midi env tick delta st data raw = Ok e -> st < 240.
Proof.
  intros env tick delta st data raw e Hst H. destruct (Z_lt_le_dec st 240) as [L|L]; [exact L|]. exfalso.
  assert (E : Z.land st 240 = 240).
  { pose proof (byte_sweep (fun st => if 240 <=? st then Z.land st 240 =? 240 else true)
      ltac:(vm_compute; reflexivity) st ltac:(unfold is_byte; lia)) as E. cbn beta in E.
    destruct (Z.leb_spec 240 st); lia. }
  unfold unmarshal_midi in H. rewrite E in H. discriminate.
Qed.

Lemma read_packet_facts : forall env c tick delta k raw e c' p, ctx_ok c -> shape (c_running c) p delta k ->
  read_packet env c tick delta k raw = Ok (e, c') -> stamped (tick + delta) delta raw e /\ ctx_ok c'.
Proof.
  intros env c tick delta k raw e c' p Hc Hs H. destruct k as [st data|ty data|st data]; cbn [read_packet] in H.
  - destruct (new_event _) as [x| | | |] eqn:E; try discriminate. cbn [bind] in H. injection H as <- <-.
    apply new_event_ok in E. split; [eapply unmarshal_midi_stamp, E|].
    assert (Hst : 128 <= st < 256) by (inversion Hs; subst; lia).
    pose proof (chan_status _ _ _ _ _ _ _ Hst E). right. cbn. lia.
  - destruct (new_event _) as [x| | | |] eqn:E; try discriminate. cbn [bind] in H. injection H as <- <-.
    apply new_event_ok in E. split; [eapply unmarshal_meta_stamp, E|]. left. reflexivity.
  - destruct (st =? 240).
    + destruct (c_casio c); [discriminate|]. unfold unmarshal_sysex in H.
      destruct data as [|a [|b data]]; try discriminate.
      destruct (ends_f7 (b :: data)); cbn [bind] in H; injection H as <- <-; (split; [repeat split|left; reflexivity]).
    + unfold unmarshal_continuation in H.
      destruct (c_casio c); [destruct data|]; cbn [bind] in H; injection H as <- <-; (split; [repeat split|left; reflexivity]).
Qed.

Lemma shape_not_nil : forall c p delta k, shape (c_running c) p delta k -> p <> [].
Proof.
  intros c p delta k H. destruct H; match goal with H : reads ?d _ |- _ => destruct H as [Hs _]; destruct Hs; discriminate end.
Qed.

Lemma shape_delta : forall c p delta k, shape (c_running c) p delta k -> 0 <= delta < 4294967296.
Proof.
  intros c p delta k H. destruct H; match goal with H : reads ?d _ |- _ => destruct H as [_ <-]; apply Z.mod_pos_bound; lia end.
Qed.

(** Inversion of a successful [parse]. *)
Lemma parse_inv : forall env c tick r e c' rest, is_bytes r -> ctx_ok c ->
  parse env c tick r = Ok (e, c', rest) ->
  exists p delta k, r = p ++ rest /\ shape (c_running c) p delta k /\ read_packet env c tick delta k p = Ok (e, c')
    /\ stamped (tick + delta) delta p e /\ ctx_ok c'.
Proof.
  intros env c tick r e c' rest Hr Hc H.
  destruct (parse_cases env c tick r Hr Hc) as [E|[(d & delta & b & x & _ & _ & _ & _ & E)|(p & rest' & delta & k & -> & Hs)]];
    [congruence|congruence|].
  rewrite (parse_shape env c tick p delta k rest' Hs) in H.
  destruct (read_packet env c tick delta k p) as [[e1 c1]| | | |] eqn:E; try discriminate. cbn [bind] in H.
  injection H as <- <- <-. exists p, delta, k. repeat split; auto; eapply read_packet_facts; eauto.
Qed.

Lemma post_process_facts : forall env c e e' c', post_process env c e = (e', c') ->
  e_tick e' = e_tick e /\ e_bytes e' = e_bytes e /\ e_delta e' = e_delta e /\ c_running c' = c_running c.
Proof. intros env c e e' c' H. apply post_process_view in H. tauto. Qed.

Lemma read_packet_not_eof : forall env c tick delta k raw, read_packet env c tick delta k raw <> Eof.
Proof.
  intros env c tick delta k raw H. destruct k as [st data|ty data|st data]; cbn [read_packet] in H.
  - destruct (unmarshal_midi _ _ _ _ _ _); discriminate.
  - destruct (unmarshal_meta _ _ _ _ _ _); discriminate.
  - destruct (st =? 240).
    + destruct (c_casio c); [discriminate|]. unfold unmarshal_sysex in H.
      destruct data as [|a [|b data]]; try discriminate. destruct (ends_f7 (b :: data)); discriminate.
    + unfold unmarshal_continuation in H. destruct (c_casio c); [destruct data|]; discriminate.
Qed.

Lemma parse_eof_tick : forall env c t t' r, is_bytes r -> ctx_ok c -> parse env c t r = Eof ->
  parse env c t' r = Eof.
Proof.
  intros env c t t' r Hr Hc H.
  destruct (parse_cases env c t' r Hr Hc) as [E|[(d & delta & b & x & Hd & Er & Hb & Hrun & E)|(p & rest & delta & k & Er & Hs)]];
    [exact E| |]; exfalso.
  - unfold parse in H. rewrite Er, (delta_stream d delta) in H by assumption. cbn [bind] in H.
    replace (b <? 128) with true in H by lia. rewrite Hrun in H. discriminate.
  - rewrite Er, (parse_shape env c t p delta k rest Hs) in H.
    destruct (read_packet env c t delta k p) as [[e c1]| | | |] eqn:E; try discriminate.
    eapply read_packet_not_eof, E.
Qed.

(** Sum of deltas. *)
Definition total (es : list event) : Z := fold_right (fun e t => e_delta e + t) 0 es.

(** All the structural facts about a decoded track, by one induction. *)
Lemma loop_facts : forall n env c tick r es c', (length r <= n)%nat -> is_bytes r -> ctx_ok c ->
  loop_from env c tick r = Ok (es, c') ->
  ctx_ok c' /\
  (exists rest, r = concat (map e_bytes es) ++ rest /\ parse env c' 0 rest = Eof) /\
  (0 <= tick < 4294967296 -> forall i e, nth_error es i = Some e ->
     e_tick e = (tick + total (firstn i es)) mod 4294967296 + e_delta e /\ 0 <= e_delta e < 4294967296).
Proof.
  induction n as [|n IH]; intros env c tick r es c' Hn Hr Hc H.
  - destruct r; [|cbn in Hn; lia]. rewrite loop_from_eq, parse_nil in H. injection H as <- <-.
    split; [assumption|]. split; [exists []; split; reflexivity|]. intros _ [|i] e Hi; discriminate.
  - rewrite loop_from_eq in H.
    destruct (parse env c tick r) as [[[e c1] rest]| | | |] eqn:E; try discriminate.
    + pose proof (parse_shorter _ _ _ _ _ _ _ E) as Hlt.
      destruct (parse_inv _ _ _ _ _ _ _ Hr Hc E) as (p & delta & k & -> & Hs & _ & (S1 & S2 & S3) & Hc1).
      pose proof (shape_delta _ _ _ _ Hs) as Hdelta.
      destruct (post_process env c1 e) as [e' c2] eqn:P.
      apply post_process_facts in P as (P1 & P2 & P3 & P4).
      destruct (loop_from env c2 ((tick + e_delta e) mod 4294967296) rest) as [[es1 c3]| | | |] eqn:L; try discriminate.
      cbn [bind] in H. injection H as <- <-. apply is_bytes_app in Hr as [_ Hr].
      assert (Hc2 : ctx_ok c2) by (unfold ctx_ok; rewrite P4; exact Hc1).
      assert (Hle : (length rest <= n)%nat) by lia.
      destruct (IH _ _ _ _ _ _ Hle Hr Hc2 L) as (F1 & (rest' & F2 & F3) & F4).
      split; [exact F1|]. split.
      * exists rest'. cbn [map concat]. rewrite P2, S3, <- app_assoc, <- F2. split; [reflexivity|exact F3].
      * intros Ht [|i] e0 Hi.
        -- cbn in Hi. injection Hi as <-. cbn [firstn total fold_right]. rewrite P1, S1, P3, S2.
           rewrite Z.add_0_r, Z.mod_small by lia. split; [reflexivity|exact Hdelta].
        -- cbn in Hi. destruct (F4 ltac:(apply Z.mod_pos_bound; lia) i e0 Hi) as [G1 G2].
           split; [|exact G2]. rewrite G1. cbn [firstn total fold_right]. fold (total (firstn i es1)).
           rewrite P3, S2, Zplus_mod_idemp_l. f_equal. f_equal. lia.
    + injection H as <- <-. split; [assumption|]. split; [|intros _ [|i] e Hi; discriminate].
      exists r. split; [reflexivity|]. eapply parse_eof_tick; eauto.
Qed.

(** Decoding is compositional at event boundaries. *)
Lemma loop_app : forall n env c tick p q es c', (length p <= n)%nat -> is_bytes p -> ctx_ok c ->
  0 <= tick < 4294967296 ->
  loop_from env c tick p = Ok (es, c') -> concat (map e_bytes es) = p ->
  loop_from env c tick (p ++ q) =
  do (es2, c2) <- loop_from env c' ((tick + total es) mod 4294967296) q; Ok (es ++ es2, c2).
Proof.
  induction n as [|n IH]; intros env c tick p q es c' Hn Hp Hc Ht H Hall.
  - destruct p; [|cbn in Hn; lia]. rewrite loop_from_eq, parse_nil in H. injection H as <- <-.
    cbn [app total fold_right]. rewrite Z.add_0_r, Z.mod_small by lia.
    destruct (loop_from env c tick q) as [[es2 c2]| | | |]; reflexivity.
  - rewrite loop_from_eq in H.
    destruct (parse env c tick p) as [[[e c1] rest]| | | |] eqn:E; try discriminate.
    + pose proof (parse_shorter _ _ _ _ _ _ _ E) as Hlt.
      destruct (parse_inv _ _ _ _ _ _ _ Hp Hc E) as (p0 & delta & k & -> & Hs & Hrp & (S1 & S2 & S3) & Hc1).
      destruct (post_process env c1 e) as [e' c2] eqn:P.
      pose proof (post_process_facts _ _ _ _ _ P) as (P1 & P2 & P3 & P4).
      destruct (loop_from env c2 ((tick + e_delta e) mod 4294967296) rest) as [[es1 c3]| | | |] eqn:L; try discriminate.
      cbn [bind] in H. injection H as <- <-. apply is_bytes_app in Hp as [_ Hr].
      cbn [map concat] in Hall. rewrite P2, S3 in Hall. apply app_inv_head in Hall.
      assert (Hc2 : ctx_ok c2) by (unfold ctx_ok; rewrite P4; exact Hc1).
      assert (Hb : 0 <= (tick + e_delta e) mod 4294967296 < 4294967296) by (apply Z.mod_pos_bound; lia).
      rewrite loop_from_eq, <- app_assoc, (parse_shape env c tick p0 delta k (rest ++ q) Hs), Hrp. cbn [bind].
      assert (Hle : (length rest <= n)%nat) by lia.
      rewrite P. rewrite (IH _ _ _ _ q _ _ Hle Hr Hc2 Hb L Hall). rewrite bind_assoc.
      rewrite S2, Zplus_mod_idemp_l. cbn [total fold_right]. fold (total es1). rewrite P3, S2.
      replace (tick + delta + total es1) with (tick + (delta + total es1)) by lia.
      destruct (loop_from env c3 _ q) as [[es2 c4]| | | |]; reflexivity.
    + injection H as <- <-. cbn in Hall. subst p. cbn [app total fold_right]. rewrite Z.add_0_r, Z.mod_small by lia.
      destruct (loop_from env c tick q) as [[es2 c2]| | | |]; reflexivity.
Qed.
