(** * DecodedProofs: decoded events are in range. *)
From Verif Require Import Base Strings Tables SpecVlq Vlq VlqProofs Event SpecEvent SpecPacket SpecKey SpecDecoded Marshal Parse Track File
  SpecTrack ParseProofs DecodeProofs FileProofs TrackProofs CrashProofs.

Lemma lor_bound : forall n a b, 0 <= n -> 0 <= a < 2 ^ n -> 0 <= b < 2 ^ n -> 0 <= Z.lor a b < 2 ^ n.
Proof.
  intros n a b Hn Ha Hb. assert (P : 0 <= Z.lor a b) by (apply Z.lor_nonneg; lia). split; [exact P|].
  destruct (Z.eq_dec (Z.lor a b) 0) as [E|E]; [rewrite E; apply Z.pow_pos_nonneg; lia|].
  apply Z.log2_lt_pow2; [lia|]. rewrite Z.log2_lor by lia.
  assert (L : forall x, 0 <= x < 2 ^ n -> x = 0 \/ Z.log2 x < n).
  { intros x Hx. destruct (Z.eq_dec x 0); [auto|]. right. apply Z.log2_lt_pow2; lia. }
  destruct (L a Ha) as [->|La], (L b Hb) as [->|Lb].
  - exfalso. apply E. reflexivity.
  - rewrite Z.max_r; [exact Lb|]. apply Z.log2_nonneg.
  - rewrite Z.max_l; [exact La|]. apply Z.log2_nonneg.
  - lia.
Qed.

Lemma unmarshal_midi_ranges : forall env tick delta st data raw e, 128 <= st < 256 -> is_bytes data ->
  unmarshal_midi env tick delta st data raw = Ok e -> decoded_body env (e_body e).
Proof.
  intros env tick delta st data raw e Hst Hb H.
  assert (C : 0 <= Z.land st 15 < 16) by (change 15 with (Z.ones 4); rewrite Z.land_ones by lia; change (2 ^ 4) with 16; lia).
  unfold unmarshal_midi in H. cbv zeta in H. set (ch := Z.land st 15) in *. clearbody ch.
  repeat match type of H with
  | (if ?b then _ else _) = _ => destruct b eqn:?
  | match ?d with [] => _ | _ :: _ => _ end = _ => destruct d; try discriminate
  end; try discriminate;
  unfold make_note_off, make_note_on, make_polyphonic_pressure, make_controller, make_program_change, make_channel_pressure, make_pitch_bend in H;
  repeat match type of H with (if ?b then _ else _) = _ => destruct b eqn:?; try discriminate end;
  apply Ok_inj in H; subst e; bytes_inv; cbn [e_body decoded_body plain_note n_value];
  repeat (split; [first [lia | eexists; split; [|reflexivity]; lia]|]); try lia.
  apply (lor_bound 15); [lia| |].
  - rewrite Z.shiftl_mul_pow2 by lia. change (2 ^ 7) with 128. change (2 ^ 15) with 32768. rewrite Z.mod_small by lia. lia.
  - change 127 with (Z.ones 7). rewrite Z.land_ones by lia. change (2 ^ 7) with 128. change (2 ^ 15) with 32768. lia.
Qed.

Lemma double_loop_range : forall k, double_loop k 1 = 0 \/ exists j, 0 <= j < 8 /\ double_loop k 1 = 2 ^ j.
Proof.
  assert (G : forall k d, (d = 0 \/ exists j, 0 <= j < 8 /\ d = 2 ^ j) -> double_loop k d = 0 \/ exists j, 0 <= j < 8 /\ double_loop k d = 2 ^ j).
  { induction k as [|k IH]; intros d Hd; [exact Hd|]. cbn [double_loop]. apply IH. destruct Hd as [->|(j & Hj & ->)]; [left; reflexivity|].
    destruct (Z.eq_dec j 7) as [->|Hn]; [left; reflexivity|]. right. exists (j + 1). split; [lia|].
    rewrite Z.pow_add_r by lia. change (2 ^ 1) with 2. assert (2 ^ j < 2 ^ 7) by (apply Z.pow_lt_mono_r; lia). change (2 ^ 7) with 128 in *.
    apply Z.mod_small. split; [|lia]. apply Z.mul_nonneg_nonneg; [apply Z.pow_nonneg; lia|lia]. }
  intro k. apply G. right. exists 0. split; [lia|reflexivity].
Qed.

Lemma key_table : forall acc s, (major_scale acc = Some s -> key_range acc /\ s_name s = key_name false acc) /\
  (minor_scale acc = Some s -> key_range acc /\ s_name s = key_name true acc).
Proof.
  assert (F0 : Forall (fun s => key_range (s_acc s) /\ s_name s = key_name false (s_acc s)) MAJOR_SCALES)
    by (unfold key_range; repeat (constructor; [split; [cbn; lia|vm_compute; reflexivity]|]); constructor).
  assert (F1 : Forall (fun s => key_range (s_acc s) /\ s_name s = key_name true (s_acc s)) MINOR_SCALES)
    by (unfold key_range; repeat (constructor; [split; [cbn; lia|vm_compute; reflexivity]|]); constructor).
  rewrite Forall_forall in F0, F1.
  intros acc s. split; intro H; apply find_some in H as [H1 H2]; apply Z.eqb_eq in H2; subst acc; auto.
Qed.

Lemma unmarshal_meta_ranges : forall env tick delta ty data raw e, is_bytes data ->
  unmarshal_meta env tick delta ty data raw = Ok e -> decoded_body env (e_body e).
Proof.
  intros env tick delta ty data raw e Hb H. unfold unmarshal_meta in H.
  destruct (text_kind ty) as [k|]; [apply Ok_inj in H; subst e; exact Hb|].
  destruct (ty =? 0).
  { destruct data as [|a [|b [|]]]; try discriminate. apply Ok_inj in H. subst e. bytes_inv. cbn [e_body make_sequence_number decoded_body].
    rewrite of_be16_val. lia. }
  destruct (ty =? 32).
  { unfold make_channel_prefix in H. break H; try discriminate. apply Ok_inj in H. subst e. bytes_inv. cbn [e_body decoded_body]. lia. }
  destruct (ty =? 33).
  { unfold make_port in H. break H; try discriminate. apply Ok_inj in H. subst e. bytes_inv. cbn [e_body decoded_body]. lia. }
  destruct (ty =? 47); [apply Ok_inj in H; subst e; exact I|].
  destruct (ty =? 81).
  { destruct data as [|a [|b [|c [|]]]]; try discriminate. apply Ok_inj in H. subst e. bytes_inv. cbn [e_body make_tempo decoded_body].
    rewrite be_fold3 by lia. lia. }
  destruct (ty =? 84).
  { unfold unmarshal_smpte in H. destruct data as [|a [|m [|s [|f [|ff [|]]]]]]; try discriminate. cbv zeta in H.
    assert (R : In (smpte_rate (Z.land (Z.shiftr a 5) 3)) [24; 25; 29; 30]).
    { unfold smpte_rate. cbn [In]. destruct (_ =? 0); [auto|]. destruct (_ =? 1); [auto|]. destruct (_ =? 2); auto. }
    assert (P : 0 <= Z.land a 31) by (apply Z.land_nonneg; lia).
    set (rate := smpte_rate _) in *. clearbody rate. set (h := Z.land a 31) in *. clearbody h. bytes_inv.
    unfold make_smpte_offset in H. repeat match type of H with (if ?b then _ else _) = _ => destruct b eqn:?; try discriminate end.
    apply Ok_inj in H. subst e. cbn [e_body decoded_body In] in *. lia. }
  destruct (ty =? 88).
  { destruct data as [|a [|b [|c [|d [|]]]]]; try discriminate. unfold make_time_signature in H.
    destruct (log2_loop _ _ _ _); try discriminate. cbn [bind] in H. apply Ok_inj in H. subst e. bytes_inv. cbn [e_body decoded_body].
    unfold is_byte. split; [lia|]. split; [|lia]. apply double_loop_range. }
  destruct (ty =? 89).
  { unfold unmarshal_key, make_key_signature in H. destruct data as [|a [|kt [|]]]; try discriminate. cbv zeta in H.
    destruct (kt =? 0).
    - cbn [Z.eqb] in H. destruct (major_scale (int8 a)) as [s|] eqn:S; [|discriminate]. apply Ok_inj in H. subst e.
      destruct (proj1 (key_table _ s) S) as [K N]. cbn [e_body decoded_body]. split; [exact K|]. exists false. rewrite N. auto.
    - destruct (kt =? 1); [|discriminate]. cbn [Z.eqb Pos.eqb] in H. destruct (minor_scale (int8 a)) as [s|] eqn:S; [|discriminate].
      apply Ok_inj in H. subst e.
      destruct (proj2 (key_table _ s) S) as [K N]. cbn [e_body decoded_body]. split; [exact K|]. exists true. rewrite N. auto. }
  destruct (ty =? 127); [|discriminate].
  unfold unmarshal_seqspec in H. destruct data as [|a d]; [discriminate|]. destruct (Z.eqb_spec a 0) as [->|Ha].
  - destruct d as [|b [|c d]]; try discriminate. apply Ok_inj in H. subst e. bytes_inv. cbn [e_body make_sequencer_specific decoded_body].
    split; [assumption|]. exists [0; b; c]. split; [repeat (constructor; [unfold is_byte; lia|]); constructor|]. split; [constructor; lia|reflexivity].
  - apply Ok_inj in H. subst e. bytes_inv. cbn [e_body make_sequencer_specific decoded_body]. split; [assumption|]. exists [a].
    split; [repeat (constructor; [unfold is_byte; lia|]); constructor|]. split; [constructor; lia|reflexivity].
Qed.

Lemma removelast_bytes : forall d, is_bytes d -> is_bytes (removelast d).
Proof.
  intros d H. destruct d as [|x d]; [exact H|]. rewrite (app_removelast_last 0 (l := x :: d)) in H by discriminate.
  apply is_bytes_app in H. apply H.
Qed.

Lemma read_packet_ranges : forall env c tick delta k raw e c' p, shape (c_running c) p delta k -> is_bytes p -> ctx_ok c ->
  read_packet env c tick delta k raw = Ok (e, c') -> decoded_body env (e_body e) /\ c_bank c' = c_bank c.
Proof.
  intros env c tick delta k raw e c' p Hs Hp Hc H.
  assert (HB : match k with PChan _ data => is_bytes data | PMeta _ data => is_bytes data | PSys _ data => is_bytes data end).
  { destruct Hs; repeat match goal with
      | H : is_bytes (_ ++ _) |- _ => apply is_bytes_app in H as [? ?]
      | H : is_bytes (_ :: _) |- _ => apply is_bytes_inv in H as [? ?] end; assumption. }
  pose proof (shape_parts _ _ _ _ Hs Hp Hc) as HP. destruct k as [st data|ty data|st data]; cbn [read_packet] in H.
  - destruct (new_event _) as [e1| | | |] eqn:E; try discriminate. cbn [bind] in H. apply Ok_inj, pair_equal_spec in H as [<- <-].
    apply new_event_inv in E. split; [|reflexivity]. eapply unmarshal_midi_ranges; [apply HP|exact HB|exact E].
  - destruct (new_event _) as [e1| | | |] eqn:E; try discriminate. cbn [bind] in H. apply Ok_inj, pair_equal_spec in H as [<- <-].
    apply new_event_inv in E. split; [|reflexivity]. eapply unmarshal_meta_ranges; [exact HB|exact E].
  - destruct (st =? 240).
    + destruct (c_casio c); [discriminate|]. unfold unmarshal_sysex in H. destruct data as [|a [|b d]]; try discriminate.
      bytes_inv. destruct (ends_f7 (b :: d)); cbn [bind] in H; apply Ok_inj, pair_equal_spec in H as [<- <-]; (split; [|reflexivity]);
      cbn [e_body make_sysex decoded_body]; (split; [|exists a; split; [unfold is_byte; lia|reflexivity]]).
      * apply removelast_bytes. constructor; [unfold is_byte; lia|assumption].
      * constructor; [unfold is_byte; lia|assumption].
    + destruct (c_casio c).
      * unfold unmarshal_continuation in H. destruct data as [|a d]; cbn [bind] in H; apply Ok_inj, pair_equal_spec in H as [<- <-];
        (split; [|reflexivity]); cbn [e_body make_continuation decoded_body]; (split; [|reflexivity]); [constructor|].
        destruct (ends_f7 _); [apply removelast_bytes|]; assumption.
      * cbn [bind] in H. apply Ok_inj, pair_equal_spec in H as [<- <-]. split; [exact HB|reflexivity].
Qed.

Definition banks_ok (c : ctx) : Prop := Forall (fun x => 0 <= snd x < 16384) (c_bank c).

Lemma get_bank_ok : forall c ch, banks_ok c -> 0 <= get_bank c ch < 16384.
Proof.
  intros c ch H. unfold get_bank. unfold banks_ok in H. induction (c_bank c) as [|[k v] l IH]; cbn [assoc]; [lia|].
  inversion H; subst. destruct (ch =? k); [assumption|]. apply IH. assumption.
Qed.

Lemma post_process_ranges : forall env c e e' c', banks_ok c -> decoded_body env (e_body e) -> post_process env c e = (e', c') ->
  decoded_body env (e_body e') /\ banks_ok c'.
Proof.
  intros env c e e' c' Hc Hb H. unfold post_process in H.
  destruct (e_body e) eqn:B; try (apply pair_equal_spec in H as [<- <-]; split; [rewrite B; exact Hb|exact Hc]; fail).
  - apply pair_equal_spec in H as [<- <-]. split; [|exact Hc]. cbn [with_body e_body decoded_body n_value] in *. exact Hb.
  - apply pair_equal_spec in H as [<- <-]. split; [|exact Hc]. cbn [with_body e_body decoded_body n_value] in *. exact Hb.
  - assert (M : forall x v, 0 <= bank_msb x v < 16384 /\ 0 <= bank_lsb x v < 16384).
    { assert (L : forall x, 0 <= Z.land x 63 < 64) by (intro x; change 63 with (Z.ones 6); rewrite Z.land_ones by lia; apply Z.mod_pos_bound; lia).
      assert (L2 : forall x, 0 <= Z.land x 8064 < 16384).
      { intro x. split; [apply Z.land_nonneg; lia|].
        assert (Z.land (Z.land x 8064) 16383 = Z.land x 8064) as <- by (rewrite <- Z.land_assoc; reflexivity).
        change 16383 with (Z.ones 14). rewrite Z.land_ones by lia. apply Z.mod_pos_bound. lia. }
      intros x v. unfold bank_msb, bank_lsb. pose proof (L x). pose proof (L v). pose proof (L2 x). split; apply (lor_bound 14); try lia;
      change (2 ^ 14) with 16384; try lia.
      rewrite Z.shiftl_mul_pow2 by lia. change (2 ^ 7) with 128. lia. }
    destruct (c_id c0 =? 0); [|destruct (c_id c0 =? 32)]; apply pair_equal_spec in H as [<- <-]; (split; [rewrite B; exact Hb|]);
    try exact Hc; (constructor; [cbn [snd]; apply M|exact Hc]).
  - apply pair_equal_spec in H as [<- <-]. split; [|exact Hc]. cbn [with_body e_body decoded_body] in *. pose proof (get_bank_ok c ch Hc). lia.
Qed.

Lemma loop_ranges : forall n env c tick r es c', (length r <= n)%nat -> is_bytes r -> ctx_ok c -> banks_ok c ->
  loop_from env c tick r = Ok (es, c') -> Forall (fun e => decoded_body env (e_body e)) es.
Proof.
  induction n as [|n IH]; intros env c tick r es c' Hn Hr Hc Hbk H.
  - destruct r; [|cbn in Hn; lia]. rewrite loop_from_eq, parse_nil in H. apply Ok_inj, pair_equal_spec in H as [<- <-]. constructor.
  - rewrite loop_from_eq in H. destruct (parse env c tick r) as [[[e c1] rest]| | | |] eqn:E; try discriminate.
    + pose proof (parse_shorter _ _ _ _ _ _ _ E) as Hlt.
      destruct (parse_inv _ _ _ _ _ _ _ Hr Hc E) as (p & delta & k & -> & Hs & HR & _ & Hc1). apply is_bytes_app in Hr as [Hp Hr].
      destruct (read_packet_ranges _ _ _ _ _ _ _ _ _ Hs Hp Hc HR) as [D1 D2].
      destruct (post_process env c1 e) as [e' c2] eqn:P.
      destruct (post_process_facts _ _ _ _ _ P) as (_ & _ & _ & P4).
      assert (Hb1 : banks_ok c1) by (unfold banks_ok; rewrite D2; exact Hbk).
      destruct (post_process_ranges _ _ _ _ _ Hb1 D1 P) as [D3 D4].
      destruct (loop_from env c2 _ rest) as [[es1 c3]| | | |] eqn:L; try discriminate.
      cbn [bind] in H. apply Ok_inj, pair_equal_spec in H as [<- <-]. constructor; [exact D3|].
      assert (Hc2 : ctx_ok c2) by (unfold ctx_ok; rewrite P4; exact Hc1).
      assert (Hle : (length rest <= n)%nat) by lia.
      eapply (IH _ _ _ _ _ _ Hle Hr Hc2 D4 L).
    + apply Ok_inj, pair_equal_spec in H as [<- <-]. constructor.
Qed.

Theorem decoded_events : forall env r es c', is_bytes r -> decode_events env new_context r = Ok (es, c') ->
  Forall (fun e => legal_header e /\ 0 <= e_delta e < 4294967296 /\ decoded_body env (e_body e)) es.
Proof.
  intros env r es c' Hr H. rewrite decode_events_eq in H. assert (C0 : ctx_ok new_context) by (left; reflexivity).
  pose proof (loop_headers (length r) _ _ _ _ _ _ (le_n _) H) as F1.
  pose proof (loop_ranges (length r) _ _ _ _ _ _ (le_n _) Hr C0 ltac:(constructor) H) as F2.
  destruct (loop_facts (length r) env new_context 0 r es c' (le_n _) Hr C0 H) as (_ & _ & F3).
  assert (F4 : Forall (fun e => 0 <= e_delta e < 4294967296) es).
  { apply nth_Forall. intros i x Hi. apply (F3 ltac:(lia) i x Hi). }
  clear - F1 F2 F4. induction es; constructor; inversion F1; inversion F2; inversion F4; subst; tauto || auto.
Qed.

Lemma chunks_bytes : forall n r ws, (length r <= n)%nat -> is_bytes r -> chunks r = Ok ws -> Forall is_bytes ws.
Proof.
  intros n r ws Hn Hr H. destruct (chunks_cases n r Hn Hr) as [E|(items & ws' & Rd & E & W)]; [congruence|].
  assert (ws' = ws) by congruence. subst ws'. destruct Rd as (r0 & tail & -> & F & _).
  rewrite (wires_concat _ _ _ W F) in Hr. apply is_bytes_app in Hr as [Hr _]. clear - Hr. induction ws as [|w ws IH]; [constructor|].
  cbn [concat] in Hr. apply is_bytes_app in Hr as [H1 H2]. constructor; auto.
Qed.

Theorem decoded_file : forall env r s, is_bytes r -> decode env r = Ok s ->
  Forall (fun t => t_tag t = str "MTrk" /\ (exists c, t_ctx t = Some c) /\
     Forall (fun e => legal_header e /\ 0 <= e_delta e < 4294967296 /\ decoded_body env (e_body e)) (t_events t)) (f_tracks s).
Proof.
  intros env r s Hr H. unfold decode in H. destruct (chunks r) as [cs| | | |] eqn:C; try discriminate. cbn [bind] in H.
  apply (chunks_bytes (length r) r cs (le_n _) Hr) in C.
  destruct cs as [|c cs]; [discriminate|]. destruct (unmarshal_mthd c) as [h| | | |]; try discriminate. cbn [bind] in H.
  destruct (decode_tracks env 0 cs) as [ts| | | |] eqn:E; try discriminate. cbn [bind] in H.
  destruct (_ =? _); [|discriminate]. apply Ok_inj in H. subst s. cbn [f_tracks]. inversion C as [|? ? _ C']; subst. clear C.
  revert E. assert (G : exists m, m = 0) by eauto. destruct G as [m Em]. rewrite <- Em at 1. clear Em. revert ts m.
  induction cs as [|w cs IH]; intros ts n E; cbn [decode_tracks] in E.
  - apply Ok_inj in E. subst. constructor.
  - inversion C' as [|? ? Cw Cs]; subst. destruct (bytes_eqb _ _); [|eapply IH; eassumption].
    destruct (unmarshal_mtrk env n new_context w) as [t| | | |] eqn:Et; try discriminate. cbn [bind] in E.
    destruct (decode_tracks env (n + 1) cs) as [ts'| | | |] eqn:E'; try discriminate. cbn [bind] in E.
    apply Ok_inj in E. subst ts. constructor; [|eapply IH; eassumption].
    unfold unmarshal_mtrk in Et.
    destruct w as [|a0 [|a1 [|a2 [|a3 [|a4 [|a5 [|a6 [|a7 r']]]]]]]]; try discriminate;
    destruct (negb (bytes_eqb [a0; a1; a2; a3] (str "MTrk"))); try discriminate.
    destruct (decode_events env new_context r') as [[es c']| | | |] eqn:Ed; try discriminate. cbn [bind] in Et.
    apply Ok_inj in Et. subst t. split; [reflexivity|]. cbn [t_ctx t_events]. split; [eauto|]. eapply decoded_events; [|exact Ed].
    repeat (apply is_bytes_inv in Cw as [_ Cw]). exact Cw.
Qed.
