(** * SettledProofs: in a decoded track no continuation follows a complete message. *)
From Verif Require Import Base Strings Tables Event SpecEvent Parse Track File SpecAssemble SpecRoutes ParseProofs DecodeProofs DecodedProofs.

Definition no_sysex (b : body) : Prop := match b with SysExMessage _ _ _ | SysExContinuation _ _ => False | _ => True end.

Lemma midi_no_sysex : forall env tick delta st data raw e, unmarshal_midi env tick delta st data raw = Ok e -> no_sysex (e_body e).
Proof.
  intros env tick delta st data raw e H. unfold unmarshal_midi, make_note_off, make_note_on,
    make_polyphonic_pressure, make_controller, make_program_change, make_channel_pressure, make_pitch_bend in H.
  break H; try discriminate; injection H as <-; exact I.
Qed.

Lemma meta_no_sysex : forall env tick delta ty data raw e, unmarshal_meta env tick delta ty data raw = Ok e -> no_sysex (e_body e).
Proof.
  intros env tick delta ty data raw e H. unfold unmarshal_meta in H.
  destruct (text_kind ty); [injection H as <-; exact I|].
  destruct (ty =? 0); [break H; try discriminate; injection H as <-; exact I|].
  destruct (ty =? 32); [unfold make_channel_prefix in H; break H; try discriminate; injection H as <-; exact I|].
  destruct (ty =? 33); [unfold make_port in H; break H; try discriminate; injection H as <-; exact I|].
  destruct (ty =? 47); [injection H as <-; exact I|].
  destruct (ty =? 81); [break H; try discriminate; injection H as <-; exact I|].
  destruct (ty =? 84); [unfold unmarshal_smpte, make_smpte_offset in H; cbv zeta in H; break H; try discriminate; injection H as <-; exact I|].
  destruct (ty =? 88).
  { destruct data as [|a [|b [|c [|d [|]]]]]; try discriminate. unfold make_time_signature in H.
    destruct (log2_loop _ _ _ _); try discriminate. injection H as <-. exact I. }
  destruct (ty =? 89); [unfold unmarshal_key, make_key_signature in H; cbv zeta in H; break H; try discriminate; injection H as <-; exact I|].
  destruct (ty =? 127); [unfold unmarshal_seqspec in H; break H; try discriminate; injection H as <-; exact I|].
  discriminate.
Qed.

Lemma read_packet_open : forall env c tick delta k raw e c', read_packet env c tick delta k raw = Ok (e, c') ->
  (continues e -> c_casio c = true) /\ (forall m d, e_body e = SysExMessage m d true -> c_casio c' = false).
Proof.
  intros env c tick delta k raw e c' H. destruct k as [st data|ty data|st data]; cbn [read_packet] in H.
  - destruct (new_event _) as [e1| | | |] eqn:E; try discriminate. cbn [bind] in H. apply Ok_inj, pair_equal_spec in H as [<- <-]. apply new_event_ok, midi_no_sysex in E.
    split; [intros (d & f & X)|intros m d X]; rewrite X in E; destruct E.
  - destruct (new_event _) as [e1| | | |] eqn:E; try discriminate. cbn [bind] in H. apply Ok_inj, pair_equal_spec in H as [<- <-]. apply new_event_ok, meta_no_sysex in E.
    split; [intros (d & f & X)|intros m d X]; rewrite X in E; destruct E.
  - destruct (st =? 240).
    + destruct (c_casio c); [discriminate|]. unfold unmarshal_sysex in H. destruct data as [|a [|b d]]; try discriminate.
      destruct (ends_f7 (b :: d)) eqn:F; cbn [bind] in H; apply Ok_inj, pair_equal_spec in H as [<- <-]; (split; [intros (x & f & X); discriminate X|]).
      * intros m x X. cbn [c_casio set_casio packet_f7]. unfold ends_f7 in *. cbn [last] in *. rewrite F. reflexivity.
      * intros m x X. discriminate X.
    + destruct (c_casio c); [split; [reflexivity|]|].
      * unfold unmarshal_continuation in H. destruct data as [|a d]; cbn [bind] in H; apply Ok_inj, pair_equal_spec in H as [<- <-]; intros m x X; discriminate X.
      * cbn [bind] in H. apply Ok_inj, pair_equal_spec in H as [<- <-]. split; [intros (x & f & X); discriminate X|intros m x X; discriminate X].
Qed.

Lemma post_process_open : forall env c e e' c', post_process env c e = (e', c') -> c_casio c' = c_casio c /\ (no_sysex (e_body e) /\ no_sysex (e_body e') \/ e' = e).
Proof.
  intros env c e e' c' H. unfold post_process in H.
  destruct (e_body e) eqn:B; try (apply pair_equal_spec in H as [<- <-]; split; [reflexivity|auto]; fail).
  - apply pair_equal_spec in H as [<- <-]. split; [reflexivity|]. left. split; exact I.
  - apply pair_equal_spec in H as [<- <-]. split; [reflexivity|]. left. split; exact I.
  - destruct (c_id c0 =? 0); [|destruct (c_id c0 =? 32)]; apply pair_equal_spec in H as [<- <-]; (split; [reflexivity|auto]).
  - apply pair_equal_spec in H as [<- <-]. split; [reflexivity|]. left. split; exact I.
Qed.

Definition closed_off (es : list event) : Prop :=
  forall i e n m d, nth_error es i = Some e -> nth_error es (S i) = Some n -> e_body e = SysExMessage m d true -> ~ continues n.

Lemma loop_closed : forall n env c tick r es c', (length r <= n)%nat -> is_bytes r -> ctx_ok c ->
  loop_from env c tick r = Ok (es, c') -> closed_off es /\ (forall e, nth_error es 0 = Some e -> continues e -> c_casio c = true).
Proof.
  induction n as [|n IH]; intros env c tick r es c' Hn Hr Hc H.
  - destruct r; [|cbn in Hn; lia]. rewrite loop_from_eq, parse_nil in H. apply Ok_inj, pair_equal_spec in H as [<- <-]. split; [intros [|i] e n m d X; discriminate X|intros e X; discriminate X].
  - rewrite loop_from_eq in H. destruct (parse env c tick r) as [[[e c1] rest]| | | |] eqn:E; try discriminate.
    + pose proof (parse_shorter _ _ _ _ _ _ _ E) as Hlt.
      destruct (parse_inv _ _ _ _ _ _ _ Hr Hc E) as (p & delta & k & -> & Hs & HR & _ & Hc1). apply is_bytes_app in Hr as [Hp Hr].
      destruct (read_packet_open _ _ _ _ _ _ _ _ HR) as (O1 & O2).
      destruct (post_process env c1 e) as [e' c2] eqn:P.
      destruct (post_process_facts _ _ _ _ _ P) as (_ & _ & _ & P4). destruct (post_process_open _ _ _ _ _ P) as (P5 & P6).
      destruct (loop_from env c2 _ rest) as [[es1 c3]| | | |] eqn:L; try discriminate.
      cbn [bind] in H. apply Ok_inj, pair_equal_spec in H as [<- <-].
      assert (Hc2 : ctx_ok c2) by (unfold ctx_ok; rewrite P4; exact Hc1).
      assert (Hle : (length rest <= n)%nat) by lia.
      destruct (IH _ _ _ _ _ _ Hle Hr Hc2 L) as (I1 & I2). split.
      * intros [|i] x y m d X Y B.
        -- cbn [nth_error] in X. injection X as <-. intro C. apply I2 in C; [|exact Y]. destruct P6 as [(_ & P6)| ->]; [rewrite B in P6; destruct P6|].
           rewrite P5, (O2 m d B) in C. discriminate C.
        -- exact (I1 i x y m d X Y B).
      * intros x X C. cbn [nth_error] in X. injection X as <-. destruct P6 as [(_ & P6)| ->]; [destruct C as (d & f & C); rewrite C in P6; destruct P6|]. apply O1, C.
    + apply Ok_inj, pair_equal_spec in H as [<- <-]. split; [intros [|i] e m d x X; discriminate X|intros e X; discriminate X].
Qed.

(** Which tracks are settled: those that do not end with a complete message *)
Lemma closed_settled : forall es, closed_off es -> (settled es <-> ~ ends_in_message es).
Proof.
  intros es C. split.
  - intros H (a & e & m & d & -> & B). destruct (H (length a) e m d) as (n & N & _); [rewrite nth_error_app2, Nat.sub_diag by lia; reflexivity|exact B|].
    assert (X : nth_error (a ++ [e]) (S (length a)) = None) by (apply nth_error_None; rewrite app_length; cbn; lia). congruence.
  - intros H i e m d N B. destruct (nth_error es (S i)) as [n|] eqn:Nn.
    + exists n. split; [reflexivity|]. exact (C i e n m d N Nn B).
    + destruct H. apply nth_error_None in Nn. pose proof N as N'. apply nth_error_split in N' as (a & b & -> & La). rewrite app_length in Nn. cbn [length] in Nn.
      destruct b; [|cbn [length] in Nn; lia]. exists a, e, m, d. split; [reflexivity|exact B].
Qed.

Theorem decoded_settled : forall env r s, is_bytes r -> decode env r = Ok s -> Forall (fun t => settled (t_events t) <-> ~ ends_in_message (t_events t)) (f_tracks s).
Proof.
  intros env r s Hr H. unfold decode in H. destruct (chunks r) as [cs| | | |] eqn:C; try discriminate. cbn [bind] in H.
  apply (chunks_bytes (length r) r cs (le_n _) Hr) in C.
  destruct cs as [|c cs]; [discriminate|]. destruct (unmarshal_mthd c) as [h| | | |]; try discriminate. cbn [bind] in H.
  destruct (decode_tracks env 0 cs) as [ts| | | |] eqn:E; try discriminate. cbn [bind] in H.
  destruct (_ =? _); [|discriminate]. apply Ok_inj in H. subst s. cbn [f_tracks]. inversion C as [|? ? _ C']; subst. clear C.
  revert E. assert (G : exists m, m = 0) by eauto. destruct G as [m Em]. rewrite <- Em at 1. clear Em. revert ts m.
  induction cs as [|w cs IH]; intros ts n E; cbn [decode_tracks] in E.
  - apply Ok_inj in E. subst. constructor.
  - inversion C' as [|? ? Cw Cs]; subst. destruct (bytes_eqb _ _); [|eapply IH; eassumption].
    destruct (unmarshal_mtrk env n new_context w) as [t| | | |] eqn:Et; try discriminate. cbn [bind] in E.
    destruct (decode_tracks env (n + 1) cs) as [ts'| | | |] eqn:E'; try discriminate. cbn [bind] in E.
    apply Ok_inj in E. subst ts. constructor; [|eapply IH; eassumption].
    unfold unmarshal_mtrk in Et.
    destruct w as [|a0 [|a1 [|a2 [|a3 [|a4 [|a5 [|a6 [|a7 r']]]]]]]]; try discriminate;
    destruct (negb (bytes_eqb [a0; a1; a2; a3] (str "MTrk"))); try discriminate.
    destruct (decode_events env new_context r') as [[es c']| | | |] eqn:Ed; try discriminate. cbn [bind] in Et.
    apply Ok_inj in Et. subst t. cbn [t_events]. apply closed_settled. rewrite decode_events_eq in Ed. unfold is_bytes in Cw. do 8 apply Forall_inv_tail in Cw.
    assert (C0 : ctx_ok new_context) by (left; reflexivity). apply (loop_closed (length r') env new_context 0 r' es c' (le_n _) Cw C0 Ed).
Qed.
