(** * MemoryProofs: what decoding asks for (C76). *)
From Coq Require Import Permutation.
From Verif Require Import Base Strings Tables SpecVlq Vlq VlqProofs Event SpecEvent SpecFile SpecPacket SpecHistory SpecCrash SpecSays SpecMemory Marshal Parse
  Track File Memory SpecTrack ParseProofs EncodeProofs DecodeProofs FileProofs TrackProofs CrashProofs SaysProofs.

Lemma sum_app : forall a b, sum (a ++ b) = sum a + sum b.
Proof. intros a b. induction a as [|x a IH]; cbn [app sum fold_right]; [reflexivity|]. fold (sum (a ++ b)). fold (sum a). lia. Qed.

Lemma within_nil : forall n k, 0 <= n -> 0 <= k -> within [] n k.
Proof. intros n k Hn Hk. exists [], []. repeat split; auto. Qed.

Lemma within_app : forall a b n m k l, within a n k -> within b m l -> within (a ++ b) (n + m) (k + l).
Proof.
  intros a b n m k l (f1 & o1 & P1 & S1 & L1) (f2 & o2 & P2 & S2 & L2). exists (f1 ++ f2), (o1 ++ o2).
  split; [|rewrite sum_app, zlen_app; lia]. rewrite P1, P2. rewrite <- !app_assoc. apply Permutation_app_head.
  rewrite !app_assoc. apply Permutation_app_tail. apply Permutation_app_comm.
Qed.

Lemma within_more : forall a n m k l, within a n k -> n <= m -> k <= l -> within a m l.
Proof. intros a n m k l (f & o & P & S & L) Hm Hl. exists f, o. repeat split; auto; lia. Qed.

Lemma within_one : forall x, within [x] x 0.
Proof. intro x. exists [x], []. repeat split; [reflexivity|cbn; lia|cbn; lia]. Qed.

Lemma within_other : forall a, within a 0 (zlen a).
Proof. intro a. exists [], a. repeat split; [reflexivity|cbn; lia|lia]. Qed.

(** ** Tracks *)

Lemma field_request_one : forall r, zlen (field_request r) <= 1.
Proof. intro r. unfold field_request. destruct (stream_vlq r) as [[n x]| | | |]; cbn; lia. Qed.

Lemma event_request_one : forall c r, zlen (event_request c r) <= 1.
Proof.
  intros c r. unfold event_request. destruct (stream_vlq r) as [[d [|b r1]]| | | |]; try (cbn; lia).
  destruct (_ && _); [cbn; lia|]. cbv zeta. destruct (_ =? 255).
  - destruct (if b <? 128 then _ else _); [cbn; lia|apply field_request_one].
  - destruct (_ || _); [apply field_request_one|cbn; lia].
Qed.

Definition packet_request (k : packet) : list Z := match k with PMeta _ data | PSys _ data => [zlen data] | PChan _ _ => [] end.

Lemma field_request_len : forall l data x, reads_len l data -> field_request (l ++ data ++ x) = [zlen data].
Proof. intros l data x H. unfold field_request. rewrite (delta_stream l (zlen data)) by exact H. reflexivity. Qed.

Lemma event_request_shape : forall c p delta k rest, ctx_ok c -> shape (c_running c) p delta k ->
  event_request c (p ++ rest) = packet_request k /\ within (packet_request k) (zlen p) 0.
Proof.
  intros c p delta k rest Hc H. remember (c_running c) as rs eqn:Ers.
  assert (L : forall l data a : bytes, within [zlen data] (zlen (a ++ l ++ data)) 0).
  { intros l data a. eapply within_more; [apply within_one| |lia]. rewrite !zlen_app. pose proof (zlen_nonneg _ a). pose proof (zlen_nonneg _ l). lia. }
  destruct H as [d delta st data Hd Hst H1 H2 H3 Hlen|d delta data Hd Hst Hlen Hne Hhd|d delta ty l data Hd Hl|d delta st l data Hd Hst Hl];
    rewrite <- app_assoc; unfold event_request; rewrite (delta_stream d delta) by assumption; cbn [app packet_request].
  - replace (st <? 128) with false by lia. cbn [andb]. cbv zeta. replace (st =? 255) with false by lia. replace ((st =? 240) || (st =? 247)) with false by lia.
    split; [reflexivity|]. apply within_nil; [apply zlen_nonneg|lia].
  - destruct data as [|b data]; [congruence|]. cbn [app hd] in *. replace (b <? 128) with true by lia. subst rs. replace (c_running c <? 128) with false by lia. cbn [andb]. cbv zeta.
    replace (c_running c =? 255) with false by lia. replace ((c_running c =? 240) || (c_running c =? 247)) with false by lia.
    split; [reflexivity|]. apply within_nil; [apply zlen_nonneg|lia].
  - change (255 <? 128) with false. cbn [andb]. cbv zeta. change (255 =? 255) with true. cbn iota. rewrite <- app_assoc.
    split; [apply field_request_len; exact Hl|]. change (255 :: ty :: l ++ data) with ([255; ty] ++ l ++ data). rewrite app_assoc. apply L.
  - replace (st <? 128) with false by lia. cbn [andb]. cbv zeta. replace (st =? 255) with false by lia. replace ((st =? 240) || (st =? 247)) with true by lia.
    rewrite <- app_assoc. split; [apply field_request_len; exact Hl|]. change (st :: l ++ data) with ([st] ++ l ++ data). rewrite app_assoc. apply L.
Qed.

Lemma track_within : forall fuel env c tick r, is_bytes r -> ctx_ok c -> within (track_requests fuel env c tick r) (zlen r) 1.
Proof.
  induction fuel as [|f IH]; intros env c tick r Hr Hc; cbn [track_requests]; [apply within_nil; [apply zlen_nonneg|lia]|].
  destruct (parse_cases env c tick r Hr Hc) as [E|[(d & delta & b & x & R1 & R2 & R3 & R4 & E)|(p & rest & delta & k & -> & Hs)]].
  - rewrite E, app_nil_r. eapply within_more; [apply within_other|apply zlen_nonneg|apply event_request_one].
  - rewrite E, app_nil_r. eapply within_more; [apply within_other|apply zlen_nonneg|apply event_request_one].
  - destruct (event_request_shape c p delta k rest Hc Hs) as [-> W]. apply is_bytes_app in Hr as [Hp Hrest]. rewrite zlen_app.
    replace 1 with (0 + 1) by lia. apply within_app; [exact W|]. rewrite (parse_shape env c tick p delta k rest Hs).
    destruct (read_packet env c tick delta k p) as [[e c1]| | | |] eqn:R; cbn [bind]; try (apply within_nil; [apply zlen_nonneg|lia]).
    destruct (post_process env c1 e) as [e' c2] eqn:Epp. apply IH; [assumption|].
    destruct (read_packet_facts _ _ _ _ _ _ _ _ _ Hc Hs R) as (_ & Hc1).
    destruct (post_process_facts _ _ _ _ _ Epp) as (P1 & P2 & P3 & P4). unfold ctx_ok in *. rewrite P4. exact Hc1.
Qed.

Lemma track_complete : forall fuel env c tick r evs rs op, is_bytes r -> ctx_ok c ->
  tells (env_manufacturers env) (c_running c) (c_casio c) evs r rs op -> within (track_requests fuel env c tick r) (zlen r) 0.
Proof.
  induction fuel as [|f IH]; intros env c tick r evs rs op Hr Hc T; cbn [track_requests]; [apply within_nil; [apply zlen_nonneg|lia]|].
  apply tells_inv in T as [(-> & -> & -> & ->)|(p & delta & k & t & evs1 & rest & -> & -> & Hs & S & T)].
  - rewrite parse_nil. apply within_nil; cbn; lia.
  - destruct (event_request_shape c p delta k rest Hc Hs) as [-> W]. apply is_bytes_app in Hr as [Hp Hrest]. rewrite zlen_app.
    replace 0 with (0 + 0) by lia. apply within_app; [exact W|]. rewrite (parse_shape env c tick p delta k rest Hs).
    destruct (proj1 (read_says env c tick delta k p p Hc Hs Hp t) S) as (e & c1 & R & _). rewrite R. cbn [bind].
    destruct (post_process env c1 e) as [e' c2] eqn:Epp.
    destruct (read_packet_facts _ _ _ _ _ _ _ _ _ Hc Hs R) as (_ & Hc1).
    destruct (post_process_view _ _ _ _ _ Epp) as (P0 & _ & _ & _ & _ & _ & P4 & P5).
    destruct (read_state _ _ _ _ _ _ _ _ R (shape_sys _ _ _ _ Hs)) as [Q1 Q2].
    apply IH with (evs := evs1) (rs := rs) (op := op); [assumption| |rewrite P4, P5, Q1, Q2; exact T].
    unfold ctx_ok in *. rewrite P4. exact Hc1.
Qed.

(** ** Chunks *)

Lemma chunk_within : forall fuel r, is_bytes r -> within (chunk_requests fuel r) (zlen r) 1.
Proof.
  induction fuel as [|f IH]; intros r Hr; cbn [chunk_requests]; [apply within_nil; [apply zlen_nonneg|lia]|].
  destruct r as [|a [|b [|c [|d [|l0 [|l1 [|l2 [|l3 r]]]]]]]]; try (apply within_nil; [apply zlen_nonneg|lia]).
  destruct (next_chunk_cases _ Hr) as [[X _]|[[_ E]|[E|(tag & payload & w & rest & C & Ew & E)]]]; [discriminate| | |].
  - rewrite E. eapply within_more; [apply within_other|apply zlen_nonneg|cbn; lia].
  - rewrite E. eapply within_more; [apply within_other|apply zlen_nonneg|cbn; lia].
  - rewrite E, Ew in *. rewrite zlen_app. apply is_bytes_app in Hr as [Hw Hrest].
    change (of_be32 l0 l1 l2 l3 :: chunk_requests f rest) with ([of_be32 l0 l1 l2 l3] ++ chunk_requests f rest).
    replace 1 with (0 + 1) by lia. apply within_app; [|apply IH; assumption].
    destruct C as [a' b' c' d' m0 m1 m2 m3 payload B0 B1 B2 B3 L]. cbn [app] in Ew. injection Ew as <- <- <- <- <- <- <- <- _.
    replace (of_be32 l0 l1 l2 l3) with (zlen payload) by (unfold of_be32; lia). eapply within_more; [apply within_one| |lia].
    cbn [app]. rewrite !zlen_cons. lia.
Qed.

Lemma chunk_complete : forall fuel items r, is_bytes r -> file_bytes items r -> within (chunk_requests fuel r) (zlen r) 0.
Proof.
  induction fuel as [|f IH]; intros items r Hr F; cbn [chunk_requests]; [apply within_nil; [apply zlen_nonneg|lia]|].
  destruct F as [|tag payload w items r C F]; [apply within_nil; [apply zlen_nonneg|lia]|].
  rewrite (chunk_next tag payload w r C). apply is_bytes_app in Hr as [Hw Hrest]. rewrite zlen_app.
  destruct C as [a b c d l0 l1 l2 l3 payload B0 B1 B2 B3 L]. cbn [app].
  change (of_be32 l0 l1 l2 l3 :: chunk_requests f r) with ([of_be32 l0 l1 l2 l3] ++ chunk_requests f r).
  replace 0 with (0 + 0) by lia. apply within_app; [|eapply IH; eassumption].
  replace (of_be32 l0 l1 l2 l3) with (zlen payload) by (unfold of_be32; lia). eapply within_more; [apply within_one| |lia].
  rewrite !zlen_cons. lia.
Qed.

(** ** Files *)

Lemma chunk_skip : forall tag payload w, chunk_bytes tag payload w -> skipn 8 w = payload /\ zlen w = 8 + zlen payload.
Proof. intros tag payload w C. destruct C. cbn [app skipn]. split; [reflexivity|]. rewrite !zlen_cons. lia. Qed.

Lemma tracks_within : forall env items ws n, wires items ws -> Forall (fun it => is_bytes (snd it)) items ->
  exists k, 8 * k <= zlen (concat ws) /\ within (tracks_requests env n ws) (zlen (concat ws)) k.
Proof.
  intros env items ws n W. revert n. induction W as [|it w items ws C W IH]; intros n B.
  - exists 0. split; [cbn; lia|]. apply within_nil; cbn; lia.
  - inversion B as [|? ? B1 B2]; subst. cbn [tracks_requests concat]. destruct (chunk_skip _ _ _ C) as [Sk Lw]. rewrite zlen_app.
    pose proof (zlen_nonneg _ (snd it)). pose proof (zlen_nonneg _ (concat ws)).
    destruct (bytes_eqb (firstn 4 w) (str "MTrk")).
    + pose proof (track_within (S (length w)) env new_context 0 (snd it) B1 ltac:(left; reflexivity)) as T. rewrite Sk.
      destruct (unmarshal_mtrk env n new_context w) as [t| | | |].
      * destruct (IH (n + 1) B2) as (k & K1 & K2). exists (1 + k). split; [lia|].
        eapply within_more; [apply within_app; [exact T|exact K2]|lia|lia].
      * exists 1. split; [lia|]. rewrite app_nil_r. eapply within_more; [exact T|lia|lia].
      * exists 1. split; [lia|]. rewrite app_nil_r. eapply within_more; [exact T|lia|lia].
      * exists 1. split; [lia|]. rewrite app_nil_r. eapply within_more; [exact T|lia|lia].
      * exists 1. split; [lia|]. rewrite app_nil_r. eapply within_more; [exact T|lia|lia].
    + destruct (IH n B2) as (k & K1 & K2). exists k. split; [lia|]. eapply within_more; [exact K2|lia|lia].
Qed.

Lemma tracks_complete : forall env items ws n, wires items ws -> Forall (fun it => is_bytes (snd it)) items ->
  Forall (fun it => is_mtrk it = true -> exists evs rs op, tells (env_manufacturers env) 0 false evs (snd it) rs op) items ->
  within (tracks_requests env n ws) (zlen (concat ws)) 0.
Proof.
  intros env items ws n W. revert n. induction W as [|it w items ws C W IH]; intros n B F.
  - apply within_nil; cbn; lia.
  - inversion B as [|? ? B1 B2]; inversion F as [|? ? F1 F2]; subst. cbn [tracks_requests concat]. destruct (chunk_skip _ _ _ C) as [Sk Lw]. rewrite zlen_app.
    pose proof (zlen_nonneg _ (snd it)). pose proof (zlen_nonneg _ (concat ws)).
    destruct (chunk_wire_det _ _ _ C) as [_ Tg]. rewrite Tg. change (str "MTrk") with tag_mtrk. change (bytes_eqb (fst it) tag_mtrk) with (is_mtrk it).
    destruct (is_mtrk it).
    + destruct (F1 eq_refl) as (evs & rs & op & T0).
      pose proof (track_complete (S (length w)) env new_context 0 (snd it) evs rs op B1 ltac:(left; reflexivity) T0) as T. rewrite Sk.
      eapply within_more with (n := zlen (snd it) + zlen (concat ws)) (k := 0 + 0); [|lia|lia]. apply within_app; [exact T|].
      destruct (unmarshal_mtrk env n new_context w) as [t| | | |]; [apply IH; assumption| | | |]; (apply within_nil; [apply zlen_nonneg|lia]).
    + eapply within_more; [apply IH; assumption|lia|lia].
Qed.

Theorem decode_within : forall env r, is_bytes r ->
  (exists k, 8 * k <= 8 + zlen r /\ within (decode_requests env r) (2 * zlen r) k) /\
  (complete (env_manufacturers env) r -> within (decode_requests env r) (2 * zlen r) 0).
Proof.
  intros env r Hr. unfold decode_requests. pose proof (zlen_nonneg _ r) as Hn. split.
  - destruct (chunks_cases (length r) r (le_n _) Hr) as [E|(items & ws & Rd & E & W)]; rewrite E.
    { exists 1. split; [lia|]. rewrite app_nil_r. eapply within_more; [apply chunk_within; assumption|lia|lia]. }
    assert (Bw : is_bytes (concat ws) /\ zlen (concat ws) <= zlen r).
    { destruct Rd as (r0 & tail & -> & F & _). rewrite <- (wires_concat _ _ _ W F). apply is_bytes_app in Hr. rewrite zlen_app.
      pose proof (zlen_nonneg _ tail). split; [tauto|lia]. }
    destruct Bw as [Bw Lw]. destruct ws as [|w ws].
    { exists 1. split; [lia|]. rewrite app_nil_r. eapply within_more; [apply chunk_within; assumption|lia|lia]. }
    destruct items as [|it items]; [inversion W|]. apply wires_cons in W as (w' & ws' & X & C & W). injection X as <- <-.
    cbn [concat] in *. apply is_bytes_app in Bw as [_ Bw]. rewrite zlen_app in Lw. pose proof (zlen_nonneg _ w).
    destruct (unmarshal_mthd w); try (exists 1; split; [lia|]; rewrite app_nil_r; eapply within_more; [apply chunk_within; assumption|lia|lia]).
    destruct (tracks_within env items ws 0 W (wires_bytes _ _ W Bw)) as (k & K1 & K2). exists (1 + k). split; [lia|].
    eapply within_more; [apply within_app; [apply chunk_within; assumption|exact K2]|lia|lia].
  - intros (items & F & T). destruct (file_chunks items r F) as (ws & E & W & Ew). rewrite E.
    eapply within_more with (n := zlen r + zlen r) (k := 0 + 0); [|lia|lia]. apply within_app; [eapply chunk_complete; eassumption|].
    destruct ws as [|w ws]; [apply within_nil; lia|]. destruct (unmarshal_mthd w); try (apply within_nil; lia).
    destruct items as [|it items]; [inversion W|]. apply wires_cons in W as (w' & ws' & X & C & W). injection X as <- <-.
    cbn [concat] in Ew. subst r. apply is_bytes_app in Hr as [_ Hr]. inversion T; subst.
    eapply within_more; [apply (tracks_complete env items ws 0 W); [apply (wires_bytes _ _ W Hr)|assumption]|rewrite zlen_app; pose proof (zlen_nonneg _ w); lia|lia].
Qed.
