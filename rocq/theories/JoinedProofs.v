(** * Proofs for C125. *)
From Coq Require Import Permutation.
From Verif Require Import Base Strings Tables Event SpecFile Track File Notes Transpose Validate SpecTrack SpecNames SpecSlower SpecTrackOrder SpecJoined FileProofs TrackOrderProofs.

(** Reading *)
Lemma decode_known : forall env tag0 p0 items r w0 h, file_bytes ((tag0, p0) :: items) r -> chunk_bytes tag0 p0 w0 -> unmarshal_mthd w0 = Ok h ->
  h_tracks h = zlen (filter is_mtrk items) -> (forall it, In it (filter is_mtrk items) -> exists t, decoded_as env it t) ->
  exists s, decode env r = Ok s /\ f_mthd s = Some h.
Proof.
  intros env tag0 p0 items r w0 h F C0 U0 Hn X. destruct (file_chunks _ _ F) as (ws & E & FW & _).
  inversion FW as [|? w1 ? ws1 Hw1 F1]; subst. cbn [fst snd] in Hw1.
  unfold decode. rewrite E. cbn [bind]. rewrite (chunk_bytes_det _ _ _ _ Hw1 C0), U0. cbn [bind].
  rewrite (decode_tracks_keep env items ws1 0 F1). pose proof (keep_file _ _ F1) as K.
  destruct (decode_tracks_all env (keep items ws1) 0 (keep_tags _ _ F1)) as (ts & Ets).
  { intros w Hw. apply In_nth_error in Hw as [j Hj].
    assert (Hx : exists it, nth_error (filter is_mtrk items) j = Some it /\ chunk_bytes (fst it) (snd it) w).
    { clear - K Hj. revert j Hj. induction K as [|it w' l l' Hc _ IH]; intros [|j] Hj; try discriminate.
      - cbn in Hj. injection Hj as <-. exists it. split; [reflexivity|assumption].
      - apply IH, Hj. }
    destruct Hx as (it & Hit & Hc). apply nth_error_In in Hit. destruct (X it Hit) as (t & n & w' & C' & U' & _).
    rewrite (chunk_bytes_det _ _ _ _ Hc C'). exists n, t. exact U'. }
  rewrite Ets. cbn [bind].
  destruct (decode_tracks_each _ _ _ _ (keep_tags _ _ F1) Ets) as [L _].
  pose proof (forall2_length _ _ _ _ _ K) as L2.
  replace (zlen ts =? h_tracks h) with true by (unfold zlen in *; lia).
  eexists. split; reflexivity.
Qed.

Definition header_chunk (f0 f1 a b d0 d1 : Z) : bytes := [77; 84; 104; 100; 0; 0; 0; 6; f0; f1; a; b; d0; d1].

Lemma header_is : forall f0 f1 a b d0 d1, chunk_bytes (str "MThd") [f0; f1; a; b; d0; d1] (header_chunk f0 f1 a b d0 d1).
Proof. intros. apply (chunk_intro 77 84 104 100 0 0 0 6); try lia. reflexivity. Qed.

Lemma header_like : forall f0 f1 a b a' b' d0 d1 h, unmarshal_mthd (header_chunk f0 f1 a b d0 d1) = Ok h ->
  exists h', unmarshal_mthd (header_chunk f0 f1 a' b' d0 d1) = Ok h' /\ timing h = timing h' /\ h_tracks h' = of_be16 a' b'.
Proof.
  intros f0 f1 a b a' b' d0 d1 h H. unfold unmarshal_mthd, header_chunk in *.
  change (negb (bytes_eqb [77; 84; 104; 100] (str "MThd"))) with false in *. cbn iota in *.
  change (negb (of_be32 0 0 0 6 =? 6)) with false in *. cbn iota in *.
  destruct (negb _); [discriminate H|]. destruct (Z.land (of_be16 d0 d1) 32768 =? 0).
  - apply Ok_inj in H. subst h. eexists. repeat split.
  - destruct (smpte_fps _) as [[fps drop]|]; [|discriminate H]. apply Ok_inj in H. subst h. eexists. repeat split.
Qed.

Lemma numbered_same : forall ts ts', Forall2 same_track ts ts' -> map t_number ts = map t_number ts' -> ts = ts'.
Proof.
  intros ts ts' F. induction F as [|[] [] ts ts' (A & B & C & D & E) F IH]; intros N; [reflexivity|]. cbn in *. injection N as N1 N2. f_equal; [congruence|auto].
Qed.

Lemma indexed : forall ts k, (forall i t, nth_error ts i = Some t -> t_number t = Z.of_nat (k + i)) -> map t_number ts = map Z.of_nat (seq k (length ts)).
Proof.
  intros ts. induction ts as [|t ts IH]; intros k H; [reflexivity|]. cbn [map length seq]. f_equal.
  - rewrite (H 0%nat t eq_refl). f_equal. lia.
  - apply IH. intros i x E. rewrite (H (S i) x E). f_equal. lia.
Qed.

Lemma Forall2_app_left : forall A B (R : A -> B -> Prop) l1 l2 l', Forall2 R (l1 ++ l2) l' -> exists l1' l2', l' = l1' ++ l2' /\ Forall2 R l1 l1' /\ Forall2 R l2 l2'.
Proof. intros A B R l1 l2 l' F. apply Forall2_app_inv_l in F as (x & y & F & G & E). exists x, y. auto. Qed.

Theorem joined_read : forall env r u r' s v, files_joined r u r' -> decode env r = Ok s -> decode env u = Ok v -> exists s', decode env r' = Ok s' /\ joined s v s'.
Proof.
  intros env r u r' s v (f0 & f1 & d0 & d1 & a & b & a1 & b1 & a2 & b2 & first & rest & rest1 & items & items1 & items2 & F & F1 & F2 & E & E1 & E2 & B & N) D D1.
  destruct (decode_each _ _ _ _ _ _ F D) as (h & w & C & U & Hh & _). destruct (decode_each _ _ _ _ _ _ F1 D1) as (h1 & w1 & C1 & U1 & Hh1 & _).
  rewrite (chunk_bytes_det _ _ _ _ C (header_is _ _ _ _ _ _)) in U. rewrite (chunk_bytes_det _ _ _ _ C1 (header_is _ _ _ _ _ _)) in U1.
  destruct (header_like _ _ _ _ a2 b2 _ _ _ U) as (h2 & U2 & T & K). destruct (header_like _ _ _ _ a2 b2 _ _ _ U1) as (h2' & U2' & T1 & _).
  assert (h2' = h2) by congruence. subst h2'.
  destruct (decoded_items _ _ _ _ _ F D) as [A X]. destruct (decoded_items _ _ _ _ _ F1 D1) as [A1 X1]. rewrite E in A. rewrite E1 in A1.
  destruct (decode_known env _ _ items2 r' _ h2 F2 (header_is _ _ _ _ _ _) U2) as (s' & D2 & Hs').
  { rewrite K, E2. unfold of_be16, zlen in *. cbn [length]. rewrite app_length. lia. }
  { intros it I. rewrite E2 in I. destruct I as [<-|I]; [inversion A; eauto|]. apply in_app_or in I as [I|I].
    - inversion A as [|? ? ? ? _ G]; subst. clear - G I. induction G; [destruct I|destruct I as [<-|I]; eauto].
    - inversion A1 as [|? ? ? ? _ G]; subst. clear - G I. induction G; [destruct I|destruct I as [<-|I]; eauto]. }
  exists s'. split; [exact D2|]. unfold joined. rewrite Hh, Hh1, Hs'. cbn [option_map]. rewrite T, T1. split; [reflexivity|]. split; [reflexivity|].
  destruct (decoded_items _ _ _ _ _ F2 D2) as [A2 X2]. rewrite E2 in A2.
  inversion A as [|? t0 ? ts P0 P1 Z1 Z2]; subst. inversion A1 as [|? u0 ? us Q0 Q1 Z3 Z4]; subst. inversion A2 as [|? t0' ? ts' R0 R1 Z5 Z6]; subst.
  apply Forall2_app_left in R1 as (ts1 & us' & -> & R1 & R2). rewrite <- Z2 in X. rewrite <- Z4 in X1. rewrite <- Z6 in X2.
  assert (Q : t0 :: ts = t0' :: ts1).
  { apply numbered_same; [constructor; [eapply decoded_same; eassumption|eapply decoded_all_same; eassumption]|].
    rewrite (indexed (t0 :: ts) 0 X). rewrite (indexed (t0' :: ts1) 0).
    - apply forall2_length in P1, R1. cbn [length]. rewrite <- P1, <- R1. reflexivity.
    - intros i x Hx. apply X2. cbn [Nat.add]. change (t0' :: ts1 ++ us') with ((t0' :: ts1) ++ us'). rewrite nth_error_app1; [exact Hx|]. apply nth_error_Some. intros Q. rewrite Q in Hx. discriminate Hx. }
  injection Q as <- <-. exists t0, u0, ts, us, us'. repeat split; auto.
  - destruct (decoded_same _ _ _ _ P0 Q0) as (? & ? & ? & ? & ?); assumption.
  - destruct (decoded_same _ _ _ _ P0 Q0) as (? & ? & ? & ? & ?); assumption.
  - destruct (decoded_same _ _ _ _ P0 Q0) as (? & ? & ? & ? & ?); assumption.
  - destruct (decoded_same _ _ _ _ P0 Q0) as (? & ? & ? & ? & ?); assumption.
  - destruct (decoded_same _ _ _ _ P0 Q0) as (? & ? & ? & ? & ?); assumption.
  - exact (X 0%nat t0 eq_refl).
  - exact (X1 0%nat u0 eq_refl).
  - eapply decoded_all_same; eassumption.
  - apply Forall_forall. intros t I. apply In_nth_error in I as [i I]. rewrite (X1 (S i) t I). lia.
  - apply Forall_forall. intros t I. apply In_nth_error in I as [i I]. rewrite (X2 (S (length ts + i)) t); [lia|]. cbn [nth_error]. rewrite nth_error_app2 by lia.
    replace (length ts + i - length ts)%nat with i by lia. exact I.
Qed.

(** Notes *)
Lemma tracks_notes_app : forall env steps order tm p ts us,
  tracks_notes env steps order tm p (ts ++ us) = do a <- tracks_notes env steps order tm p ts; do b <- tracks_notes env steps order tm p us; Ok (a ++ b).
Proof.
  intros env steps order tm p ts us. induction ts as [|t ts IH]; cbn [tracks_notes app].
  - cbn [bind]. destruct (tracks_notes env steps order tm p us); reflexivity.
  - rewrite IH. destruct (track_notes env steps order tm p t) as [x| | | |]; cbn [bind]; try reflexivity.
    destruct (tracks_notes env steps order tm p ts) as [y| | | |]; cbn [bind]; try reflexivity.
    destruct (tracks_notes env steps order tm p us) as [z| | | |]; cbn [bind]; try reflexivity. rewrite app_assoc. reflexivity.
Qed.

Lemma tracks_notes_same : forall env steps order tm p ts us, Forall2 same_track ts us -> tracks_notes env steps order tm p us = tracks_notes env steps order tm p ts.
Proof.
  intros env steps order tm p ts us F. induction F as [|t u ts us (_ & _ & _ & E & _) F IH]; [reflexivity|]. cbn [tracks_notes]. rewrite IH. unfold track_notes. rewrite E. reflexivity.
Qed.

Lemma extract_is : forall env steps order s h t0 ts, f_mthd s = Some h -> f_tracks s = t0 :: ts -> extract env steps order s = tracks_notes env steps order (tempo_events (t_events t0)) (h_ppqn h) ts.
Proof. intros env steps order s h t0 ts H E. unfold extract. rewrite E, H. destruct ts; reflexivity. Qed.

Lemma timing_ppqn : forall h h', timing h = timing h' -> h_ppqn h = h_ppqn h' /\ h_format h = h_format h'.
Proof. intros h h' H. unfold timing in H. injection H as A1 A2 A3 A4 A5 A6 A7. auto. Qed.

Theorem joined_notes : forall env steps order s u s' h, joined s u s' -> f_mthd s = Some h ->
  extract env steps order s' = (do a <- extract env steps order s; do b <- extract env steps order u; Ok (a ++ b)).
Proof.
  intros env steps order s u s' h (H & H1 & t0 & u0 & ts & us & us' & E & E1 & E2 & (_ & _ & _ & T & _) & _ & _ & F & _) Hs.
  rewrite Hs in H. destruct (f_mthd s') as [h'|] eqn:Hs'; [|discriminate H]. destruct (f_mthd u) as [hu|] eqn:Hu; [|discriminate H1].
  cbn in H, H1. injection H as H. injection H1 as H1.
  assert (P : h_ppqn h' = h_ppqn h /\ h_ppqn hu = h_ppqn h) by (split; congruence). destruct P as [P P1].
  rewrite (extract_is _ _ _ _ _ _ _ Hs' E2), (extract_is _ _ _ _ _ _ _ Hs E), (extract_is _ _ _ _ _ _ _ Hu E1).
  rewrite P, P1, <- T, tracks_notes_app, (tracks_notes_same _ _ _ _ _ us us' F). reflexivity.
Qed.

(** Transposing *)
Lemma transpose_tracks_app : forall env n ts us, transpose_tracks env n (ts ++ us) = do a <- transpose_tracks env n ts; do b <- transpose_tracks env n us; Ok (a ++ b).
Proof.
  intros env n ts us. induction ts as [|t ts IH]; cbn [transpose_tracks app].
  - cbn [bind]. destruct (transpose_tracks env n us); reflexivity.
  - rewrite IH. destruct (transpose_track env n t) as [x| | | |]; cbn [bind]; try reflexivity.
    destruct (transpose_tracks env n ts) as [y| | | |]; cbn [bind]; try reflexivity.
    destruct (transpose_tracks env n us) as [z| | | |]; reflexivity.
Qed.

Theorem joined_transposed : forall env n s u s' x y, joined s u s' -> transpose_smf env n s = Ok x -> transpose_smf env n u = Ok y ->
  exists x', transpose_smf env n s' = Ok x' /\ joined x y x'.
Proof.
  intros env n s u s' x y (H & H1 & t0 & u0 & ts & us & us' & E & E1 & E2 & (S1 & S2 & S3 & T & C) & N & N1 & F & NF & NF') X Y.
  unfold transpose_smf in *. rewrite E in X. rewrite E1 in Y. rewrite E2. cbn [transpose_tracks] in *. rewrite transpose_tracks_app.
  unfold transpose_track in *. rewrite <- T, <- C in Y. destruct (transpose_events env (t_ctx t0) n (t_events t0)) as [es| | | |]; try discriminate X. cbn [bind] in *.
  fold transpose_track in *.
  destruct (transpose_tracks env n ts) as [xs| | | |] eqn:XS; try discriminate X. destruct (transpose_tracks env n us) as [ys| | | |] eqn:YS; try discriminate Y. cbn [bind] in *.
  apply Ok_inj in X, Y. subst x y. destruct (transposed_same env n us us' F ys YS) as (ys' & -> & G & Q1 & Q2). cbn [bind].
  eexists. split; [reflexivity|]. split; [exact H|]. split; [exact H1|]. do 5 eexists. cbn [f_tracks]. split; [reflexivity|]. split; [reflexivity|]. split; [reflexivity|].
  repeat split; auto; eapply numbers_kept; eassumption.
Qed.

(** Validation *)
Lemma concat_same : forall (f : mtrk -> list verror) us us', (forall t t', t_events t = t_events t' -> later_track (t_number t) = later_track (t_number t') -> map unnumbered (f t) = map unnumbered (f t')) ->
  Forall (fun t => t_number t <> 0) us -> Forall (fun t => t_number t <> 0) us' -> Forall2 same_track us us' ->
  map unnumbered (concat (map f us)) = map unnumbered (concat (map f us')).
Proof.
  intros f us us' H N N' F. induction F as [|t t' us us' (_ & _ & _ & Q & _) F IH]; [reflexivity|]. inversion N; inversion N'; subst. cbn [map concat]. rewrite !map_app. f_equal; [|auto].
  apply H; [exact Q|]. apply later_tracks; assumption.
Qed.

Lemma shuffle : forall A (a1 a2 a3 b1 b2 b3 c1 c2 c3 : list A),
  Permutation (((a1 ++ b1 ++ c1) ++ (a2 ++ b2 ++ c2) ++ a3 ++ b3 ++ c3) ++ a1 ++ a2 ++ a3) ((((a1 ++ b1) ++ (a2 ++ b2) ++ a3 ++ b3)) ++ (a1 ++ c1) ++ (a2 ++ c2) ++ a3 ++ c3).
Proof.
  intros. rewrite <- !app_assoc. apply Permutation_app_head. apply Permutation_app_head.
  assert (M : forall (x y z : list A), Permutation (x ++ y ++ z) (y ++ x ++ z)) by (intros; rewrite !app_assoc; apply Permutation_app_tail, Permutation_app_comm).
  (* c1 a2 b2 c2 a3 b3 c3 a1 a2 a3  ~  a2 b2 a3 b3 a1 c1 a2 c2 a3 c3 *)
  rewrite (M c1 a2 _). apply Permutation_app_head. rewrite (M c1 b2 _). apply Permutation_app_head. rewrite (M c2 a3 _), (M c1 a3 _). apply Permutation_app_head.
  rewrite (M c2 b3 _), (M c1 b3 _). apply Permutation_app_head. rewrite (M c3 a1 _), (M c2 a1 _), (M c1 a1 _). apply Permutation_app_head. apply Permutation_app_head.
  rewrite (M c3 a2 _), (M c2 a2 _). apply Permutation_app_head. apply Permutation_app_head. apply Permutation_app_comm.
Qed.

Lemma validate_is : forall s h t0 ts, f_mthd s = Some h -> f_tracks s = t0 :: ts -> h_format h <> 0 ->
  validate s = Ok ((if h_format h =? 1 then map VTrack0Unexpected (filter (fun e => negb (is_track0_event e)) (t_events t0))
          ++ concat (map (fun t => map (VTrackUnexpected (t_number t)) (filter (fun e => negb (is_track1_event e)) (t_events t))) ts) else []) ++
     concat (map validate_eot (t0 :: ts)) ++ concat (map (fun t => bank_scan (t_number t) 0 None (t_events t)) (t0 :: ts))).
Proof.
  intros s h t0 ts H E N. unfold validate, validate_format1. rewrite H, E. destruct (Z.eqb_spec (h_format h) 0); [contradiction|]. destruct (h_format h =? 1); reflexivity.
Qed.

Theorem joined_validated : forall s u s' h, joined s u s' -> f_mthd s = Some h -> h_format h <> 0 ->
  exists es eu es' e0, validate s = Ok es /\ validate u = Ok eu /\ validate s' = Ok es' /\ validate (first_track s) = Ok e0 /\
    Permutation (map unnumbered (es' ++ e0)) (map unnumbered (es ++ eu)).
Proof.
  intros s u s' h (H & H1 & t0 & u0 & ts & us & us' & E & E1 & E2 & (_ & _ & _ & T & _) & N & N1 & F & NF & NF') Hs FM.
  rewrite Hs in H. destruct (f_mthd s') as [h'|] eqn:Hs'; [|discriminate H]. destruct (f_mthd u) as [hu|] eqn:Hu; [|discriminate H1].
  cbn in H, H1. injection H as H. injection H1 as H1.
  assert (P : h_format h' = h_format h /\ h_format hu = h_format h) by (split; congruence). destruct P as [P P1].
  assert (X0 : f_tracks (first_track s) = [t0]) by (unfold first_track; rewrite E; reflexivity).
  do 4 eexists. split; [apply (validate_is s h t0 ts Hs E FM)|]. split; [apply (validate_is u hu u0 us Hu E1); congruence|].
  split; [apply (validate_is s' h' t0 (ts ++ us') Hs' E2); congruence|]. split; [apply (validate_is (first_track s) h t0 [] Hs X0 FM)|].
  rewrite P, P1. set (v0 := map VTrack0Unexpected (filter (fun e => negb (is_track0_event e)) (t_events t0))).
  rewrite <- T. fold v0.
  set (f1 := fun t => map (VTrackUnexpected (t_number t)) (filter (fun e => negb (is_track1_event e)) (t_events t))).
  set (f3 := fun t => bank_scan (t_number t) 0 None (t_events t)).
  assert (Z0 : later_track (t_number t0) = later_track (t_number u0)) by (rewrite N, N1; reflexivity).
  assert (A1 : map unnumbered (concat (map f1 us)) = map unnumbered (concat (map f1 us'))).
  { apply concat_same; auto. intros t t' Q1 Q2. unfold f1. rewrite <- Q1, !map_map. cbn [unnumbered]. rewrite Q2. reflexivity. }
  assert (A2 : map unnumbered (concat (map validate_eot us)) = map unnumbered (concat (map validate_eot us'))) by (apply concat_same; auto using eot_unnumbered).
  assert (A3 : map unnumbered (concat (map f3 us)) = map unnumbered (concat (map f3 us'))).
  { apply concat_same; auto. intros t t' Q1 Q2. unfold f3. rewrite <- Q1. apply bank_unnumbered, Q2. }
  assert (B2 : map unnumbered (validate_eot u0) = map unnumbered (validate_eot t0)) by (symmetry; apply eot_unnumbered; auto).
  assert (B3 : map unnumbered (f3 u0) = map unnumbered (f3 t0)) by (unfold f3; rewrite <- T; symmetry; apply bank_unnumbered; auto).
  cbn [map concat]. rewrite !map_app, !concat_app. destruct (h_format h =? 1); rewrite ?map_app, ?concat_app, ?map_app; cbn [map app concat]; rewrite ?app_nil_r, <- ?A1, <- ?A2, <- ?A3, ?B2, ?B3.
  - apply shuffle.
  - apply (shuffle _ [] _ _ [] _ _ [] _ _).
Qed.
