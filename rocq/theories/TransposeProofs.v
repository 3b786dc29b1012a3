(** * TransposeProofs: proofs about transposition and the scale tables. *)
From Verif Require Import Base Strings Tables Vlq Event Marshal Parse Track File SpecKey SpecTranspose Transpose.

Lemma wrap64_id : forall x, -9223372036854775808 <= x < 9223372036854775808 -> wrap64 x = x.
Proof. intros x H. unfold wrap64. rewrite Z.mod_small by lia. lia. Qed.

Lemma transpose_value_limited : forall v n, 0 <= v < 256 -> reasonable n -> transpose_value v n = limited (v + n).
Proof.
  intros v n Hv Hn. unfold transpose_value, limited, reasonable in *.
  assert (E : wrap64 (v + n) = v + n \/ v + n < 0 /\ wrap64 (v + n) < 0) by (left; apply wrap64_id; lia).
  destruct E as [->|[E1 E2]]; repeat match goal with |- context [?a <? ?b] => destruct (Z.ltb_spec a b) end; lia.
Qed.

Lemma up_loop_mod : forall fuel ix, - Z.of_nat fuel <= ix -> exists y, up_loop fuel ix = Ok y /\ 0 <= y /\ y mod 12 = ix mod 12.
Proof.
  induction fuel as [|f IH]; intros ix H; cbn [up_loop].
  - destruct (Z.ltb_spec ix 0); [lia|]. exists ix. auto.
  - destruct (Z.ltb_spec ix 0).
    + destruct (IH (ix + 12)) as (y & E & Hy & M); [lia|]. exists y. rewrite E. split; [reflexivity|]. split; [exact Hy|]. rewrite M.
      replace (ix + 12) with (ix + 1 * 12) by lia. apply Z_mod_plus_full.
    + exists ix. auto.
Qed.

Definition class_pitch (c : Z) : pitch := nth (Z.to_nat c) SCALE n_C.

Lemma range12 : forall (P : Z -> Prop), (forall k, In k [0;1;2;3;4;5;6;7;8;9;10;11] -> P k) -> forall c, 0 <= c < 12 -> P c.
Proof.
  intros P H c Hc. apply H.
  assert (c = 0 \/ c = 1 \/ c = 2 \/ c = 3 \/ c = 4 \/ c = 5 \/ c = 6 \/ c = 7 \/ c = 8 \/ c = 9 \/ c = 10 \/ c = 11) by lia.
  cbn [In]. intuition auto.
Qed.

Lemma class_index : forall c, 0 <= c < 12 -> scale_index SCALE 0 c = Some c.
Proof. apply range12. intros k H. cbn [In] in H. repeat (destruct H as [<-|H]; [reflexivity|]). destruct H. Qed.

Lemma class_nth : forall c, 0 <= c < 12 -> nth_error SCALE (Z.to_nat c) = Some (class_pitch c).
Proof. apply range12. intros k H. cbn [In] in H. repeat (destruct H as [<-|H]; [reflexivity|]). destruct H. Qed.

Lemma class_ord : forall c, 0 <= c < 12 -> p_ord (class_pitch c) = c.
Proof. apply range12. intros k H. cbn [In] in H. repeat (destruct H as [<-|H]; [reflexivity|]). destruct H. Qed.

Lemma transpose_pitch_mod : forall p n, 0 <= p_ord p < 12 -> reasonable n ->
  transpose_pitch p n = Ok (class_pitch ((p_ord p + n) mod 12)).
Proof.
  intros p n Hp Hn. unfold transpose_pitch, reasonable in *. rewrite class_index by assumption. rewrite wrap64_id by lia.
  destruct (up_loop_mod (Z.to_nat (- (p_ord p + n))) (p_ord p + n)) as (y & -> & Hy & M); [lia|]. cbn [bind].
  change (zlen SCALE) with 12. rewrite M. rewrite class_nth by (apply Z.mod_pos_bound; lia). reflexivity.
Qed.

Lemma transpose_pitches_mod : forall l n, Forall (fun p => 0 <= p_ord p < 12) l -> reasonable n ->
  transpose_pitches l n = Ok (map (fun p => class_pitch ((p_ord p + n) mod 12)) l).
Proof.
  induction l as [|p l IH]; intros n F Hn; [reflexivity|]. inversion F; subst. cbn [transpose_pitches map].
  rewrite transpose_pitch_mod by assumption. cbn [bind]. rewrite IH by assumption. reflexivity.
Qed.

Lemma transpose_small : forall l n, Forall (fun p => 0 <= p_ord p < 12) l -> reasonable n ->
  transpose_pitches l n = transpose_pitches l (n mod 12).
Proof.
  intros l n F Hn. assert (0 <= n mod 12 < 12) by (apply Z.mod_pos_bound; lia).
  rewrite !transpose_pitches_mod; [|assumption|unfold reasonable; lia|assumption|assumption].
  f_equal. apply map_ext. intro p. f_equal. rewrite <- (Zplus_mod_idemp_r n). reflexivity.
Qed.

Lemma scale_ords : Forall (fun s => Forall (fun p => 0 <= p_ord p < 12) (s_notes s)) (MAJOR_SCALES ++ MINOR_SCALES).
Proof. repeat (constructor; [repeat (constructor; [cbn; lia|]); constructor|]). constructor. Qed.

(** The scale of a key is in the tables. *)
Lemma key_scale_in : forall acc kt s, key_scale acc kt = Ok s ->
  In s (MAJOR_SCALES ++ MINOR_SCALES) /\ s_acc s = acc /\ s_type s = kt /\ (kt = 0 \/ kt = 1).
Proof.
  assert (T : Forall (fun s => s_type s = 0) MAJOR_SCALES /\ Forall (fun s => s_type s = 1) MINOR_SCALES)
    by (split; repeat (constructor; [reflexivity|]); constructor).
  destruct T as [T0 T1]. rewrite Forall_forall in T0, T1.
  intros acc kt s H. unfold key_scale in H. destruct (Z.eqb_spec kt 0) as [->|N0].
  - unfold major_scale in H. destruct (find _ _) as [x|] eqn:F; [|discriminate]. apply Ok_inj in H. subst x. apply find_some in F as [F1 F2].
    apply Z.eqb_eq in F2. split; [apply in_or_app; auto|]. split; [exact F2|]. split; [apply T0, F1|auto].
  - destruct (Z.eqb_spec kt 1) as [->|N1]; [|discriminate].
    unfold minor_scale in H. destruct (find _ _) as [x|] eqn:F; [|discriminate]. apply Ok_inj in H. subst x. apply find_some in F as [F1 F2].
    apply Z.eqb_eq in F2. split; [apply in_or_app; auto|]. split; [exact F2|]. split; [apply T1, F1|auto].
Qed.

Lemma scale_transpose_mod : forall s n, In s (MAJOR_SCALES ++ MINOR_SCALES) -> reasonable n ->
  scale_transpose s n = scale_transpose s (n mod 12).
Proof.
  intros s n I Hn. unfold scale_transpose. rewrite transpose_small; [reflexivity| |assumption].
  pose proof scale_ords as F. rewrite Forall_forall in F. apply F, I.
Qed.

(** All keys and all steps modulo 12, by computation. *)
Definition check_key (minor : bool) (acc n : Z) : bool :=
  match key_scale acc (if minor then 1 else 0) with
  | Ok s =>
      match scale_transpose s n with
      | Ok t => (-7 <=? s_acc t) && (s_acc t <=? 7) && (tonic_class minor (s_acc t) =? (tonic_class minor acc + n) mod 12)
                && bytes_eqb (s_name t) (key_name minor (s_acc t))
      | _ => false
      end
  | _ => false
  end.

Definition all_accs : list Z := [-7; -6; -5; -4; -3; -2; -1; 0; 1; 2; 3; 4; 5; 6; 7].

Lemma all_accs_in : forall acc, key_range acc -> In acc all_accs.
Proof.
  intros acc H. unfold key_range in H.
  assert (acc = -7 \/ acc = -6 \/ acc = -5 \/ acc = -4 \/ acc = -3 \/ acc = -2 \/ acc = -1 \/ acc = 0 \/ acc = 1 \/ acc = 2 \/ acc = 3
          \/ acc = 4 \/ acc = 5 \/ acc = 6 \/ acc = 7) by lia.
  unfold all_accs. cbn [In]. intuition auto.
Qed.

Lemma checked_keys : forallb (fun minor => forallb (fun acc => forallb (check_key minor acc) [0;1;2;3;4;5;6;7;8;9;10;11]) all_accs) [true; false] = true.
Proof. vm_compute. reflexivity. Qed.

Lemma key_transposes : forall (minor : bool) acc n, key_range acc -> reasonable n ->
  exists s t, key_scale acc (if minor then 1 else 0) = Ok s /\ scale_transpose s n = Ok t /\
    key_range (s_acc t) /\ tonic_class minor (s_acc t) = (tonic_class minor acc + n) mod 12 /\ s_name t = key_name minor (s_acc t).
Proof.
  intros minor acc n Ha Hn. pose proof checked_keys as C. rewrite forallb_forall in C.
  specialize (C minor ltac:(destruct minor; cbn [In]; auto)). rewrite forallb_forall in C. specialize (C acc (all_accs_in _ Ha)).
  rewrite forallb_forall in C. assert (Hm : 0 <= n mod 12 < 12) by (apply Z.mod_pos_bound; lia).
  assert (I : In (n mod 12) [0;1;2;3;4;5;6;7;8;9;10;11]) by (revert Hm; generalize (n mod 12); apply range12; auto).
  specialize (C _ I). unfold check_key in C. destruct (key_scale _ _) as [s| | | |] eqn:K; try discriminate.
  destruct (key_scale_in _ _ _ K) as (IS & _). destruct (scale_transpose s (n mod 12)) as [t| | | |] eqn:T; try discriminate.
  exists s, t. split; [reflexivity|]. rewrite scale_transpose_mod by assumption. split; [exact T|].
  apply andb_true_iff in C as [C C4]. apply andb_true_iff in C as [C C3]. apply andb_true_iff in C as [C1 C2].
  apply bytes_eqb_eq in C4. unfold key_range. split; [lia|]. split; [|exact C4]. apply Z.eqb_eq in C3. rewrite C3. apply Zplus_mod_idemp_r.
Qed.

(** ** Events and files *)

Definition note_bytes (e : event) : Prop :=
  match e_body e with NoteOn _ n _ | NoteOff _ n _ => 0 <= n_value n < 256 | _ => True end.

Lemma transpose_event_moved : forall env c n e e' c', note_bytes e -> reasonable n ->
  transpose_event env c n e = Ok (e', c') -> moved n e e'.
Proof.
  intros env c n e e' c' Hb Hn H. unfold transpose_event, note_bytes in *. destruct e as [tick delta bs st ty b]. cbn [e_body e_tick e_delta] in *.
  destruct b; try (apply Ok_inj, pair_equal_spec in H as [<- _]; apply mv_same; exact I).
  - destruct c as [c0|]; [|discriminate]. apply Ok_inj, pair_equal_spec in H as [<- _]. apply mv_off. apply transpose_value_limited; assumption.
  - destruct c as [c0|]; [|discriminate]. apply Ok_inj, pair_equal_spec in H as [<- _]. apply mv_on. apply transpose_value_limited; assumption.
  - destruct (key_scale accidentals keytype) as [s| | | |] eqn:K; try discriminate. cbn [bind] in H.
    destruct (scale_transpose s n) as [t| | | |] eqn:T; try discriminate. cbn [bind] in H. destruct c as [c0|]; [|discriminate].
    apply Ok_inj, pair_equal_spec in H as [<- _]. destruct (key_scale_in _ _ _ K) as (IS & IA & IT & KT).
    assert (KR : key_range accidentals).
    { rewrite <- IA. assert (F : Forall (fun s => key_range (s_acc s)) (MAJOR_SCALES ++ MINOR_SCALES))
        by (unfold key_range; repeat (constructor; [cbn; lia|]); constructor). rewrite Forall_forall in F. apply F, IS. }
    assert (exists minor : bool, keytype = if minor then 1 else 0) as [minor Hk] by (destruct KT as [-> | ->]; [exists false|exists true]; reflexivity).
    destruct (key_transposes minor accidentals n KR Hn) as (s' & t' & K' & T' & R & TC & N). rewrite <- Hk in K'.
    rewrite K in K'. apply Ok_inj in K'. subst s'. rewrite T in T'. apply Ok_inj in T'. subst t'. rewrite N.
    apply mv_key with (minor := minor); assumption.
Qed.

Lemma transpose_events_moved : forall env n es c es', Forall note_bytes es -> reasonable n ->
  transpose_events env c n es = Ok es' -> Forall2 (moved n) es es'.
Proof.
  intros env n. induction es as [|e es IH]; intros c es' F Hn H; cbn [transpose_events] in H.
  - apply Ok_inj in H. subst. constructor.
  - inversion F; subst. destruct (transpose_event env c n e) as [[e' c']| | | |] eqn:E; try discriminate. cbn [bind] in H.
    destruct (transpose_events env c' n es) as [r| | | |] eqn:R; try discriminate. cbn [bind] in H. apply Ok_inj in H. subst es'.
    constructor; [eapply transpose_event_moved; eassumption|]. eapply IH; eassumption.
Qed.

Theorem transpose_file : forall env n s s', Forall (fun t => Forall note_bytes (t_events t)) (f_tracks s) -> reasonable n ->
  transpose_smf env n s = Ok s' -> moved_file n s s'.
Proof.
  intros env n s s' F Hn H. unfold transpose_smf in H. destruct (transpose_tracks env n (f_tracks s)) as [ts| | | |] eqn:T; try discriminate.
  cbn [bind] in H. apply Ok_inj in H. subst s'. split; [reflexivity|]. cbn [f_tracks]. revert ts T F. generalize (f_tracks s) as l.
  induction l as [|t l IH]; intros ts T F; cbn [transpose_tracks] in T.
  - apply Ok_inj in T. subst. constructor.
  - inversion F; subst. destruct (transpose_track env n t) as [t'| | | |] eqn:E; try discriminate. cbn [bind] in T.
    destruct (transpose_tracks env n l) as [r| | | |] eqn:R; try discriminate. cbn [bind] in T. apply Ok_inj in T. subst ts.
    constructor; [|apply IH; [reflexivity|assumption]]. unfold transpose_track in E.
    destruct (transpose_events env (t_ctx t) n (t_events t)) as [es| | | |] eqn:V; try discriminate. cbn [bind] in E. apply Ok_inj in E. subst t'.
    split; [reflexivity|]. split; [reflexivity|]. eapply transpose_events_moved; eassumption.
Qed.

(** ** No panic with a context and proper keys *)

Definition proper_key (e : event) : Prop :=
  match e_body e with KeySignature acc kt _ => key_range acc /\ (kt = 0 \/ kt = 1) | _ => True end.

Lemma transpose_events_total : forall env n es c, Forall proper_key es -> reasonable n ->
  exists es', transpose_events env (Some c) n es = Ok es'.
Proof.
  intros env n. induction es as [|e es IH]; intros c F Hn; cbn [transpose_events]; [eauto|]. inversion F as [|? ? K F']; subst.
  assert (E : exists e' c', transpose_event env (Some c) n e = Ok (e', Some c')).
  { unfold transpose_event, proper_key in *. destruct (e_body e); eauto. destruct K as [K1 K2].
    assert (exists minor : bool, keytype = if minor then 1 else 0) as [minor ->] by (destruct K2 as [-> | ->]; [exists false|exists true]; reflexivity).
    destruct (key_transposes minor accidentals n K1 Hn) as (s & t & -> & Ht & _). cbn [bind]. rewrite Ht. cbn [bind]. eauto. }
  destruct E as (e' & c' & ->). cbn [bind]. destruct (IH c' F' Hn) as [r ->]. cbn [bind]. eauto.
Qed.

Lemma transpose_total : forall env n s, Forall (fun t => t_ctx t <> None /\ Forall proper_key (t_events t)) (f_tracks s) -> reasonable n ->
  exists s', transpose_smf env n s = Ok s'.
Proof.
  intros env n s F Hn. unfold transpose_smf.
  assert (T : forall l, Forall (fun t => t_ctx t <> None /\ Forall proper_key (t_events t)) l -> exists ts, transpose_tracks env n l = Ok ts).
  { induction l as [|t l IH]; intro G; cbn [transpose_tracks]; [eauto|]. inversion G as [|? ? [C K] G']; subst. unfold transpose_track.
    destruct (t_ctx t) as [c|]; [|congruence]. destruct (transpose_events_total env n (t_events t) c K Hn) as [es ->]. cbn [bind].
    destruct (IH G') as [ts ->]. cbn [bind]. eauto. }
  destruct (T _ F) as [ts ->]. cbn [bind]. eauto.
Qed.
