(** * ValidateProofs: the reports of [Validate] are exactly the ones due. *)
From Verif Require Import Base Strings Tables Event Track File Validate SpecValidate.

Lemma track0_event : forall e, is_track0_event e = true <-> tempo_map_event (e_body e).
Proof.
  intro e. unfold is_track0_event, tempo_map_event. destruct (e_body e); try (destruct k); split; intro H; try discriminate; try reflexivity;
  try (exfalso; decompose [or ex] H; discriminate); eauto 20.
Qed.

Lemma track1_event : forall e, is_track1_event e = false <-> tempo_only_event (e_body e).
Proof.
  intro e. unfold is_track1_event, tempo_only_event. destruct (e_body e); split; intro H; try discriminate; try reflexivity;
  try (exfalso; decompose [or ex] H; discriminate); eauto 20.
Qed.

Lemma eot_event : forall e, is_eot e = true <-> e_body e = EndOfTrack.
Proof. intro e. unfold is_eot. destruct (e_body e); split; congruence. Qed.

Lemma eot_scan_spec : forall es track n i errs found, eot_scan track n i es = (errs, found) ->
  (found = true <-> exists k e, nth_error es k = Some e /\ e_body e = EndOfTrack) /\
  (forall v, In v errs <-> exists k e, nth_error es k = Some e /\ e_body e = EndOfTrack /\ i + Z.of_nat k + 1 <> n /\
     v = VEotNotLast track (i + Z.of_nat k + 1) e).
Proof.
  induction es as [|e es IH]; intros track n i errs found H; cbn [eot_scan] in H.
  - apply pair_equal_spec in H as [<- <-]. split.
    + split; [discriminate|]. intros (k & e & H & _). destruct k; discriminate.
    + intro v. split; [contradiction|]. intros (k & e & H & _). destruct k; discriminate.
  - destruct (eot_scan track n (i + 1) es) as [errs' found'] eqn:E. destruct (IH _ _ _ _ _ E) as [IH1 IH2].
    assert (S1 : forall v, In v errs' <-> exists k e0, nth_error (e :: es) (S k) = Some e0 /\ e_body e0 = EndOfTrack /\ i + Z.of_nat (S k) + 1 <> n /\
       v = VEotNotLast track (i + Z.of_nat (S k) + 1) e0).
    { intro v. rewrite IH2. split; intros (k & e0 & H1 & H2 & H3 & H4); exists k, e0; cbn [nth_error] in *;
      (replace (i + Z.of_nat (S k) + 1) with (i + 1 + Z.of_nat k + 1) in * by lia); auto. }
    destruct (is_eot e) eqn:T.
    + apply pair_equal_spec in H as [<- <-]. pose proof (proj1 (eot_event e) T) as T'. split.
      * split; [|reflexivity]. intros _. exists 0%nat, e. auto.
      * intro v. rewrite in_app_iff, S1. split.
        -- intros [H|(k & e0 & H)]; [|exists (S k), e0; exact H]. destruct (Z.eqb_spec (i + 1) n); [contradiction|].
           destruct H as [<-|[]]. exists 0%nat, e. cbn [nth_error]. replace (i + Z.of_nat 0 + 1) with (i + 1) by lia. auto.
        -- intros (k & e0 & H1 & H2 & H3 & H4). destruct k as [|k]; [|right; exists k, e0; auto]. left.
           cbn [nth_error] in H1. injection H1 as <-. replace (i + Z.of_nat 0 + 1) with (i + 1) in * by lia.
           destruct (Z.eqb_spec (i + 1) n); [contradiction|]. left. auto.
    + apply pair_equal_spec in H as [<- <-].
      assert (T' : e_body e <> EndOfTrack) by (intro X; apply eot_event in X; congruence). split.
      * rewrite IH1. split; intros (k & e0 & H1 & H2); [exists (S k), e0; auto|]. destruct k as [|k]; [cbn in H1; congruence|]. eauto.
      * intro v. rewrite S1. split; [intros (k & e0 & H); eauto|]. intros (k & e0 & H1 & H2 & H3).
        destruct k as [|k]; [cbn in H1; congruence|]. eauto 6.
Qed.

Lemma validate_eot_spec : forall t v, In v (validate_eot t) <->
  (exists i e, nth_error (t_events t) i = Some e /\ e_body e = EndOfTrack /\ (S i < length (t_events t))%nat /\
     v = VEotNotLast (t_number t) (Z.of_nat i + 1) e) \/
  (forall i, ~ at_event t i EndOfTrack) /\ v = VEotMissing (t_number t).
Proof.
  intros t v. unfold validate_eot. destruct (eot_scan _ _ _ _) as [errs found] eqn:E. destruct (eot_scan_spec _ _ _ _ _ _ E) as [F S].
  rewrite in_app_iff, S. split.
  - intros [(k & e & H1 & H2 & H3 & H4)|H].
    + left. exists k, e. repeat split; auto. assert (k < length (t_events t))%nat by (apply nth_error_Some; congruence).
      unfold zlen in H3. lia.
    + right. destruct found; [contradiction|]. destruct H as [<-|[]]. split; [|reflexivity].
      intros i (e & H1 & H2). assert (false = true) by (apply F; eauto). discriminate.
  - intros [(k & e & H1 & H2 & H3 & H4)|[H1 ->]].
    + left. exists k, e. repeat split; auto. unfold zlen. lia.
    + right. destruct found; [|left; reflexivity]. exfalso. destruct (proj1 F eq_refl) as (k & e & X & Y). apply (H1 k). exists e. auto.
Qed.

(** ** Bank select *)

Definition msb_of (c : option (Z * Z)) : option Z := match c with Some (ch, id) => if id =? 0 then Some ch else None | None => None end.
Definition lsb_of (c : option (Z * Z)) : option Z := match c with Some (ch, id) => if id =? 32 then Some ch else None | None => None end.

Lemma bank_check_eq : forall track i c0 c1, bank_check track i c0 c1 =
  (match msb_of c0, lsb_of c1 with
   | Some _, None => [VMsbMissingLsb track i]
   | None, Some _ => [VLsbMissingMsb track (i + 1)]
   | Some ch0, Some ch1 => if ch0 =? ch1 then [] else [VMsbOtherChannel track i; VLsbOtherChannel track (i + 1)]
   | None, None => []
   end).
Proof.
  assert (M : forall A ch id (x y : A), match id with 0 => x | _ => y end = match msb_of (Some (ch, id)) with Some _ => x | None => y end).
  { intros A ch [|p|p] x y; reflexivity. }
  assert (L : forall A ch id (x y : A), match id with 32 => x | _ => y end = match lsb_of (Some (ch, id)) with Some _ => x | None => y end).
  { intros A ch [|p|p] x y; try reflexivity. unfold lsb_of. destruct (Z.eqb_spec (Z.pos p) 32) as [E|E]; [injection E as ->; reflexivity|].
    do 6 (destruct p as [p|p|]; try reflexivity). congruence. }
  intros track i [[ch0 id0]|] [[ch1 id1]|]; unfold bank_check.
  - rewrite !(M _ ch0), !(L _ ch1). destruct (msb_of (Some (ch0, id0))) eqn:E0; destruct (lsb_of (Some (ch1, id1))) eqn:E1; cbn [app]; try reflexivity.
    unfold msb_of, lsb_of in *. destruct (id0 =? 0); [|discriminate]. destruct (id1 =? 32); [|discriminate]. injection E0 as <-. injection E1 as <-.
    destruct (ch0 =? ch1); reflexivity.
  - rewrite !(M _ ch0). destruct (msb_of _); reflexivity.
  - rewrite !(L _ ch1). destruct (lsb_of _); reflexivity.
  - reflexivity.
Qed.

Lemma bank_scan_spec : forall es track i last v, In v (bank_scan track i last es) <->
  exists k e, nth_error es k = Some e /\
    In v (bank_check track (i + Z.of_nat k)
            (match k with O => last | S j => match nth_error es j with Some e' => as_controller (e_body e') | None => None end end)
            (as_controller (e_body e))).
Proof.
  induction es as [|e es IH]; intros track i last v; cbn [bank_scan].
  - split; [contradiction|]. intros (k & e & H & _). destruct k; discriminate.
  - rewrite in_app_iff, IH. split.
    + intros [H|(k & e' & H1 & H2)].
      * exists 0%nat, e. split; [reflexivity|]. rewrite Z.add_0_r. exact H.
      * exists (S k), e'. split; [exact H1|]. replace (i + Z.of_nat (S k)) with (i + 1 + Z.of_nat k) by lia.
        destruct k; exact H2.
    + intros (k & e' & H1 & H2). destruct k as [|k].
      * left. cbn [nth_error] in H1. injection H1 as <-. rewrite Z.add_0_r in H2. exact H2.
      * right. exists k, e'. split; [exact H1|]. replace (i + Z.of_nat (S k)) with (i + 1 + Z.of_nat k) in H2 by lia.
        destruct k; exact H2.
Qed.

Lemma msb_at : forall t i e ch, nth_error (t_events t) i = Some e -> (msb_of (as_controller (e_body e)) = Some ch <-> bank_msb t i ch).
Proof.
  intros t i e ch H. unfold bank_msb, at_event. rewrite H. split.
  - intro M. destruct (e_body e) eqn:B; try discriminate. cbn [as_controller msb_of] in M. destruct (Z.eqb_spec (c_id c) 0); [|discriminate].
    injection M as <-. eauto 6.
  - intros (c & v & (e' & H1 & H2) & H3). injection H1 as <-. rewrite H2. cbn [as_controller msb_of]. rewrite H3. reflexivity.
Qed.

Lemma lsb_at : forall t i e ch, nth_error (t_events t) i = Some e -> (lsb_of (as_controller (e_body e)) = Some ch <-> bank_lsb t i ch).
Proof.
  intros t i e ch H. unfold bank_lsb, at_event. rewrite H. split.
  - intro M. destruct (e_body e) eqn:B; try discriminate. cbn [as_controller lsb_of] in M. destruct (Z.eqb_spec (c_id c) 32); [|discriminate].
    injection M as <-. eauto 6.
  - intros (c & v & (e' & H1 & H2) & H3). injection H1 as <-. rewrite H2. cbn [as_controller lsb_of]. rewrite H3. reflexivity.
Qed.

Lemma at_lt : forall A (l : list A) i x, nth_error l i = Some x -> (i < length l)%nat.
Proof. intros A l i x H. apply nth_error_Some. congruence. Qed.

Lemma msb_lt : forall t i ch, bank_msb t i ch -> exists e, nth_error (t_events t) i = Some e.
Proof. intros t i ch (c & v & (e & H & _) & _). eauto. Qed.
Lemma lsb_lt : forall t i ch, bank_lsb t i ch -> exists e, nth_error (t_events t) i = Some e.
Proof. intros t i ch (c & v & (e & H & _) & _). eauto. Qed.

Lemma validate_bank_spec : forall t v, In v (bank_scan (t_number t) 0 None (t_events t)) <->
  (exists i ch, bank_msb t i ch /\ (S i < length (t_events t))%nat /\ (forall ch', ~ bank_lsb t (S i) ch') /\
     v = VMsbMissingLsb (t_number t) (Z.of_nat i + 1)) \/
  (exists i ch, bank_lsb t i ch /\ (forall j ch', i = S j -> ~ bank_msb t j ch') /\ v = VLsbMissingMsb (t_number t) (Z.of_nat i + 1)) \/
  (exists i ch ch', bank_msb t i ch /\ bank_lsb t (S i) ch' /\ ch <> ch' /\
     (v = VMsbOtherChannel (t_number t) (Z.of_nat i + 1) \/ v = VLsbOtherChannel (t_number t) (Z.of_nat i + 2))).
Proof.
  intros t v. rewrite bank_scan_spec. split.
  - intros (k & e & H1 & H2). rewrite bank_check_eq in H2. pose proof (at_lt _ _ _ _ H1) as Hk. destruct k as [|k].
    + cbn [msb_of] in H2. destruct (lsb_of _) as [ch|] eqn:L; [|contradiction]. destruct H2 as [<-|[]].
      right. left. exists 0%nat, ch. split; [exact (proj1 (lsb_at _ _ _ _ H1) L)|]. split; [discriminate|reflexivity].
    + destruct (nth_error (t_events t) k) as [e0|] eqn:H0; [|apply nth_error_None in H0; lia].
      replace (0 + Z.of_nat (S k)) with (Z.of_nat k + 1) in H2 by lia.
      destruct (msb_of _) as [ch0|] eqn:M; destruct (lsb_of _) as [ch1|] eqn:L.
      * pose proof (proj1 (msb_at _ _ _ _ H0) M). pose proof (proj1 (lsb_at _ _ _ _ H1) L).
        destruct (Z.eqb_spec ch0 ch1); [contradiction|]. right. right. exists k, ch0, ch1. repeat split; auto.
        destruct H2 as [<-|[<-|[]]]; [left; reflexivity|]. right. f_equal. lia.
      * destruct H2 as [<-|[]]. left. exists k, ch0. split; [exact (proj1 (msb_at _ _ _ _ H0) M)|]. split; [exact Hk|]. split; [|reflexivity].
        intros ch' X. apply (lsb_at _ _ _ _ H1) in X. congruence.
      * destruct H2 as [<-|[]]. right. left. exists (S k), ch1. split; [exact (proj1 (lsb_at _ _ _ _ H1) L)|]. split; [|f_equal; lia].
        intros j ch' [= <-] X. apply (msb_at _ _ _ _ H0) in X. congruence.
      * contradiction.
  - assert (P : forall k e0 e, nth_error (t_events t) k = Some e0 -> nth_error (t_events t) (S k) = Some e ->
       In v (match msb_of (as_controller (e_body e0)), lsb_of (as_controller (e_body e)) with
             | Some _, None => [VMsbMissingLsb (t_number t) (Z.of_nat k + 1)]
             | None, Some _ => [VLsbMissingMsb (t_number t) (Z.of_nat k + 2)]
             | Some ch0, Some ch1 => if ch0 =? ch1 then [] else [VMsbOtherChannel (t_number t) (Z.of_nat k + 1); VLsbOtherChannel (t_number t) (Z.of_nat k + 2)]
             | None, None => [] end) ->
       exists k e, nth_error (t_events t) k = Some e /\ In v (bank_check (t_number t) (0 + Z.of_nat k)
            (match k with O => None | S j => match nth_error (t_events t) j with Some e' => as_controller (e_body e') | None => None end end)
            (as_controller (e_body e)))).
    { intros k e0 e H0 H1 H. exists (S k), e. split; [exact H1|]. rewrite bank_check_eq, H0.
      replace (0 + Z.of_nat (S k)) with (Z.of_nat k + 1) by lia. replace (Z.of_nat k + 1 + 1) with (Z.of_nat k + 2) by lia. exact H. }
    intros [(i & ch & H1 & H2 & H3 & ->) | [(i & ch & H1 & H2 & ->) | (i & ch & ch' & H1 & H2 & H3 & H4)]].
    + destruct (msb_lt _ _ _ H1) as [e0 E0]. destruct (nth_error (t_events t) (S i)) as [e|] eqn:E1; [|apply nth_error_None in E1; lia].
      apply (P i e0 e E0 E1). rewrite (proj2 (msb_at _ _ _ _ E0) H1). destruct (lsb_of _) as [ch'|] eqn:L; [|left; reflexivity].
      exfalso. exact (H3 ch' (proj1 (lsb_at _ _ _ _ E1) L)).
    + destruct (lsb_lt _ _ _ H1) as [e E]. destruct i as [|i].
      * exists 0%nat, e. split; [exact E|]. rewrite bank_check_eq, (proj2 (lsb_at _ _ _ _ E) H1). cbn [msb_of]. left. reflexivity.
      * destruct (nth_error (t_events t) i) as [e0|] eqn:E0; [|apply nth_error_None in E0; apply at_lt in E; lia].
        apply (P i e0 e E0 E). rewrite (proj2 (lsb_at _ _ _ _ E) H1). destruct (msb_of _) as [ch'|] eqn:M.
        -- exfalso. exact (H2 i ch' eq_refl (proj1 (msb_at _ _ _ _ E0) M)).
        -- left. f_equal. lia.
    + destruct (msb_lt _ _ _ H1) as [e0 E0]. destruct (lsb_lt _ _ _ H2) as [e E]. apply (P i e0 e E0 E).
      rewrite (proj2 (msb_at _ _ _ _ E0) H1), (proj2 (lsb_at _ _ _ _ E) H2). destruct (Z.eqb_spec ch ch'); [contradiction|].
      destruct H4 as [-> | ->]; [left|right; left]; reflexivity.
Qed.

(** ** All reports *)

Lemma in_map_concat : forall A B (f : A -> list B) (l : list A) v, In v (concat (map f l)) <-> exists x, In x l /\ In v (f x).
Proof.
  intros A B f l v. rewrite in_concat. split.
  - intros (x & H1 & H2). apply in_map_iff in H1 as (y & <- & H1). eauto.
  - intros (x & H1 & H2). exists (f x). split; [apply in_map; assumption|assumption].
Qed.

Theorem reports_due : forall s h errs, f_mthd s = Some h -> validate s = Ok errs ->
  forall v, In v errs <-> due h (f_tracks s) v.
Proof.
  intros s h errs Hh H v. unfold validate in H. rewrite Hh in H.
  assert (F1 : forall e1, (if h_format h =? 1 then validate_format1 s else Ok []) = Ok e1 ->
    (In v e1 <-> (exists t e, h_format h = 1 /\ nth_error (f_tracks s) 0 = Some t /\ In e (t_events t) /\ ~ tempo_map_event (e_body e) /\ v = VTrack0Unexpected e) \/
      (exists k t e, h_format h = 1 /\ nth_error (f_tracks s) (S k) = Some t /\ In e (t_events t) /\ tempo_only_event (e_body e) /\ v = VTrackUnexpected (t_number t) e))).
  { intros e1 E. destruct (Z.eqb_spec (h_format h) 1) as [F|F].
    - unfold validate_format1 in E. destruct (f_tracks s) as [|t0 ts]; [discriminate|]. apply Ok_inj in E. subst e1. rewrite in_app_iff, in_map_concat. split.
      + intros [X|(t & X & Y)].
        * left. apply in_map_iff in X as (e & <- & X). apply filter_In in X as [X Y]. exists t0, e. repeat split; auto.
          rewrite <- track0_event. destruct (is_track0_event e); [discriminate|congruence].
        * right. apply in_map_iff in Y as (e & <- & Y). apply filter_In in Y as [Y Z]. apply In_nth_error in X as [k X]. exists k, t, e.
          repeat split; auto. apply track1_event. destruct (is_track1_event e); [discriminate|reflexivity].
      + intros [(t & e & _ & X & Y & Z & ->) | (k & t & e & _ & X & Y & Z & ->)].
        * left. cbn in X. injection X as <-. apply in_map. apply filter_In. split; [assumption|]. rewrite <- track0_event in Z. destruct (is_track0_event e); [exfalso; apply Z|]; reflexivity.
        * right. cbn in X. apply nth_error_In in X. exists t. split; [assumption|]. apply in_map. apply filter_In. split; [assumption|].
          apply track1_event in Z. rewrite Z. reflexivity.
    - apply Ok_inj in E. subst e1. split; [contradiction|]. intros [(t & e & X & _)|(k & t & e & X & _)]; contradiction. }
  destruct (if h_format h =? 1 then validate_format1 s else Ok []) as [e1| | | |]; try discriminate. specialize (F1 e1 eq_refl).
  cbn [bind] in H. apply Ok_inj in H. subst errs. rewrite !in_app_iff, F1, !in_map_concat. clear F1.
  split.
  - intros [X|[[(t & e & X1 & X2 & X3 & X4 & ->) | (k & t & e & X1 & X2 & X3 & X4 & ->)]|[(t & X & Y)|(t & X & Y)]]].
    + destruct (Z.eqb_spec (h_format h) 0) as [F|F]; [|contradiction]. unfold validate_format0 in X.
      destruct (Z.eqb_spec (zlen (f_tracks s)) 1) as [G|G]; [contradiction|]. destruct X as [<-|[]]. apply due_count; [assumption|]. unfold zlen in G. lia.
    + eapply due_track0; eassumption.
    + eapply due_track1; eassumption.
    + apply validate_eot_spec in Y as [(i & e & Y1 & Y2 & Y3 & ->) | [Y1 ->]]; [eapply due_not_last; eassumption|apply due_missing; assumption].
    + apply validate_bank_spec in Y as [(i & ch & Y1 & Y2 & Y3 & ->) | [(i & ch & Y1 & Y2 & ->) | (i & ch & ch' & Y1 & Y2 & Y3 & [->| ->])]].
      * eapply due_msb; eassumption.
      * eapply due_lsb; eassumption.
      * eapply due_msb_channel; eassumption.
      * eapply due_lsb_channel; eassumption.
  - intro D. destruct D.
    + left. rewrite H. cbn [Z.eqb]. unfold validate_format0. destruct (Z.eqb_spec (zlen (f_tracks s)) 1) as [G|G]; [unfold zlen in G; lia|]. left. reflexivity.
    + right. left. left. eauto 10.
    + right. left. right. eauto 10.
    + right. right. left. exists t. split; [assumption|]. apply validate_eot_spec. left. eauto 10.
    + right. right. left. exists t. split; [assumption|]. apply validate_eot_spec. right. auto.
    + right. right. right. exists t. split; [assumption|]. apply validate_bank_spec. left. eauto 10.
    + right. right. right. exists t. split; [assumption|]. apply validate_bank_spec. right. left. eauto 10.
    + right. right. right. exists t. split; [assumption|]. apply validate_bank_spec. right. right. exists i, ch, ch'. auto.
    + right. right. right. exists t. split; [assumption|]. apply validate_bank_spec. right. right. exists i, ch, ch'. auto.
Qed.

Theorem validate_outcome : forall s, validate s = Panic /\ (f_mthd s = None \/ exists h, f_mthd s = Some h /\ h_format h = 1 /\ f_tracks s = []) \/
  (exists errs, validate s = Ok errs) /\ (exists h, f_mthd s = Some h /\ (h_format h = 1 -> f_tracks s <> [])).
Proof.
  intro s. unfold validate. destruct (f_mthd s) as [h|]; [|auto]. destruct (Z.eqb_spec (h_format h) 1) as [F|F].
  - unfold validate_format1. destruct (f_tracks s) eqn:T; cbn [bind]; [left; eauto 6|]. right. split; [eauto|]. exists h. split; [reflexivity|]. discriminate.
  - right. cbn [bind]. split; [eauto|]. exists h. split; [reflexivity|]. intro. contradiction.
Qed.

Lemma no_eot_dec : forall t, (exists i, at_event t i EndOfTrack) \/ (forall i, ~ at_event t i EndOfTrack).
Proof.
  intro t. destruct (existsb is_eot (t_events t)) eqn:E.
  - left. apply existsb_exists in E as (e & H1 & H2). apply In_nth_error in H1 as [i H1]. apply eot_event in H2. exists i, e. auto.
  - right. intros i (e & H1 & H2). apply nth_error_In in H1. apply eot_event in H2.
    assert (existsb is_eot (t_events t) = true) by (apply existsb_exists; eauto). congruence.
Qed.

Lemma lsb_dec : forall t i, (exists ch, bank_lsb t i ch) \/ (forall ch, ~ bank_lsb t i ch).
Proof.
  intros t i. destruct (nth_error (t_events t) i) as [e|] eqn:E.
  - destruct (lsb_of (as_controller (e_body e))) as [ch|] eqn:L; [left; exists ch; exact (proj1 (lsb_at _ _ _ _ E) L)|].
    right. intros ch X. apply (lsb_at _ _ _ _ E) in X. congruence.
  - right. intros ch X. destruct (lsb_lt _ _ _ X). congruence.
Qed.

Lemma msb_dec : forall t i, (exists ch, bank_msb t i ch) \/ (forall ch, ~ bank_msb t i ch).
Proof.
  intros t i. destruct (nth_error (t_events t) i) as [e|] eqn:E.
  - destruct (msb_of (as_controller (e_body e))) as [ch|] eqn:L; [left; exists ch; exact (proj1 (msb_at _ _ _ _ E) L)|].
    right. intros ch X. apply (msb_at _ _ _ _ E) in X. congruence.
  - right. intros ch X. destruct (msb_lt _ _ _ X). congruence.
Qed.

Lemma body_det : forall t i b b', at_event t i b -> at_event t i b' -> b = b'.
Proof. intros t i b b' (e & H1 & H2) (e' & H3 & H4). congruence. Qed.

Theorem validate_exact : forall s, validate s = Ok [] <-> valid_file s.
Proof.
  intro s. split.
  - intro H. destruct (validate_outcome s) as [[X _]|[_ (h & Hh & Ht)]]; [congruence|]. exists h. split; [exact Hh|].
    assert (D : forall v, ~ due h (f_tracks s) v) by (intros v X; apply (reports_due s h [] Hh H) in X; exact X).
    split; [|split].
    + intro F. destruct (Nat.eq_dec (length (f_tracks s)) 1) as [E|E]; [exact E|]. exfalso. eapply D. apply due_count; eassumption.
    + intro F. specialize (Ht F). destruct (f_tracks s) as [|t0 ts] eqn:T; [congruence|]. exists t0, ts. split; [reflexivity|]. split.
      * intros i b (e & H1 & <-). apply track0_event. destruct (is_track0_event e) eqn:Z; [reflexivity|]. exfalso. eapply D.
        apply (due_track0 h (t0 :: ts) t0 e); [assumption|reflexivity|eapply nth_error_In; eassumption|]. rewrite <- track0_event. congruence.
      * intros t i b I (e & H1 & <-) X. apply In_nth_error in I as [k I]. eapply D.
        apply (due_track1 h (t0 :: ts) k t e); [assumption|exact I|eapply nth_error_In; eassumption|exact X].
    + intros t I. assert (E : ends_properly t).
      { assert (L : forall i, at_event t i EndOfTrack -> S i = length (t_events t)).
        { intros i (e & H1 & H2). pose proof (at_lt _ _ _ _ H1). destruct (Nat.eq_dec (S i) (length (t_events t))); [assumption|]. exfalso. eapply D.
          eapply due_not_last; try eassumption. lia. }
        destruct (no_eot_dec t) as [(i & X)|X]; [|exfalso; eapply D; eapply due_missing; eassumption].
        exists i. split; [symmetry; apply L; exact X|]. intro j. split; [|intros ->; exact X]. intro Y. apply L in X. apply L in Y. lia. }
      split; [exact E|]. split.
      * intros i ch M. destruct E as (n & E1 & E2). destruct (msb_lt _ _ _ M) as [e X]. apply at_lt in X.
        destruct (Nat.eq_dec i n) as [->|Hi].
        { exfalso. destruct M as (c & v & M & _). pose proof (body_det _ _ _ _ M (proj2 (E2 n) eq_refl)). discriminate. }
        destruct (lsb_dec t (S i)) as [(ch' & Y)|Y]; [|exfalso; eapply D; eapply due_msb; try eassumption; lia].
        destruct (Z.eq_dec ch ch') as [->|N]; [exact Y|]. exfalso. eapply D. eapply due_msb_channel; eassumption.
      * intros i ch L. destruct i as [|j].
        { exfalso. eapply D. eapply due_lsb; try eassumption. discriminate. }
        exists j. split; [reflexivity|]. destruct (msb_dec t j) as [(ch' & Y)|Y].
        { destruct (Z.eq_dec ch' ch) as [->|N]; [exact Y|]. exfalso. eapply D. eapply due_msb_channel; eassumption. }
        exfalso. eapply D. eapply due_lsb; try eassumption. intros j' ch' [= <-]. apply Y.
  - intros (h & Hh & V0 & V1 & V2). destruct (validate_outcome s) as [[_ [X|(h' & X & Y & Z)]]|[(errs & E) _]].
    + congruence.
    + assert (h' = h) by congruence. subst h'. destruct (V1 Y) as (t0 & ts & T & _). congruence.
    + rewrite E. f_equal. destruct errs as [|v errs]; [reflexivity|]. exfalso.
      assert (D : due h (f_tracks s) v) by (apply (reports_due s h (v :: errs) Hh E); left; reflexivity).
      destruct D as [F N|t e F T I N|k t e F T I N|t i e I T X N|t I N|t i ch I M N L|t i ch I L M|t i ch ch' I M L N|t i ch ch' I M L N].
      * auto.
      * destruct (V1 F) as (t0 & ts & T' & V & _). rewrite T' in T. injection T as ->. apply In_nth_error in I as [i I]. apply N. apply (V i). exists e. auto.
      * destruct (V1 F) as (t0 & ts & T' & _ & V). rewrite T' in T. cbn in T. apply nth_error_In in T. apply In_nth_error in I as [i I].
        eapply (V t i); [exact T|exists e; auto|exact N].
      * destruct (V2 t I) as [(n & E1 & E2) _]. assert (i = n) by (apply E2; exists e; auto). lia.
      * destruct (V2 t I) as [(n & E1 & E2) _]. apply (N n). apply E2. reflexivity.
      * destruct (V2 t I) as [_ [B1 B2]]. exact (L ch (B1 _ _ M)).
      * destruct (V2 t I) as [_ [B1 B2]]. destruct (B2 _ _ L) as (j & -> & X). exact (M j ch eq_refl X).
      * destruct (V2 t I) as [_ [B1 B2]]. apply B1 in M. destruct M as (c & v & M & _), L as (c' & v' & L & _). pose proof (body_det _ _ _ _ M L). congruence.
      * destruct (V2 t I) as [_ [B1 B2]]. apply B1 in M. destruct M as (c & v & M & _), L as (c' & v' & L & _). pose proof (body_det _ _ _ _ M L). congruence.
Qed.

Lemma decoded_header : forall env r s, decode env r = Ok s -> exists h, f_mthd s = Some h /\ zlen (f_tracks s) = h_tracks h.
Proof.
  intros env r s H. unfold decode in H. destruct (chunks r) as [[|c cs]| | | |]; try discriminate. cbn [bind] in H.
  destruct (unmarshal_mthd c) as [h| | | |]; try discriminate. cbn [bind] in H. destruct (decode_tracks _ _ _) as [ts| | | |]; try discriminate.
  cbn [bind] in H. destruct (Z.eqb_spec (zlen ts) (h_tracks h)); [|discriminate]. apply Ok_inj in H. subst s. exists h. auto.
Qed.

Theorem decoded_validates : forall env r s, decode env r = Ok s ->
  exists h, f_mthd s = Some h /\
    (h_format h = 1 /\ h_tracks h = 0 /\ validate s = Panic \/
     ~ (h_format h = 1 /\ h_tracks h = 0) /\ exists errs, validate s = Ok errs).
Proof.
  intros env r s H. destruct (decoded_header _ _ _ H) as (h & Hh & Hn). exists h. split; [exact Hh|].
  assert (E : f_tracks s = [] <-> h_tracks h = 0).
  { destruct (f_tracks s) eqn:T; rewrite <- Hn; unfold zlen; cbn [length]; [tauto|]. split; [discriminate|lia]. }
  destruct (validate_outcome s) as [[P [X|(h' & X & Y & Z)]]|[P (h' & X & Y)]]; [congruence| |].
  - left. assert (h' = h) by congruence. subst h'. tauto.
  - right. assert (h' = h) by congruence. subst h'. split; [|exact P]. intros [A B]. apply (Y A). apply E, B.
Qed.
