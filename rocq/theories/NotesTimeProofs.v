(** * NotesTimeProofs: order, times and panics of the note extraction. *)
From Coq Require Import Permutation.
From Verif Require Import Base Strings Tables SpecVlq Vlq Event SpecEvent SpecHistory Marshal Parse Track File SpecTrack SpecKey SpecDecoded
  ParseProofs FileProofs TrackProofs DecodedProofs ValidateProofs
  Transpose SpecTranspose TransposeProofs Notes SpecNotes NotesProofs.

(** ** The stable sort *)

Fixpoint merge (A B : list nevent) : list nevent :=
  match A with
  | [] => B
  | a :: A' => (fix go (B : list nevent) : list nevent := match B with [] => A | b :: B' => if ne_tick b <? ne_tick a then b :: go B' else a :: merge A' B end) B
  end.

Lemma merge_nil_r : forall A, merge A [] = A.
Proof. destruct A; reflexivity. Qed.

Lemma merge_cons : forall a A b B, merge (a :: A) (b :: B) = if ne_tick b <? ne_tick a then b :: merge (a :: A) B else a :: merge A (b :: B).
Proof. reflexivity. Qed.

Lemma sort_sorted : forall l t0, ascending t0 (map ne_tick l) -> sort_ticks l = l.
Proof.
  induction l as [|x l IH]; intros t0 H; [reflexivity|]. cbn [map ascending sort_ticks] in *. destruct H as [_ H]. rewrite (IH _ H).
  destruct l as [|y l]; [reflexivity|]. cbn [insert_tick map ascending] in *. destruct (Z.ltb_spec (ne_tick y) (ne_tick x)); [lia|reflexivity].
Qed.

Lemma insert_merge : forall x A B, ascending (ne_tick x) (map ne_tick A) -> (exists t0, ascending t0 (map ne_tick B)) -> insert_tick x (merge A B) = merge (x :: A) B.
Proof.
  intros x A B HA. induction B as [|b B IH]; intros [t0 HB].
  - rewrite !merge_nil_r. destruct A as [|a A]; [reflexivity|]. cbn [insert_tick map ascending] in *. destruct (Z.ltb_spec (ne_tick a) (ne_tick x)); [lia|reflexivity].
  - rewrite merge_cons. cbn [map ascending] in HB. destruct HB as [_ HB]. destruct (Z.ltb_spec (ne_tick b) (ne_tick x)) as [L|L].
    + assert (X : merge A (b :: B) = b :: merge A B).
      { destruct A as [|a A]; [reflexivity|]. cbn [map ascending] in HA. rewrite merge_cons. destruct (Z.ltb_spec (ne_tick b) (ne_tick a)); [reflexivity|lia]. }
      rewrite X. cbn [insert_tick]. destruct (Z.ltb_spec (ne_tick b) (ne_tick x)); [|lia]. rewrite IH; [reflexivity|eauto].
    + destruct A as [|a A].
      * cbn [merge insert_tick]. destruct (Z.ltb_spec (ne_tick b) (ne_tick x)); [lia|reflexivity].
      * rewrite merge_cons. cbn [map ascending] in HA. destruct (Z.ltb_spec (ne_tick b) (ne_tick a)).
        -- cbn [insert_tick]. destruct (Z.ltb_spec (ne_tick b) (ne_tick x)); [lia|reflexivity].
        -- cbn [insert_tick]. destruct (Z.ltb_spec (ne_tick a) (ne_tick x)); [lia|reflexivity].
Qed.

Lemma sort_merge : forall A B t0 t1, ascending t0 (map ne_tick A) -> ascending t1 (map ne_tick B) -> sort_ticks (A ++ B) = merge A B.
Proof.
  induction A as [|a A IH]; intros B t0 t1 HA HB.
  - cbn [app merge]. eapply sort_sorted. exact HB.
  - cbn [map ascending] in HA. destruct HA as [_ HA]. cbn [app sort_ticks]. rewrite (IH B _ _ HA HB). apply insert_merge; eauto.
Qed.

Lemma insert_ascending : forall x l t0, t0 <= ne_tick x -> ascending t0 (map ne_tick l) -> ascending t0 (map ne_tick (insert_tick x l)).
Proof.
  intros x l. induction l as [|y l IH]; intros t0 Hx H; cbn [insert_tick map ascending] in *; [auto|]. destruct H as [H1 H2].
  destruct (Z.ltb_spec (ne_tick y) (ne_tick x)); cbn [map ascending].
  - split; [exact H1|]. apply IH; [lia|exact H2].
  - split; [exact Hx|]. split; [lia|exact H2].
Qed.

Lemma sort_ascending : forall l t0, Forall (fun x => t0 <= ne_tick x) l -> ascending t0 (map ne_tick (sort_ticks l)).
Proof.
  induction l as [|x l IH]; intros t0 F; [exact I|]. inversion F; subst. cbn [sort_ticks]. apply insert_ascending; auto.
Qed.

Lemma insert_permutation : forall x l, Permutation (insert_tick x l) (x :: l).
Proof.
  intros x l. induction l as [|y l IH]; [reflexivity|]. cbn [insert_tick]. destruct (_ <? _); [|reflexivity]. rewrite IH. apply perm_swap.
Qed.
Lemma sort_permutation : forall l, Permutation (sort_ticks l) l.
Proof. induction l as [|x l IH]; [reflexivity|]. cbn [sort_ticks]. rewrite insert_permutation, IH. reflexivity. Qed.

(** ** Time stamps *)

Definition tb (e : nevent) : Z * body := (ne_tick e, ne_body e).

Lemma timestamps_ok : forall ppqn l tempo at_ flats, ppqn <> 0 -> exists l', timestamps tempo at_ flats ppqn l = Ok l' /\ map tb l' = map tb l.
Proof.
  intros ppqn l. induction l as [|e l IH]; intros tempo at_ flats H; cbn [timestamps]; [exists []; auto|]. unfold delta_time.
  destruct (Z.eqb_spec ppqn 0); [contradiction|]. cbn [bind]. cbv zeta.
  match goal with |- context [timestamps ?a ?b ?c ppqn l] => destruct (IH a b c H) as (l' & -> & E) end. cbn [bind]. eexists. split; [reflexivity|].
  cbn [map]. rewrite E. reflexivity.
Qed.

Lemma timestamps_panic : forall l tempo at_ flats, timestamps tempo at_ flats 0 l = match l with [] => Ok [] | _ => Panic end.
Proof. intros [|e l] tempo at_ flats; reflexivity. Qed.

Lemma filter_tb : forall f l l', map tb l = map tb l' -> map tb (filter (fun e => f (ne_body e)) l) = map tb (filter (fun e => f (ne_body e)) l').
Proof.
  intros f l. induction l as [|x l IH]; intros [|y l'] E; try discriminate E; [reflexivity|]. cbn [map] in E. injection E as E1 E2 E3. cbn [filter]. rewrite E2.
  destruct (f (ne_body y)); [|auto]. cbn [map]. rewrite (IH _ E3). unfold tb. rewrite E1, E2. reflexivity.
Qed.

Lemma ascending_weaken : forall l t0 t1, t1 <= t0 -> ascending t0 l -> ascending t1 l.
Proof. destruct l; cbn [ascending]; intros; [auto|]. split; [lia|tauto]. Qed.

Lemma ascending_filter : forall A (g : A -> Z) f l t0, ascending t0 (map g l) -> ascending t0 (map g (filter f l)).
Proof.
  intros A g f l. induction l as [|x l IH]; intros t0 H; [exact I|]. cbn [map ascending filter] in *. destruct H as [H1 H2]. destruct (f x).
  - cbn [map ascending]. auto.
  - apply IH. eapply ascending_weaken; eassumption.
Qed.

Lemma ascending_nth : forall l t0 i j a b, ascending t0 l -> (i <= j)%nat -> nth_error l i = Some a -> nth_error l j = Some b -> t0 <= a <= b.
Proof.
  induction l as [|x l IH]; intros t0 i j a b H Hij Ha Hb; [destruct i; discriminate|]. cbn [ascending] in H. destruct H as [H1 H2].
  destruct i as [|i], j as [|j]; cbn [nth_error] in *; try lia.
  - injection Ha as ->. injection Hb as ->. lia.
  - injection Ha as ->. destruct (nth_error l j) eqn:E; [|discriminate]. injection Hb as ->. specialize (IH a j j b b H2 (le_n _) E E). lia.
  - specialize (IH x i j a b H2 ltac:(lia) Ha Hb). lia.
Qed.

(** The merged events of a track: in tick order, whatever the track. *)
Theorem track_events_sorted : forall track tm ppqn es, build_track_events track tm ppqn = Ok es -> Forall (fun e => 0 <= e_tick e) (track ++ tm) ->
  ascending 0 (map ne_tick es).
Proof.
  intros track tm ppqn es H F. unfold build_track_events in H. destruct (Z.eq_dec ppqn 0) as [->|Hp].
  - rewrite timestamps_panic in H. destruct (sort_ticks _); [|discriminate]. cbn [bind] in H. apply Ok_inj in H. subst. exact I.
  - destruct (timestamps_ok ppqn (sort_ticks (unsorted track tm)) 50000 0 false Hp) as (l' & E & M). rewrite E in H. cbn [bind] in H. apply Ok_inj in H. subst es.
    apply ascending_filter. replace (map ne_tick l') with (map ne_tick (sort_ticks (unsorted track tm))).
    2: { apply (f_equal (map fst)) in M. rewrite !map_map in M. symmetry. exact M. }
    apply sort_ascending. unfold unsorted. apply Forall_app in F as [F1 F2]. apply Forall_app. split; apply Forall_map; assumption.
Qed.

Lemma track_events_total : forall track tm ppqn, ppqn <> 0 -> exists es, build_track_events track tm ppqn = Ok es.
Proof.
  intros track tm ppqn Hp. unfold build_track_events. destruct (timestamps_ok ppqn (sort_ticks (unsorted track tm)) 50000 0 false Hp) as (l' & -> & _). cbn [bind]. eauto.
Qed.

(** Every note event of the merged list is one of the track or of the tempo map; nothing else. *)
Lemma merge_filter : forall f A B, Forall (fun b => f b = false) B -> filter f (merge A B) = filter f A.
Proof.
  intros f A. induction A as [|a A IHA]; intros B F.
  - cbn [merge filter]. clear - F. induction F as [|b B Hb F IH]; [reflexivity|]. cbn [filter]. rewrite Hb. exact IH.
  - induction F as [|b B Hb F IHB]; [reflexivity|]. rewrite merge_cons. destruct (_ <? _).
    + cbn [filter] in *. rewrite Hb. exact IHB.
    + cbn [filter]. rewrite IHA by (constructor; assumption). reflexivity.
Qed.

Lemma tempo_events_only : forall es, Forall (fun e => is_tempo (e_body e) = true) (tempo_events es).
Proof. intro es. apply Forall_forall. intros e H. apply filter_In in H. apply H. Qed.

(** A track whose ticks ascend: its note events, in its order. *)
Theorem track_events_order : forall track track0 ppqn es, ascending 0 (map e_tick track) -> ascending 0 (map e_tick (tempo_events track0)) ->
  build_track_events track (tempo_events track0) ppqn = Ok es ->
  map tb es = map (fun e => (e_tick e, e_body e)) (filter (fun e => is_note_event (e_body e)) track).
Proof.
  intros track track0 ppqn es HA HB H. unfold build_track_events in H.
  assert (S : sort_ticks (unsorted track (tempo_events track0)) =
    merge (map (fun e => NEvent (e_tick e) (e_delta e) 0 (e_body e) false) track) (map (fun e => NEvent (e_tick e) 0 0 (e_body e) false) (tempo_events track0))).
  { unfold unsorted. eapply (sort_merge _ _ 0 0); rewrite map_map; assumption. }
  assert (FF : forall l : list event, map tb (filter (fun e => is_note_event (ne_body e)) (map (fun e => NEvent (e_tick e) (e_delta e) 0 (e_body e) false) l)) =
    map (fun e => (e_tick e, e_body e)) (filter (fun e => is_note_event (e_body e)) l)).
  { induction l as [|x l IH]; [reflexivity|]. cbn [map filter ne_body]. destruct (is_note_event (e_body x)); [|exact IH]. cbn [map]. rewrite IH. reflexivity. }
  destruct (Z.eq_dec ppqn 0) as [->|Hp].
  - rewrite timestamps_panic in H. destruct (sort_ticks _) eqn:E; [|discriminate]. cbn [bind] in H. apply Ok_inj in H. subst es.
    rewrite <- FF. rewrite <- (merge_filter (fun e => is_note_event (ne_body e)) (map (fun e => NEvent (e_tick e) (e_delta e) 0 (e_body e) false) track) (map (fun e => NEvent (e_tick e) 0 0 (e_body e) false) (tempo_events track0))).
    + rewrite <- S. reflexivity.
    + apply Forall_map. eapply Forall_impl; [|apply tempo_events_only]. cbv beta. intros e He. cbn [ne_body]. destruct (e_body e); try discriminate. reflexivity.
  - destruct (timestamps_ok ppqn (sort_ticks (unsorted track (tempo_events track0))) 50000 0 false Hp) as (l' & E & M). rewrite E in H. cbn [bind] in H.
    apply Ok_inj in H. subst es. rewrite (filter_tb is_note_event _ _ M). rewrite S, merge_filter; [apply FF|].
    apply Forall_map. eapply Forall_impl; [|apply tempo_events_only]. cbv beta. intros e He. cbn [ne_body]. destruct (e_body e); try discriminate. reflexivity.
Qed.

(** ** Order of the times *)

Lemma round_nonneg : forall d, 0 <= d < 9000000000000000000 -> round_ms d = (d + 500000) / 1000000 * 1000000.
Proof.
  intros d H. unfold round_ms. destruct (Z.ltb_spec d 0); [lia|]. rewrite Z.rem_mod_nonneg by lia.
  pose proof (Z.div_mod d 1000000 ltac:(lia)). pose proof (Z.mod_pos_bound d 1000000 ltac:(lia)). destruct (Z.ltb_spec (d mod 1000000 + d mod 1000000) 1000000).
  - assert ((d + 500000) / 1000000 = d / 1000000) by (symmetry; apply (Z.div_unique _ _ _ (d mod 1000000 + 500000)); lia). lia.
  - rewrite wrap64_id by lia. destruct (Z.ltb_spec d (d + 1000000 - d mod 1000000)); [|lia].
    assert ((d + 500000) / 1000000 = d / 1000000 + 1) by (symmetry; apply (Z.div_unique _ _ _ (d mod 1000000 - 500000)); lia). lia.
Qed.

Lemma delta_time_exact : forall d t p, 0 < p -> 0 <= d -> 0 <= t -> 1000 * d * t < 9000000000000000000 -> delta_time d t p = Ok (1000 * d * t / p).
Proof.
  intros d t p Hp Hd Ht H. unfold delta_time. destruct (Z.eqb_spec p 0); [lia|]. f_equal.
  assert (0 <= 1000 * d * t) by nia. rewrite Z.mod_small by lia. apply wrap64_id.
  assert (0 <= 1000 * d * t / p <= 1000 * d * t); [|lia]. split; [apply Z.div_pos; lia|]. apply Z.div_le_upper_bound; [lia|]. nia.
Qed.

Definition nsum (l : list nevent) : Z := fold_right (fun e acc => ne_delta e + acc) 0 l.

Lemma times_ascend : forall ppqn M, 0 < ppqn -> forall l tempo at_ flats l', 0 <= tempo <= M -> Forall (fun e => 0 <= ne_delta e) l ->
  Forall (fun e => match ne_body e with Tempo t => 0 <= t <= M | _ => True end) l -> 0 <= at_ -> at_ + 1000 * nsum l * M < 9000000000000000000 ->
  timestamps tempo at_ flats ppqn l = Ok l' -> ascending (round_ms at_) (map ne_at l') /\ Forall (fun e => 0 <= ne_at e < 9000000000001000000) l'.
Proof.
  intros ppqn M Hp l. induction l as [|e l IH]; intros tempo at_ flats l' Ht Hd Hm Ha Hb H; cbn [timestamps] in H.
  - apply Ok_inj in H. subst. split; [exact I|constructor].
  - inversion Hd as [|? ? D1 D2]; subst. inversion Hm as [|? ? M1 M2]; subst. cbn [nsum fold_right] in Hb. fold (nsum l) in Hb.
    assert (N : 0 <= nsum l). { clear - D2. unfold nsum. induction D2; cbn [fold_right]; lia. }
    assert (P1 : 0 <= 1000 * nsum l * M) by nia. assert (P2 : 1000 * ne_delta e * tempo <= 1000 * ne_delta e * M) by nia.
    assert (P3 : 0 <= 1000 * ne_delta e * tempo) by nia.
    rewrite (delta_time_exact (ne_delta e) tempo ppqn) in H by nia. cbn [bind] in H. cbv zeta in H.
    assert (Q : 0 <= 1000 * ne_delta e * tempo / ppqn <= 1000 * ne_delta e * tempo).
    { split; [apply Z.div_pos; lia|]. apply Z.div_le_upper_bound; [lia|]. nia. }
    set (d := 1000 * ne_delta e * tempo / ppqn) in *. rewrite (wrap64_id (at_ + d)) in H by nia.
    match type of H with context [timestamps ?a ?b ?c ppqn l] => destruct (timestamps a b c ppqn l) as [l1| | | |] eqn:E; try discriminate;
      apply (IH a) in E; [|destruct (ne_body e); lia|assumption|assumption|lia|nia] end. cbn [bind] in H. apply Ok_inj in H. subst l'. destruct E as [E1 E2].
    assert (A1 : 0 <= at_ < 9000000000000000000) by nia. assert (A2 : 0 <= at_ + d < 9000000000000000000) by nia.
    rewrite (round_nonneg at_ A1). rewrite (round_nonneg _ A2) in *. split.
    + cbn [map ascending ne_at]. split; [|exact E1]. apply Z.mul_le_mono_nonneg_r; [lia|]. apply Z.div_le_mono; lia.
    + constructor; [|exact E2]. cbn [ne_at]. pose proof (Z.div_mod (at_ + d + 500000) 1000000 ltac:(lia)). pose proof (Z.mod_pos_bound (at_ + d + 500000) 1000000 ltac:(lia)). nia.
Qed.

Lemma nsum_app : forall a b, nsum (a ++ b) = nsum a + nsum b.
Proof. induction a as [|x a IH]; intro b; [reflexivity|]. cbn [app nsum fold_right]. unfold nsum in *. rewrite IH. lia. Qed.
Lemma nsum_permutation : forall a b, Permutation a b -> nsum a = nsum b.
Proof. intros a b P. unfold nsum. induction P; cbn [fold_right]; lia. Qed.

Lemma Forall_filter : forall A (P : A -> Prop) f l, Forall P l -> Forall P (filter f l).
Proof. intros A P f l F. rewrite Forall_forall in *. intros x Hx. apply filter_In in Hx. apply F, Hx. Qed.


Theorem track_times_sorted : forall track tm ppqn M es, 0 < ppqn -> 50000 <= M -> tempos_within M (track ++ tm) -> Forall (fun e => 0 <= e_delta e) track ->
  1000 * total_delta track * M < 9000000000000000000 ->
  build_track_events track tm ppqn = Ok es -> ascending 0 (map ne_at es) /\ Forall (fun e => 0 <= ne_at e < 9000000000001000000) es.
Proof.
  intros track tm ppqn M es Hp HM HT HD HB H. unfold build_track_events in H. set (l := sort_ticks (unsorted track tm)) in *.
  destruct (timestamps 50000 0 false ppqn l) as [l'| | | |] eqn:E; try discriminate. cbn [bind] in H. apply Ok_inj in H. subst es.
  assert (P : Permutation l (unsorted track tm)) by apply sort_permutation. unfold tempos_within in HT. apply Forall_app in HT as [T1 T2].
  assert (F0 : forall tl : list event, nsum (map (fun e => NEvent (e_tick e) 0 0 (e_body e) false) tl) = 0).
  { induction tl as [|x tl IH]; [reflexivity|]. cbn [map nsum fold_right ne_delta]. unfold nsum in IH. rewrite IH. reflexivity. }
  assert (F1 : forall tl : list event, nsum (map (fun e => NEvent (e_tick e) (e_delta e) 0 (e_body e) false) tl) = total_delta tl).
  { induction tl as [|x tl IH]; [reflexivity|]. cbn [map nsum fold_right ne_delta]. unfold nsum in IH. rewrite IH. reflexivity. }
  eapply (times_ascend ppqn M Hp) in E.
  - destruct E as [E1 E2]. split; [apply ascending_filter; exact E1|apply Forall_filter; exact E2].
  - lia.
  - eapply Permutation_Forall; [symmetry; exact P|]. apply Forall_app. split; apply Forall_map; [exact HD|]. apply Forall_forall. intros; cbn [ne_delta]; lia.
  - eapply Permutation_Forall; [symmetry; exact P|]. apply Forall_app. split; apply Forall_map; [exact T1|exact T2].
  - lia.
  - rewrite (nsum_permutation _ _ P). unfold unsorted. rewrite nsum_app, F0, F1. lia.
Qed.

(** ** Times and the tempo map *)

Lemma tempo_at_snoc : forall done B u, Forall (fun x => fst x <= u) done -> Forall (fun x => u < fst x) B -> tempo_at (done ++ B) u = last (map snd done) 500000.
Proof.
  intros done B u HD HB. unfold tempo_at. rewrite fold_left_app.
  assert (X : forall l t, Forall (fun x : Z * Z => u < fst x) l -> fold_left (fun t x => if fst x <=? u then snd x else t) l t = t).
  { induction l as [|x l IH]; intros t F; [reflexivity|]. inversion F; subst. cbn [fold_left]. destruct (Z.leb_spec (fst x) u); [lia|]. apply IH. assumption. }
  rewrite (X B _ HB). clear X HB. generalize 500000 as t. induction HD as [|x l Hx HD IH]; intro t; [reflexivity|]. cbn [fold_left map last].
  destruct (Z.leb_spec (fst x) u); [|lia]. rewrite IH. destruct l as [|y l']; [reflexivity|]. cbn [map]. clear. revert y. induction l' as [|z l' IH]; intro y; [reflexivity|].
  change (last (snd y :: snd z :: map snd l') (snd x)) with (last (snd z :: map snd l') (snd x)).
  change (last (snd y :: snd z :: map snd l') t) with (last (snd z :: map snd l') t). apply IH.
Qed.

Lemma ideal_run : forall tm a n c, (forall u, a <= u < a + Z.of_nat n -> tempo_at tm u = c) -> 0 <= a ->
  ideal_time tm (Z.to_nat (a + Z.of_nat n)) = ideal_time tm (Z.to_nat a) + 1000 * Z.of_nat n * c.
Proof.
  intros tm a n c H Ha. induction n as [|n IH].
  - replace (a + Z.of_nat 0) with a by lia. lia.
  - replace (Z.to_nat (a + Z.of_nat (S n))) with (S (Z.to_nat (a + Z.of_nat n))) by lia. cbn [ideal_time].
    rewrite IH by (intros u Hu; apply H; lia). rewrite Z2Nat.id by lia. rewrite (H (a + Z.of_nat n)) by lia. lia.
Qed.

Lemma ideal_mono : forall tm, (Forall (fun x => 0 <= snd x) tm) -> forall n m, (n <= m)%nat -> ideal_time tm n <= ideal_time tm m.
Proof.
  intros tm F n m H. induction H as [|m H IH]; [lia|]. cbn [ideal_time].
  assert (0 <= tempo_at tm (Z.of_nat m)); [|lia]. unfold tempo_at. assert (0 <= 500000) as G by lia. revert G. generalize 500000. clear - F.
  induction F as [|x l Hx F IH]; intros t G; [exact G|]. cbn [fold_left]. apply IH. destruct (_ <=? _); assumption.
Qed.

Definition as_track (e : event) : nevent := NEvent (e_tick e) (e_delta e) 0 (e_body e) false.
Definition as_tempo (e : event) : nevent := NEvent (e_tick e) 0 0 (e_body e) false.
Definition tempo_entry (e : event) : Z * Z := (e_tick e, match e_body e with Tempo t => t | _ => 0 end).

Lemma tempo_list_map : forall es, tempo_list es = map tempo_entry (tempo_events es).
Proof.
  induction es as [|e es IH]; [reflexivity|]. cbn [tempo_list tempo_events filter]. unfold tempo_events in IH. rewrite IH.
  destruct (e_body e) eqn:B; cbn [is_tempo map]; try reflexivity. f_equal. unfold tempo_entry. rewrite B. reflexivity.
Qed.


Lemma near_sum : forall R raw t cnt k p, 0 < p -> Z.abs (R - raw) <= 500000 -> 0 <= cnt -> 0 <= k -> raw * p <= t <= (raw + cnt) * p ->
  Z.abs (R * p - t) <= (500000 + cnt + k) * p.
Proof.
  intros R raw t cnt k p Hp HR Hc Hk H.
  pose proof (Z.mul_le_mono_nonneg_r (raw - 500000) R p ltac:(lia) ltac:(lia)) as A.
  pose proof (Z.mul_le_mono_nonneg_r R (raw + 500000) p ltac:(lia) ltac:(lia)) as B.
  pose proof (Z.mul_nonneg_nonneg k p Hk ltac:(lia)) as C. pose proof (Z.mul_nonneg_nonneg cnt p Hc ltac:(lia)) as D.
  rewrite Z.mul_sub_distr_r in A. rewrite Z.mul_add_distr_r in B, H. rewrite !Z.mul_add_distr_r. lia.
Qed.
Lemma below_product : forall x p t b, 0 < p -> 0 <= x -> x * p <= t -> t < b -> x < b.
Proof. intros x p t b Hp Hx H1 H2. pose proof (Z.mul_le_mono_nonneg_l 1 p x Hx ltac:(lia)). lia. Qed.
Lemma next_sum : forall raw d p t cnt q m, raw * p <= t <= (raw + cnt) * p -> q = p * d + m -> 0 <= m < p ->
  (raw + d) * p <= t + q <= (raw + d + (cnt + 1)) * p.
Proof. intros. rewrite !Z.mul_add_distr_r in *. rewrite (Z.mul_comm p d) in *. lia. Qed.

Lemma times_tempo : forall tm ppqn, 0 < ppqn -> Forall (fun x => 0 <= snd x) tm -> (exists x, In x tm /\ fst x = 0) ->
  forall n A B done T0 raw flats cnt cur l', (length A + length B <= n)%nat ->
    tm = done ++ map tempo_entry B -> Forall (fun e => is_tempo (e_body e) = true) B -> no_tempo A ->
    0 <= T0 -> ticks_from T0 A -> ascending T0 (map e_tick B) -> Forall (fun b => e_tick b = T0 \/ In (e_tick b) (map e_tick A)) B ->
    Forall (fun x => fst x <= T0) done -> cur = last (map snd done) 50000 ->
    0 <= raw -> 0 <= cnt -> raw * ppqn <= ideal_time tm (Z.to_nat T0) <= (raw + cnt) * ppqn ->
    (forall e, In e A -> ideal_time tm (Z.to_nat (e_tick e)) < 9000000000000000000) ->
    ideal_time tm (Z.to_nat T0) < 9000000000000000000 ->
    timestamps cur raw flats ppqn (merge (map as_track A) (map as_tempo B)) = Ok l' ->
    Forall (fun e => Z.abs (ne_at e * ppqn - ideal_time tm (Z.to_nat (ne_tick e))) <= (500000 + cnt + Z.of_nat (length A)) * ppqn) l'.
Proof.
  intros tm ppqn Hp Htm Hz. induction n as [|n IH]; intros A B done T0 raw flats cnt cur l' Hn Etm HBt HAt HT0 HA HB HBA HD Hcur Hraw Hcnt Hinv Hbig HbigT H.
  - destruct A, B; cbn [length] in Hn; try lia. cbn [map merge timestamps] in H. apply Ok_inj in H. subst. constructor.
  - assert (RB : forall x, 0 <= x < 9000000000000000000 -> Z.abs (round_ms x - x) <= 500000).
    { intros x Hx. rewrite (round_nonneg x Hx). pose proof (Z.div_mod (x + 500000) 1000000 ltac:(lia)). pose proof (Z.mod_pos_bound (x + 500000) 1000000 ltac:(lia)). lia. }
    assert (RawB : raw < 9000000000000000000) by (eapply below_product; [exact Hp|exact Hraw|exact (proj1 Hinv)|exact HbigT]).
    (* an event of the tempo map *)
    assert (TakeB : forall b B', B = b :: B' -> (A = [] \/ exists a A', A = a :: A' /\ e_tick b < e_tick a) ->
      timestamps cur raw flats ppqn (as_tempo b :: merge (map as_track A) (map as_tempo B')) = Ok l' ->
      Forall (fun e => Z.abs (ne_at e * ppqn - ideal_time tm (Z.to_nat (ne_tick e))) <= (500000 + cnt + Z.of_nat (length A)) * ppqn) l').
    { intros b B' -> HX HH. inversion HBA as [|? ? Hb HBA']; subst. inversion HBt as [|? ? Hbt HBt']; subst. cbn [map ascending] in HB. destruct HB as [HB1 HB2].
      assert (Tb : e_tick b = T0).
      { destruct Hb as [Hb|Hb]; [exact Hb|]. destruct HX as [->|(a & A' & -> & L)]; [destruct Hb|]. exfalso. cbn [map ticks_from] in *.
        destruct HA as (_ & _ & HA). assert (G : forall es t, ticks_from t es -> forall x, In x (map e_tick es) -> t <= x).
        { clear. induction es as [|e es IH]; intros t Hf x Hx; [destruct Hx|]. cbn [ticks_from map] in *. destruct Hf as (Hf1 & Hf2 & Hf3). destruct Hx as [<-|Hx]; [lia|]. specialize (IH _ Hf3 _ Hx). lia. }
        destruct Hb as [Hb|Hb]; [lia|]. specialize (G _ _ HA _ Hb). lia. }
      cbn [timestamps as_tempo ne_delta ne_body ne_tick] in HH. set (cur0 := last (map snd done) 50000) in *.
      assert (DT : delta_time 0 cur0 ppqn = Ok 0).
      { unfold delta_time. destruct (Z.eqb_spec ppqn 0); [lia|]. change (1000 * 0 * cur0) with 0. rewrite Z.mod_0_l by lia. rewrite Z.div_0_l by lia. reflexivity. }
      rewrite DT in HH. cbn [bind] in HH. cbv zeta in HH. rewrite Z.add_0_r in HH. rewrite (wrap64_id raw) in HH by lia.
      match type of HH with context [timestamps ?a ?b ?c ppqn ?d] => destruct (timestamps a b c ppqn d) as [l1| | | |] eqn:E; try discriminate end.
      cbn [bind] in HH. apply Ok_inj in HH. subst l'. constructor.
      - cbn [ne_at ne_tick]. rewrite Tb. apply near_sum with (raw := raw); [exact Hp|apply RB; lia|exact Hcnt|lia|exact Hinv].
      - eapply (IH A B' (done ++ [tempo_entry b]) T0 raw) in E; [exact E|cbn [length] in Hn; lia| |assumption|assumption|assumption|assumption| | | | |assumption|assumption|assumption|assumption|assumption].
        + rewrite <- app_assoc. reflexivity.
        + rewrite <- Tb. exact HB2.
        + exact HBA'.
        + apply Forall_app. split; [exact HD|]. constructor; [|constructor]. unfold tempo_entry. cbn [fst]. lia.
        + rewrite map_app. cbn [map]. rewrite last_last. unfold tempo_entry. cbn [snd]. destruct (e_body b); try discriminate. reflexivity. }
    (* an event of the track *)
    assert (TakeA : forall a A', A = a :: A' -> (B = [] \/ exists b B', B = b :: B' /\ e_tick a <= e_tick b) ->
      timestamps cur raw flats ppqn (as_track a :: merge (map as_track A') (map as_tempo B)) = Ok l' ->
      Forall (fun e => Z.abs (ne_at e * ppqn - ideal_time tm (Z.to_nat (ne_tick e))) <= (500000 + cnt + Z.of_nat (length A)) * ppqn) l').
    { intros a A' -> HX HH. cbn [ticks_from] in HA. destruct HA as (Ha1 & Ha2 & Ha3). inversion HAt as [|? ? Hat HAt']; subst cur. subst.
      assert (GB : Forall (fun b => e_tick a <= e_tick b) B).
      { destruct HX as [->|(b & B' & -> & L)]; [constructor|]. cbn [map ascending] in HB. destruct HB as [_ HB]. constructor; [exact L|]. clear - L HB. revert HB L. generalize (e_tick b) as t0.
        induction B' as [|c B' IH]; intros t0 HB L; constructor; cbn [map ascending] in HB; destruct HB as [HB1 HB2]; [lia|]. apply (IH (e_tick c)); [exact HB2|lia]. }
      set (cur := last (map snd done) 50000) in *. set (tm := done ++ map tempo_entry B) in *.
      assert (ID : ideal_time tm (Z.to_nat (e_tick a)) = ideal_time tm (Z.to_nat T0) + 1000 * e_delta a * cur).
      { destruct (Z.eq_dec (e_delta a) 0) as [Z0|NZ].
        - replace (e_tick a) with T0 by lia. rewrite Z0. lia.
        - assert (done <> []).
          { intros ->. destruct Hz as (x & Hx & X0). cbn [app] in tm. unfold tm in Hx. apply in_map_iff in Hx as (b & <- & Hb). cbn [fst tempo_entry] in X0.
            rewrite Forall_forall in GB. specialize (GB b Hb). lia. }
          replace (e_tick a) with (T0 + Z.of_nat (Z.to_nat (e_delta a))) by lia. rewrite (ideal_run tm T0 (Z.to_nat (e_delta a)) cur); [lia| |lia].
          intros u Hu. unfold tm. rewrite tempo_at_snoc.
          + unfold cur. assert (XL : forall l : list Z, l <> [] -> last l 500000 = last l 50000).
            { clear. induction l as [|x l IH]; [congruence|]. intros _. destruct l as [|y l]; [reflexivity|]. exact (IH ltac:(discriminate)). }
            apply XL. destruct done; [congruence|discriminate].
          + eapply Forall_impl; [|exact HD]. cbv beta. intros; lia.
          + apply Forall_map. eapply Forall_impl; [|exact GB]. cbv beta. intros b Hb. cbn [fst tempo_entry]. lia. }
      assert (CurN : 0 <= cur).
      { unfold cur. assert (F : Forall (fun x : Z * Z => 0 <= snd x) done) by (unfold tm in Htm; apply Forall_app in Htm; apply Htm). clear - F.
        induction F as [|x l Hx F IH]; [cbn; lia|]. destruct l as [|y l]; [exact Hx|exact IH]. }
      pose proof (Hbig a (or_introl eq_refl)) as Ba. assert (PN : 0 <= 1000 * e_delta a * cur) by (apply Z.mul_nonneg_nonneg; lia).
      assert (IN : 0 <= ideal_time tm (Z.to_nat T0)) by (pose proof (Z.mul_nonneg_nonneg raw ppqn Hraw ltac:(lia)); lia).
      cbn [timestamps as_track ne_delta ne_body ne_tick] in HH. rewrite (delta_time_exact (e_delta a) cur ppqn) in HH by lia. cbn [bind] in HH. cbv zeta in HH.
      pose proof (Z.div_mod (1000 * e_delta a * cur) ppqn ltac:(lia)) as DM. pose proof (Z.mod_pos_bound (1000 * e_delta a * cur) ppqn Hp) as MB.
      set (d := 1000 * e_delta a * cur / ppqn) in *. assert (D0 : 0 <= d) by (apply Z.div_pos; lia).
      assert (INV' : (raw + d) * ppqn <= ideal_time tm (Z.to_nat (e_tick a)) <= (raw + d + (cnt + 1)) * ppqn)
        by (rewrite ID; eapply next_sum; [exact Hinv|exact DM|exact MB]).
      assert (RD : raw + d < 9000000000000000000) by (eapply below_product; [exact Hp|lia|exact (proj1 INV')|exact Ba]). rewrite (wrap64_id (raw + d)) in HH by lia.
      match type of HH with context [timestamps ?a ?b ?c ppqn ?d] => destruct (timestamps a b c ppqn d) as [l1| | | |] eqn:E; try discriminate end.
      cbn [bind] in HH. apply Ok_inj in HH. subst l'. cbn [length]. constructor.
      - cbn [ne_at ne_tick]. replace (500000 + cnt + Z.of_nat (S (length A'))) with (500000 + (cnt + 1) + Z.of_nat (length A')) by lia.
        apply near_sum with (raw := raw + d); [exact Hp|apply RB; lia|lia|lia|exact INV'].
      - replace (match e_body a with Tempo t => t | _ => cur end) with cur in E by (destruct (e_body a); try reflexivity; discriminate).
        eapply (IH A' B done (e_tick a) (raw + d) _ (cnt + 1) cur) in E.
        + eapply Forall_impl; [|exact E]. cbv beta. intros e He. replace (500000 + (cnt + 1) + Z.of_nat (length A')) with (500000 + cnt + Z.of_nat (S (length A'))) in He by lia. exact He.
        + cbn [length] in Hn. lia.
        + reflexivity.
        + assumption.
        + assumption.
        + lia.
        + assumption.
        + destruct HX as [->|(b & B' & -> & L)]; [exact I|]. cbn [map ascending] in *. split; [exact L|apply HB].
        + rewrite Forall_forall in *. intros b Hb. specialize (HBA b Hb). specialize (GB b Hb). cbn [map] in HBA. destruct HBA as [X|[X|X]]; [left; lia|left; congruence|right; exact X].
        + eapply Forall_impl; [|exact HD]. cbv beta. intros; lia.
        + reflexivity.
        + lia.
        + lia.
        + exact INV'.
        + intros e He. apply Hbig. right. exact He.
        + lia. }
    destruct A as [|a A']; destruct B as [|b B'].
    + cbn [map merge timestamps] in H. apply Ok_inj in H. subst. constructor.
    + apply (TakeB b B' eq_refl (or_introl eq_refl)). exact H.
    + apply (TakeA a A' eq_refl (or_introl eq_refl)). cbn [map] in *. rewrite merge_nil_r in *. exact H.
    + cbn [map] in H. rewrite merge_cons in H. cbn [as_tempo as_track ne_tick] in H. destruct (Z.ltb_spec (e_tick b) (e_tick a)) as [L|L].
      * apply (TakeB b B' eq_refl); [right; eauto|exact H].
      * apply (TakeA a A' eq_refl); [right; eauto|exact H].
Qed.

Lemma ticks_ascending : forall es t0, ticks_from t0 es -> ascending t0 (map e_tick es).
Proof. induction es as [|e es IH]; intros t0 H; [exact I|]. cbn [ticks_from map ascending] in *. destruct H as (H1 & H2 & H3). split; [lia|auto]. Qed.

Theorem note_times : forall track track0 ppqn es, 0 < ppqn -> ticks_from 0 track -> no_tempo track ->
  ascending 0 (map fst (tempo_list track0)) -> Forall (fun x => 0 <= snd x) (tempo_list track0) -> (exists t, In (0, t) (tempo_list track0)) ->
  aligned (tempo_list track0) track ->
  (forall e, In e track -> ideal_time (tempo_list track0) (Z.to_nat (e_tick e)) < 9000000000000000000) ->
  build_track_events track (tempo_events track0) ppqn = Ok es ->
  Forall (fun e => Z.abs (ne_at e * ppqn - ideal_time (tempo_list track0) (Z.to_nat (ne_tick e))) <= (500000 + zlen track) * ppqn) es.
Proof.
  intros track track0 ppqn es Hp HA HN HB HT (t & Ht) HAl Hbig H. rewrite tempo_list_map in *. set (tm := tempo_events track0) in *. unfold build_track_events in H.
  assert (S : sort_ticks (unsorted track tm) = merge (map as_track track) (map as_tempo tm)).
  { unfold unsorted. eapply (sort_merge _ _ 0 0).
    - rewrite map_map. apply ticks_ascending. exact HA.
    - rewrite map_map in *. exact HB. }
  rewrite S in H. destruct (timestamps _ _ _ _ _) as [l'| | | |] eqn:E; try discriminate. cbn [bind] in H. apply Ok_inj in H. subst es. apply Forall_filter.
  assert (F : Forall (fun e => is_tempo (e_body e) = true) tm) by apply tempo_events_only.
  assert (I0 : ideal_time (map tempo_entry tm) (Z.to_nat 0) = 0) by reflexivity.
  apply (times_tempo (map tempo_entry tm) ppqn Hp HT (ex_intro _ (0, t) (conj Ht eq_refl)) _ track tm [] 0 0 false 0 50000 l' (le_n _)) in E; auto; try lia.
  - rewrite map_map in HB. exact HB.
  - unfold aligned in HAl. rewrite Forall_forall in *. intros b Hb. apply (HAl (tempo_entry b)). apply in_map. exact Hb.
Qed.

(** ** Decoded files *)

Lemma decoded_tracks : forall env r s, is_bytes r -> decode env r = Ok s ->
  Forall (fun t => exists w c, is_bytes w /\ decode_events env new_context w = Ok (t_events t, c)) (f_tracks s).
Proof.
  intros env r s Hr H. unfold decode in H. destruct (chunks r) as [cs| | | |] eqn:C; try discriminate. cbn [bind] in H.
  apply (chunks_bytes (length r) r cs (le_n _) Hr) in C.
  destruct cs as [|c cs]; [discriminate|]. destruct (unmarshal_mthd c) as [h| | | |]; try discriminate. cbn [bind] in H.
  destruct (decode_tracks env 0 cs) as [ts| | | |] eqn:E; try discriminate. cbn [bind] in H.
  destruct (_ =? _); [|discriminate]. apply Ok_inj in H. subst s. cbn [f_tracks]. inversion C as [|? ? _ C']; subst. clear C.
  revert E. assert (G : exists m, m = 0) by eauto. destruct G as [m Em]. rewrite <- Em at 1. clear Em. revert ts m.
  induction cs as [|w cs IH]; intros ts n E; cbn [decode_tracks] in E.
  - apply Ok_inj in E. subst. constructor.
  - inversion C' as [|? ? Cw Cs]; subst. destruct (bytes_eqb _ _); [|eapply IH; eassumption].
    destruct (unmarshal_mtrk env n new_context w) as [t| | | |] eqn:Et; try discriminate. cbn [bind] in E.
    destruct (decode_tracks env (n + 1) cs) as [ts'| | | |] eqn:E'; try discriminate. cbn [bind] in E.
    apply Ok_inj in E. subst ts. constructor; [|eapply IH; eassumption].
    unfold unmarshal_mtrk in Et.
    destruct w as [|a0 [|a1 [|a2 [|a3 [|a4 [|a5 [|a6 [|a7 r']]]]]]]]; try discriminate;
    destruct (negb (bytes_eqb [a0; a1; a2; a3] (str "MTrk"))); try discriminate.
    destruct (decode_events env new_context r') as [[es c']| | | |] eqn:Ed; try discriminate. cbn [bind] in Et.
    apply Ok_inj in Et. subst t. cbn [t_events]. exists r', c'. split; [|exact Ed].
    repeat (apply is_bytes_inv in Cw as [_ Cw]). exact Cw.
Qed.

Lemma sums_ticks : forall es t0, (forall i e, nth_error es i = Some e -> e_tick e = t0 + total_delta (firstn (S i) es)) -> Forall (fun e => 0 <= e_delta e) es -> ticks_from t0 es.
Proof.
  induction es as [|e es IH]; intros t0 H F; [exact I|]. inversion F; subst. cbn [ticks_from]. pose proof (H 0%nat e eq_refl) as H0.
  unfold total_delta in H0. cbn [firstn fold_right] in H0. split; [assumption|]. split; [lia|]. apply IH; [|assumption].
  intros i x Hx. specialize (H (S i) x Hx). rewrite H, H0. change (firstn (S (S i)) (e :: es)) with (e :: firstn (S i) es). unfold total_delta. cbn [fold_right]. lia.
Qed.

Lemma decoded_ticks : forall env r s, is_bytes r -> decode env r = Ok s ->
  Forall (fun t => Forall (fun e => 0 <= e_tick e /\ 0 <= e_delta e) (t_events t) /\ (total_delta (t_events t) < 4294967296 -> ticks_from 0 (t_events t))) (f_tracks s).
Proof.
  intros env r s Hr H. eapply Forall_impl; [|exact (decoded_tracks env r s Hr H)]. cbv beta. intros t (w & c & Hw & E). pose proof (ticks env w _ c Hw E) as T.
  assert (F : Forall (fun e => 0 <= e_tick e /\ 0 <= e_delta e) (t_events t)).
  { apply nth_Forall. intros i x Hi. destruct (T i x Hi) as [T1 T2]. pose proof (Z.mod_pos_bound (total_delta (firstn i (t_events t))) 4294967296 ltac:(lia)). lia. }
  split; [exact F|]. intro Hb. apply sums_ticks.
  - intros i e Hi. rewrite Z.add_0_l. apply (proj1 (ticks_sum env w _ c Hw E Hb)). exact Hi.
  - eapply Forall_impl; [|exact F]. cbv beta. tauto.
Qed.

Lemma build_in : forall track tm ppqn es e, build_track_events track tm ppqn = Ok es -> In e es -> exists x, In x (track ++ tm) /\ e_body x = ne_body e.
Proof.
  intros track tm ppqn es e H He. unfold build_track_events in H. destruct (timestamps _ _ _ _ _) as [l'| | | |] eqn:E; try discriminate. cbn [bind] in H.
  apply Ok_inj in H. subst es. apply filter_In in He as [He _].
  assert (M : map tb l' = map tb (sort_ticks (unsorted track tm))).
  { destruct (Z.eq_dec ppqn 0) as [->|Hp].
    - rewrite timestamps_panic in E. destruct (sort_ticks _); [|discriminate]. apply Ok_inj in E. subst. reflexivity.
    - destruct (timestamps_ok ppqn (sort_ticks (unsorted track tm)) 50000 0 false Hp) as (l2 & E2 & M). rewrite E2 in E. apply Ok_inj in E. subst. exact M. }
  apply (in_map tb) in He. rewrite M in He. apply in_map_iff in He as (x & Ex & Hx). apply (Permutation_in _ (sort_permutation _)) in Hx.
  unfold unsorted in Hx. unfold tb in Ex. injection Ex as _ Ex. apply in_app_or in Hx as [Hx|Hx]; apply in_map_iff in Hx as (y & <- & Hy); exists y; (split; [apply in_or_app; auto|exact Ex]).
Qed.

Lemma decoded_notes_range : forall env r s t t0 ppqn es, is_bytes r -> decode env r = Ok s -> In t (f_tracks s) -> In t0 (f_tracks s) ->
  build_track_events (t_events t) (tempo_events (t_events t0)) ppqn = Ok es -> notes_in_range es.
Proof.
  intros env r s t t0 ppqn es Hr H Ht Ht0 E. pose proof (decoded_file env r s Hr H) as F. rewrite Forall_forall in F.
  apply Forall_forall. intros e He. destruct (build_in _ _ _ _ e E He) as (x & Hx & Ex). rewrite <- Ex.
  assert (D : decoded_body env (e_body x)).
  { apply in_app_or in Hx as [Hx|Hx].
    - destruct (F t Ht) as (_ & _ & G). rewrite Forall_forall in G. apply (G x Hx).
    - destruct (F t0 Ht0) as (_ & _ & G). rewrite Forall_forall in G. apply filter_In in Hx. apply (G x (proj1 Hx)). }
  destruct (e_body x); cbn in *; try exact I; lia.
Qed.

(** ** Extraction (C39, C41) *)

Lemma tracks_notes_inv : forall env steps order tm ppqn ts notes, tracks_notes env steps order tm ppqn ts = Ok notes ->
  exists nss, notes = concat nss /\ Forall2 (fun t ns => exists es, build_track_events (t_events t) tm ppqn = Ok es /\ note_list env steps order [] es = Ok ns) ts nss.
Proof.
  intros env steps order tm ppqn ts. induction ts as [|t ts IH]; intros notes H; cbn [tracks_notes] in H.
  - apply Ok_inj in H. subst. exists []. split; [reflexivity|constructor].
  - unfold track_notes in H. destruct (build_track_events _ _ _) as [es| | | |] eqn:E; try discriminate. cbn [bind] in H.
    destruct (note_list _ _ _ _ _) as [a| | | |] eqn:E1; try discriminate. cbn [bind] in H.
    destruct (tracks_notes _ _ _ _ _ _) as [b| | | |] eqn:E2; try discriminate. cbn [bind] in H. apply Ok_inj in H. subst.
    destruct (IH b eq_refl) as (nss & -> & F). exists (a :: nss). split; [reflexivity|]. constructor; [eauto|exact F].
Qed.

Theorem extracted_notes : forall env steps order r s notes, (forall l, Permutation l (order l)) -> reasonable steps -> is_bytes r -> decode env r = Ok s ->
  extract env steps order s = Ok notes ->
  exists nss, notes = concat nss /\
    Forall2 (fun t ns => exists es, lists_notes env steps es ns /\ ascending 0 (map ne_tick es) /\
       (total_delta (t_events t) < 4294967296 -> (forall t0, nth_error (f_tracks s) 0 = Some t0 -> total_delta (t_events t0) < 4294967296) ->
        map (fun e => (ne_tick e, ne_body e)) es = own_notes (t_events t))) (tl (f_tracks s)) nss.
Proof.
  intros env steps order r s notes Ho Hs Hr D H. destruct (decoded_header env r s D) as (h & Hh & _). unfold extract in H. rewrite Hh in H.
  pose proof (decoded_ticks env r s Hr D) as T. pose proof (decoded_notes_range env r s) as R. destruct (f_tracks s) as [|t0 ts]; [discriminate|]. cbn [tl].
  destruct ts as [|t1 ts'].
  - apply Ok_inj in H. subst. exists []. split; [reflexivity|constructor].
  - set (ts := t1 :: ts') in *. apply tracks_notes_inv in H as (nss & -> & F). exists nss. split; [reflexivity|].
    assert (In_all : forall t, In t ts -> In t (t0 :: ts)) by (intros; right; assumption). clearbody ts. inversion T as [|? ? [T0 T0'] T']; subst. clear T.
    induction F as [|t ns ts nss (es & B & N) F IH]; [constructor|]. inversion T' as [|? ? [T1 T1'] T'']; subst. constructor; [|apply IH; [| |exact T'']].
    + exists es. destruct (notes_paired env steps order es Ho) as (notes & ps & E1 & E2 & E3 & E4); [|exact Hs|].
      * apply (R t t0 _ es Hr D (or_intror (or_introl eq_refl)) (or_introl eq_refl) B).
      * rewrite E1 in N. apply Ok_inj in N. subst notes. split; [|split].
        -- exists ps. split; [exact E3|]. split; [exact E2|exact E4].
        -- eapply track_events_sorted; [exact B|]. apply Forall_app. split; [eapply Forall_impl; [|exact T1]; cbv beta; tauto|].
           apply Forall_filter. eapply Forall_impl; [|exact T0]; cbv beta; tauto.
        -- intros H1 H2. assert (A0 : ascending 0 (map e_tick (tempo_events (t_events t0)))) by (apply ascending_filter, ticks_ascending, T0', H2; reflexivity).
           exact (track_events_order (t_events t) (t_events t0) _ es (ticks_ascending _ _ (T1' H1)) A0 B).
    + intros t' t'' ppqn es' Hr' D' I1 I2 B'. apply (R t' t'' ppqn es' Hr' D'); [|  |exact B'].
      * destruct I1 as [I1|I1]; [left; exact I1|right; right; exact I1].
      * destruct I2 as [I2|I2]; [left; exact I2|right; right; exact I2].
    + intros t' Ht'. right. exact Ht'.
Qed.

Lemma tracks_notes_total : forall env steps order tm ppqn ts, ppqn <> 0 ->
  Forall (fun t => forall es, build_track_events (t_events t) tm ppqn = Ok es -> exists ns, note_list env steps order [] es = Ok ns) ts ->
  exists ns, tracks_notes env steps order tm ppqn ts = Ok ns.
Proof.
  intros env steps order tm ppqn ts Hp F. induction F as [|t ts Ht F IH]; cbn [tracks_notes]; [eauto|]. unfold track_notes.
  destruct (track_events_total (t_events t) tm ppqn Hp) as [es E]. rewrite E. cbn [bind]. destruct (Ht es E) as [ns ->]. cbn [bind]. destruct IH as [ms ->]. cbn [bind]. eauto.
Qed.

Lemma unsorted_nil : forall track tm, sort_ticks (unsorted track tm) = [] <-> track = [] /\ tm = [].
Proof.
  intros track tm. split.
  - intro H. pose proof (sort_permutation (unsorted track tm)) as P. rewrite H in P. apply Permutation_nil in P. unfold unsorted in P.
    apply app_eq_nil in P as [P1 P2]. split; [apply map_eq_nil in P1; exact P1|apply map_eq_nil in P2; exact P2].
  - intros [-> ->]. reflexivity.
Qed.

(** The listing succeeds or panics, as follows. *)
Theorem extract_outcome : forall env steps order r s h, (forall l, Permutation l (order l)) -> reasonable steps -> is_bytes r -> decode env r = Ok s -> f_mthd s = Some h ->
  match f_tracks s with
  | [] => extract env steps order s = Panic
  | [_] => extract env steps order s = Ok []
  | t0 :: ts =>
      if (h_ppqn h =? 0) && (existsb (fun e => match e_body e with Tempo _ => true | _ => false end) (t_events t0) || existsb (fun t => negb (zlen (t_events t) =? 0)) ts)
      then extract env steps order s = Panic
      else exists notes, extract env steps order s = Ok notes
  end.
Proof.
  intros env steps order r s h Ho Hs Hr D Hh. unfold extract. rewrite Hh. pose proof (decoded_notes_range env r s) as R.
  destruct (f_tracks s) as [|t0 [|t1 ts']]; [reflexivity|reflexivity|]. set (ts := t1 :: ts') in *.
  assert (NT : ts <> []) by discriminate. assert (SUB : forall t, In t ts -> In t (t0 :: ts)) by (intros; right; assumption). clearbody ts.
  destruct (Z.eqb_spec (h_ppqn h) 0) as [->|Hp]; cbn [andb].
  - destruct (existsb (fun e => match e_body e with Tempo _ => true | _ => false end) (t_events t0)) eqn:X.
    + cbn [orb]. assert (TM : tempo_events (t_events t0) <> []).
      { apply existsb_exists in X as (x & Hx & X). intro N. assert (In x (tempo_events (t_events t0))) by (apply filter_In; split; assumption). rewrite N in *. contradiction. }
      destruct ts as [|t ts]; [congruence|]. cbn [tracks_notes]. unfold track_notes, build_track_events. rewrite timestamps_panic.
      destruct (sort_ticks _) eqn:E; [|reflexivity]. apply unsorted_nil in E as [_ E]. congruence.
    + cbn [orb]. assert (TM : tempo_events (t_events t0) = []).
      { clear - X. induction (t_events t0) as [|e es IH]; [reflexivity|]. cbn [existsb tempo_events filter] in *. apply Bool.orb_false_iff in X as [X1 X2].
        unfold is_tempo at 1. destruct (e_body e); try discriminate; apply IH; exact X2. }
      rewrite TM. clear - Ho Hs. induction ts as [|t ts IH]; [cbn; eauto|]. cbn [existsb tracks_notes]. unfold track_notes, build_track_events at 1. rewrite timestamps_panic.
      destruct (t_events t) as [|e es] eqn:Et.
      * change (negb (zlen (@nil event) =? 0)) with false. cbn [unsorted map app sort_ticks bind filter note_list orb].
        destruct (existsb (fun t => negb (zlen (t_events t) =? 0)) ts).
        -- rewrite IH. reflexivity.
        -- destruct IH as [ns ->]. eexists. reflexivity.
      * assert (Z1 : zlen (e :: es) =? 0 = false) by (unfold zlen; cbn [length]; lia). rewrite Z1. cbn [negb orb].
        destruct (sort_ticks _) eqn:E; [|reflexivity]. apply unsorted_nil in E as [E _]. discriminate.
  - apply tracks_notes_total; [exact Hp|]. apply Forall_forall. intros t Ht es E.
    destruct (notes_paired env steps order es Ho) as (notes & ps & E1 & _); [|exact Hs|eauto].
    apply (R t t0 _ es Hr D (SUB t Ht) (or_introl eq_refl) E).
Qed.

(** ** Click track (C42) *)

Theorem click_empty : forall env r s, decode env r = Ok s -> click_lines s = match f_tracks s with [] => Panic | _ => Ok 0%nat end.
Proof.
  intros env r s D. destruct (decoded_header env r s D) as (h & Hh & _). unfold click_lines. rewrite Hh. destruct (f_tracks s) as [|t0 [|t ts]]; try reflexivity.
  f_equal. unfold click_events. assert (N : forall l f, (forall e : event, f e = false) -> filter f l = []).
  { clear. induction l as [|e l IH]; intros f Hf; [reflexivity|]. cbn [filter]. rewrite Hf. apply IH, Hf. }
  rewrite !N; [reflexivity| |]; intros []; reflexivity.
Qed.

(** ** Durations *)

Lemma finished_duration : forall env steps p e, o_duration (finished env steps p e) = wrap64 (o_end (finished env steps p e) - o_start (finished env steps p e)).
Proof. intros env steps p e. unfold finished. destruct (ne_body p); reflexivity. Qed.

Lemma finish_all_durations : forall env steps order p e, Forall (fun o => o_duration o = wrap64 (o_end o - o_start o)) (finish_all env steps order p e).
Proof.
  intros env steps order p e. unfold finish_all. apply Forall_forall. intros o Ho. apply in_flat_map in Ho as (ch & _ & Ho). apply in_map_iff in Ho as (x & <- & _). apply finished_duration.
Qed.

Lemma note_durations : forall env steps order es p ns, note_list env steps order p es = Ok ns -> Forall (fun o => o_duration o = wrap64 (o_end o - o_start o)) ns.
Proof.
  intros env steps order es. induction es as [|e es IH]; intros p ns H; cbn [note_list] in H; [apply Ok_inj in H; subst; constructor|].
  assert (FIN : forall k q r out, finish env steps q k e = (out, r) -> Forall (fun o => o_duration o = wrap64 (o_end o - o_start o)) out).
  { intros k q r out Hf. unfold finish in Hf. destruct (find_key k q); apply pair_equal_spec in Hf as [<- _]; repeat constructor. apply finished_duration. }
  destruct (ne_body e); try (eapply IH; eassumption).
  - destruct (finish _ _ _ _ _) as [out p'] eqn:E. destruct (note_list _ _ _ p' es) as [ms| | | |] eqn:E1; try discriminate. cbn [bind] in H. apply Ok_inj in H. subst.
    apply Forall_app. split; [eapply FIN; exact E|eapply IH; exact E1].
  - destruct (0 <? _).
    + destruct (find_key _ _); [eapply IH; exact H|]. destruct (_ <? 16); [eapply IH; exact H|discriminate].
    + destruct (finish _ _ _ _ _) as [out p'] eqn:E. destruct (note_list _ _ _ p' es) as [ms| | | |] eqn:E1; try discriminate. cbn [bind] in H. apply Ok_inj in H. subst.
      apply Forall_app. split; [eapply FIN; exact E|eapply IH; exact E1].
  - match type of H with context [note_list _ _ _ ?q es] => destruct (note_list env steps order q es) as [ms| | | |] eqn:E1; try discriminate end.
    cbn [bind] in H. apply Ok_inj in H. subst. apply Forall_app. split; [apply finish_all_durations|eapply IH; exact E1].
Qed.

Theorem note_order : forall env steps order track tm ppqn M es ns, (forall l, Permutation l (order l)) -> reasonable steps ->
  0 < ppqn -> 50000 <= M -> tempos_within M (track ++ tm) -> Forall (fun e => 0 <= e_delta e) track -> Forall (fun e => 0 <= e_tick e) (track ++ tm) ->
  1000 * total_delta track * M < 9000000000000000000 -> notes_in_range es ->
  build_track_events track tm ppqn = Ok es -> note_list env steps order [] es = Ok ns ->
  Forall (fun o => 0 <= o_start_tick o <= o_end_tick o /\ 0 <= o_start o <= o_end o /\ o_duration o = o_end o - o_start o) ns.
Proof.
  intros env steps order track tm ppqn M es ns Ho Hs Hp HM HT HD HK HB HR B N.
  destruct (track_times_sorted _ _ _ _ _ Hp HM HT HD HB B) as [S1 S2]. pose proof (track_events_sorted _ _ _ _ B HK) as S3.
  pose proof (note_durations _ _ _ _ _ _ N) as S4. destruct (notes_paired env steps order es Ho HR Hs) as (ns' & ps & E1 & E2 & E3 & E4). rewrite N in E1. apply Ok_inj in E1. subst ns'.
  assert (E5 : Forall (fun p : nat * nat => (fst p < snd p)%nat) ps).
  { apply Forall_forall. intros [i j] Hi. apply E4 in Hi as (ch & k & L & _). exact L. }
  clear N E3 E4. induction E2 as [|p o ps ns (a & b & A1 & A2 & ch & n & v & _ & _ & _ & _ & _ & L1 & L2 & L3 & L4) F IH]; [constructor|].
  inversion S4; subst. inversion E5; subst. constructor; [|apply IH; assumption]. destruct p as [i j]. cbn [fst snd] in *.
  assert (T : forall (f : nevent -> Z) t0, ascending t0 (map f es) -> t0 <= f a <= f b).
  { intros f t0 HA. eapply (ascending_nth (map f es) t0 i j); [exact HA|lia| |]; rewrite nth_error_map; [rewrite A1|rewrite A2]; reflexivity. }
  pose proof (T ne_at _ S1). pose proof (T ne_tick _ S3). rewrite Forall_forall in S2. pose proof (S2 b (nth_error_In _ _ A2)).
  rewrite L1, L2, L3, L4. split; [lia|]. split; [lia|]. rewrite L3, L4 in *. rewrite H1. apply wrap64_id. lia.
Qed.
