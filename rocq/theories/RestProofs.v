(** * Proofs for C126. *)
From Coq Require Import Permutation.
From Verif Require PaceUseProofs.
From Verif Require Import Base Strings Tables Event Track File Notes SpecNotes SpecNames SpecSlower SlowerProofs SpecRest TransposeProofs NotesTimeProofs SpecTrack SpecDecoded DecodedProofs SpecHistory.

Local Notation BOUND := 9000000000000000000.

(** [shifted k d x y]: the same event, [k] ticks and [d] nanoseconds (before rounding) later *)
Definition shifted (k d : Z) (x y : nevent) : Prop :=
  ne_tick y = ne_tick x + k /\ ne_flats y = ne_flats x /\ ne_body y = ne_body x /\
  exists a, 0 <= a /\ 0 <= d /\ a + d < BOUND /\ ne_at x = round_ms a /\ ne_at y = round_ms (a + d).

(** Before times are known: [k] ticks later, after the same delta time *)
Definition raw_later (k : Z) (x y : nevent) : Prop := ne_tick y = ne_tick x + k /\ ne_delta y = ne_delta x /\ ne_body y = ne_body x.

(** The rest comes after tempo changes of the other track. *)
Inductive switched (k : Z) : list nevent -> list nevent -> Prop :=
| sw_before : forall x y l l', raw_later k x y -> is_tempo (ne_body x) = true -> switched k l l' -> switched k (x :: l) (y :: l')
| sw_now : forall x y l l', ne_tick y = ne_tick x + k -> ne_delta y = ne_delta x + k -> ne_body y = ne_body x -> Forall2 (raw_later k) l l' -> switched k (x :: l) (y :: l').

Lemma insert_raw : forall k x y l l', raw_later k x y -> Forall2 (raw_later k) l l' -> Forall2 (raw_later k) (insert_tick x l) (insert_tick y l').
Proof.
  intros k x y l l' H F. induction F as [|a b l l' Q F IH]; cbn [insert_tick]; [repeat constructor; apply H|].
  rewrite (proj1 H), (proj1 Q). replace (ne_tick a + k <? ne_tick x + k) with (ne_tick a <? ne_tick x) by lia. destruct (ne_tick a <? ne_tick x); constructor; auto.
Qed.

Lemma sort_raw : forall k l l', Forall2 (raw_later k) l l' -> Forall2 (raw_later k) (sort_ticks l) (sort_ticks l').
Proof. intros k l l' F. induction F; cbn [sort_ticks]; [constructor|]. apply insert_raw; assumption. Qed.

Lemma insert_switch : forall k x y l l', ne_tick y = ne_tick x + k -> ne_delta y = ne_delta x + k -> ne_body y = ne_body x -> Forall2 (raw_later k) l l' ->
  Forall (fun z => ne_tick z < ne_tick x -> is_tempo (ne_body z) = true) l -> switched k (insert_tick x l) (insert_tick y l').
Proof.
  intros k x y l l' H1 H2 H3 F. induction F as [|a b l l' Q F IH]; intros T; cbn [insert_tick]; [apply sw_now; auto|].
  inversion T as [|? ? T1 T2]; subst. rewrite H1, (proj1 Q). destruct (Z.ltb_spec (ne_tick a) (ne_tick x)) as [L|L].
  - destruct (Z.ltb_spec (ne_tick a + k) (ne_tick x + k)); [|lia]. apply sw_before; auto.
  - destruct (Z.ltb_spec (ne_tick a + k) (ne_tick x + k)); [lia|]. apply sw_now; auto.
Qed.

Lemma sort_in : forall (P : nevent -> Prop) l, Forall P l -> Forall P (sort_ticks l).
Proof.
  intros P l F. induction F as [|x l H F IH]; [constructor|]. cbn [sort_ticks]. clear F. induction (sort_ticks l) as [|y r IHr]; cbn [insert_tick]; [repeat constructor; apply H|].
  inversion IH; subst. destruct (ne_tick y <? ne_tick x); repeat (constructor; auto).
Qed.

Lemma raw_tempos : forall k es es', Forall2 (later_event k) es es' -> Forall2 (later_event k) (tempo_events es) (tempo_events es').
Proof.
  intros k es es' F. induction F as [|e e' es es' H F IH]; [constructor|]. cbn [tempo_events filter]. rewrite (proj2 (proj2 H)).
  destruct (is_tempo (e_body e)); [constructor; [exact H|]|]; exact IH.
Qed.

(** Of the tempo map only ticks and contents count. *)
Definition mapped (k : Z) (e e' : event) : Prop := e_tick e' = e_tick e + k /\ e_body e' = e_body e.

Lemma rested_tempos : forall k es es', rested_events k es es' -> Forall2 (mapped k) (tempo_events es) (tempo_events es').
Proof.
  intros k [|e es] [|e' es'] H; try contradiction; [constructor|]. destruct H as (H1 & _ & H2 & F).
  assert (G : Forall2 (mapped k) (tempo_events es) (tempo_events es')).
  { pose proof (raw_tempos k es es' F) as R. induction R as [|a b l l' (Q & _ & Q') R IH]; constructor; auto. split; assumption. }
  cbn [tempo_events filter]. rewrite H2. destruct (is_tempo (e_body e)); [constructor; [split; assumption|]|]; exact G.
Qed.

Lemma tempo_events_tempo : forall es, Forall (fun e => is_tempo (e_body e) = true) (tempo_events es).
Proof. intros es. apply Forall_forall. intros e I. apply filter_In in I. tauto. Qed.

Lemma sorted_switch : forall k e es e' es' tm tm', rested_events k (e :: es) (e' :: es') -> Forall2 (mapped k) tm tm' -> Forall (fun e => is_tempo (e_body e) = true) tm ->
  ascending (e_tick e) (map e_tick es) ->
  switched k (sort_ticks (unsorted (e :: es) tm)) (sort_ticks (unsorted (e' :: es') tm')).
Proof.
  intros k e es e' es' tm tm' (H1 & H2 & H3 & F) G T A. unfold unsorted. cbn [map app sort_ticks]. apply insert_switch; auto.
  - apply sort_raw. apply Forall2_app.
    + clear - F. induction F as [|a b l l' (Q1 & Q2 & Q3) F IH]; cbn [map]; constructor; auto. repeat split; auto.
    + clear - G. induction G as [|a b l l' (Q1 & Q2) G IH]; cbn [map]; constructor; auto. repeat split; auto.
  - apply sort_in. apply Forall_app. split; rewrite Forall_map; cbn [ne_tick ne_body].
    + clear - A. revert A. generalize (e_tick e). induction es as [|a es IH]; intros t A; [constructor|]. cbn [map ascending] in A. destruct A as [A B]. constructor; [lia|].
      apply IH. eapply ascending_weaken; eassumption.
    + revert T. apply Forall_impl. auto.
Qed.

(** Times after the rest *)
Lemma times_later : forall k p d l l', 0 < p -> 0 <= d -> Forall2 (raw_later k) l l' -> sane l -> forall tempo a flats,
  0 <= tempo <= 16777215 -> 0 <= a -> sum_deltas l < 536000000 -> a + d + 1000 * 16777215 * sum_deltas l < BOUND ->
  exists u v, timestamps tempo a flats p l = Ok u /\ timestamps tempo (a + d) flats p l' = Ok v /\ Forall2 (shifted k d) u v.
Proof.
  intros k p d l l' P D F. induction F as [|x y l l' (H1 & H2 & H3) F IH]; intros S1 tempo a flats T A L B; cbn [timestamps]; [exists [], []; repeat split; constructor|].
  inversion S1 as [|? ? [X1 X2] S1']; subst. pose proof (sum_nonneg _ S1') as N.
  cbn [sum_deltas fold_right] in L, B. fold (sum_deltas l) in L, B. rewrite H2, H3.
  destruct (delta_time_ok (ne_delta x) tempo p) as [E1 R1]; [lia..|]. rewrite E1. cbn [bind]. set (c := 1000 * ne_delta x * tempo / p) in *.
  rewrite (wrap64_id (a + c)) by lia. rewrite (wrap64_id (a + d + c)) by lia. replace (a + d + c) with (a + c + d) by lia.
  set (flats' := match ne_body x with KeySignature acc _ _ => acc <? 0 | _ => flats end).
  assert (TT : 0 <= (match ne_body x with Tempo t => t | _ => tempo end) <= 16777215) by (destruct (ne_body x); lia).
  destruct (IH S1' _ (a + c) flats' TT ltac:(lia) ltac:(lia) ltac:(lia)) as (u & v & -> & -> & Q). cbn [bind].
  eexists. eexists. split; [reflexivity|]. split; [reflexivity|]. constructor; [|exact Q]. unfold shifted. cbn [ne_tick ne_flats ne_body ne_at]. repeat split; auto.
  exists (a + c). repeat split; lia.
Qed.

Definition noted (l : list nevent) : list nevent := filter (fun e => is_note_event (ne_body e)) l.

Lemma noted_shifted : forall k d l l', Forall2 (shifted k d) l l' -> Forall2 (shifted k d) (noted l) (noted l').
Proof.
  intros k d l l' F. unfold noted. induction F as [|x y l l' H F IH]; [constructor|]. cbn [filter]. rewrite (proj1 (proj2 (proj2 H))).
  destruct (is_note_event (ne_body x)); [constructor|]; auto.
Qed.

Lemma times_rest : forall k p l l', 0 < p -> 0 <= k -> switched k l l' -> sane l -> forall tempo a flats,
  0 <= tempo <= 16777215 -> 0 <= a -> k + sum_deltas l < 536000000 -> a + 1000 * 16777215 * (k + sum_deltas l) < BOUND ->
  exists u v d, timestamps tempo a flats p l = Ok u /\ timestamps tempo a flats p l' = Ok v /\ Forall2 (shifted k d) (noted u) (noted v).
Proof.
  intros k p l l' P KP S0. induction S0 as [x y l l' (H1 & H2 & H3) TE S0 IH|x y l l' H1 H2 H3 F]; intros S1 tempo a flats T A L B; cbn [timestamps];
    inversion S1 as [|? ? [X1 X2] S1']; subst; pose proof (sum_nonneg _ S1') as N;
    cbn [sum_deltas fold_right] in L, B; fold (sum_deltas l) in L, B; rewrite H2, H3;
    (destruct (delta_time_ok (ne_delta x) tempo p) as [E1 R1]; [lia..|]);
    (assert (TT : 0 <= (match ne_body x with Tempo t => t | _ => tempo end) <= 16777215) by (destruct (ne_body x); lia));
    set (flats' := match ne_body x with KeySignature acc _ _ => acc <? 0 | _ => flats end).
  - rewrite E1. cbn [bind]. set (c := 1000 * ne_delta x * tempo / p) in *. rewrite (wrap64_id (a + c)) by lia.
    destruct (IH S1' _ (a + c) flats' TT ltac:(lia) ltac:(lia) ltac:(lia)) as (u & v & d & -> & -> & Q). cbn [bind].
    do 3 eexists. split; [reflexivity|]. split; [reflexivity|]. unfold noted in *. cbn [filter ne_body]. destruct (ne_body x); try discriminate TE. cbn [is_note_event]. exact Q.
  - destruct (delta_time_ok (ne_delta x + k) tempo p) as [E2 R2]; [lia..|]. rewrite E1, E2. cbn [bind].
    assert (D : 1000 * ne_delta x * tempo / p <= 1000 * (ne_delta x + k) * tempo / p) by (apply Z.div_le_mono; nia).
    set (c := 1000 * ne_delta x * tempo / p) in *. set (c' := 1000 * (ne_delta x + k) * tempo / p) in *.
    rewrite (wrap64_id (a + c)) by lia. rewrite (wrap64_id (a + c')) by lia. replace (a + c') with (a + c + (c' - c)) by lia.
    destruct (times_later k p (c' - c) l l' P ltac:(lia) F S1' _ (a + c) flats' TT ltac:(lia) ltac:(lia) ltac:(lia)) as (u & v & -> & -> & Q). cbn [bind].
    do 2 eexists. exists (c' - c). split; [reflexivity|]. split; [reflexivity|]. apply noted_shifted. constructor; [|exact Q].
    unfold shifted. cbn [ne_tick ne_flats ne_body ne_at]. repeat split; auto. exists (a + c). repeat split; lia.
Qed.

(** Notes *)
Definition struck (k d : Z) (x y : nevent) : Prop := shifted k d x y /\ exists ch n v, ne_body x = NoteOn ch n v.

Lemma finished_rested : forall env steps k d p p' e e', struck k d p p' -> shifted k d e e' -> rested_note k (finished env steps p e) (finished env steps p' e').
Proof.
  intros env steps k d p p' e e' ((P1 & P2 & P3 & a & A1 & A2 & A3 & A4 & A5) & ch & n & v & K) (E1 & E2 & E3 & b & B1 & B2 & B3 & B4 & B5).
  unfold finished. rewrite P3, K. unfold rested_note. cbn [o_ch o_note o_name o_vel o_start_tick o_end_tick o_start o_end o_duration].
  rewrite P1, P2, E1, A4, A5, B4, B5, !round_nonneg by lia. split; [reflexivity|]. split; [reflexivity|]. split; [reflexivity|]. split; [lia|].
  rewrite !wrap64_id by lia. lia.
Qed.

Definition pending_rested (k d : Z) : pending -> pending -> Prop := Forall2 (fun u v => fst u = fst v /\ struck k d (snd u) (snd v)).

Lemma find_rested : forall k d i p p', pending_rested k d p p' ->
  match find_key i p, find_key i p' with Some x, Some y => struck k d x y | None, None => True | _, _ => False end.
Proof.
  intros k d i p p' F. induction F as [|[a x] [b y] p p' (Q & H) F IH]; cbn [find_key]; [exact I|]. cbn [fst snd] in Q, H. subst b.
  destruct (key_eqb i a); [exact H|exact IH].
Qed.

Lemma filter_rested : forall k d (f : Z * Z -> bool) p p', pending_rested k d p p' -> pending_rested k d (filter (fun x => f (fst x)) p) (filter (fun x => f (fst x)) p').
Proof.
  intros k d f p p' F. induction F as [|u v p p' Q F IH]; [constructor|]. cbn [filter]. destruct Q as [Q H]. rewrite <- Q.
  destruct (f (fst u)); [constructor; auto|exact IH].
Qed.

Lemma ordered_rested : forall k d env steps order order' q q' e e', (forall l, Permutation l (order l)) -> (forall l, Permutation l (order' l)) ->
  pending_rested k d q q' -> shifted k d e e' ->
  matched (rested_note k) (map (fun on => finished env steps on e) (order (map snd q))) (map (fun on => finished env steps on e') (order' (map snd q'))).
Proof.
  intros k d env steps order order' q q' e e' O1 O2 F H.
  assert (G : Forall2 (struck k d) (map snd q) (map snd q')).
  { clear O1 O2. induction F as [|u v q q' (_ & Q) F IH]; cbn [map]; constructor; auto. }
  destruct (Permutation_Forall2 (O1 (map snd q)) G) as (m & P & G').
  exists (map (fun on => finished env steps on e') m). split.
  - apply Permutation_map. eapply Permutation_trans; [apply Permutation_sym, P|apply O2].
  - clear P G. induction G' as [|x y l m Q G IH]; cbn [map]; constructor; auto. eapply finished_rested; eassumption.
Qed.

Lemma finish_all_rested : forall k d env steps order order' q q' e e', (forall l, Permutation l (order l)) -> (forall l, Permutation l (order' l)) ->
  pending_rested k d q q' -> shifted k d e e' -> matched (rested_note k) (finish_all env steps order q e) (finish_all env steps order' q' e').
Proof.
  intros k d env steps order order' q q' e e' O1 O2 F H. unfold finish_all. induction channels16 as [|c cs IH]; cbn [flat_map]; [apply matched_same; constructor|].
  apply matched_app; [|exact IH]. apply (ordered_rested k d); auto. apply (filter_rested k d (fun i => fst i =? c)). exact F.
Qed.

Lemma finish_rested : forall k d env steps p p' i e e', pending_rested k d p p' -> shifted k d e e' ->
  matched (rested_note k) (fst (finish env steps p i e)) (fst (finish env steps p' i e')) /\ pending_rested k d (snd (finish env steps p i e)) (snd (finish env steps p' i e')).
Proof.
  intros k d env steps p p' i e e' F H. unfold finish. pose proof (find_rested k d i p p' F) as Q.
  destruct (find_key i p) as [x|], (find_key i p') as [y|]; try contradiction; cbn [fst snd].
  - split; [apply matched_same; constructor; [eapply finished_rested; eassumption|constructor]|]. apply (filter_rested k d (fun j => negb (key_eqb i j))). exact F.
  - split; [apply matched_same; constructor|exact F].
Qed.

Lemma notes_rested : forall k d env steps order order' l l', (forall l, Permutation l (order l)) -> (forall l, Permutation l (order' l)) -> Forall2 (shifted k d) l l' ->
  forall p p', pending_rested k d p p' -> alike (matched (rested_note k)) (note_list env steps order p l) (note_list env steps order' p' l').
Proof.
  intros k d env steps order order' l l' O1 O2 D. induction D as [|x y l l' H D IH]; intros p p' P; cbn [note_list].
  { apply matched_same. constructor. }
  assert (END : forall i, alike (matched (rested_note k))
     (let (out, q) := finish env steps p i x in do ns <- note_list env steps order q l; Ok (out ++ ns))
     (let (out, q) := finish env steps p' i y in do ns <- note_list env steps order' q l'; Ok (out ++ ns))).
  { intros i. destruct (finish_rested k d env steps p p' i x y P H) as [M N].
    destruct (finish env steps p i x) as [out q], (finish env steps p' i y) as [out' q']. cbn [fst snd] in M, N. specialize (IH _ _ N).
    destruct (note_list env steps order q l), (note_list env steps order' q' l'); cbn [alike bind] in IH |- *; try contradiction; auto.
    apply matched_app; assumption. }
  rewrite (proj1 (proj2 (proj2 H))). destruct (ne_body x) eqn:K; try (apply IH; exact P); try apply END.
  - match goal with |- context [0 <? ?w] => destruct (0 <? w); [|apply END] end.
    match goal with |- context [find_key ?i p] => pose proof (find_rested k d i p p' P) as Z1; destruct (find_key i p), (find_key i p'); try contradiction; [apply IH; exact P|] end.
    match goal with |- context [?c <? 16] => destruct (c <? 16); [|exact I] end.
    apply IH. constructor; [|exact P]. split; [reflexivity|]. split; [exact H|]. eauto.
  - assert (N := filter_rested k d (fun i => negb (existsb (Z.eqb (fst i)) channels16)) p p' P). specialize (IH _ _ N).
    cbn beta in IH. destruct (note_list env steps order _ l), (note_list env steps order' _ l'); cbn [alike bind] in IH |- *; try contradiction; auto.
    apply matched_app; [|exact IH]. apply (finish_all_rested k d); auto.
Qed.

Lemma track_rested : forall k env steps order order' es es' tm tm' p, (forall l, Permutation l (order l)) -> (forall l, Permutation l (order' l)) -> 0 <= k -> 0 <= p ->
  rested_events k es es' -> Forall2 (mapped k) tm tm' -> Forall (fun e => is_tempo (e_body e) = true) tm -> ascending 0 (map e_tick es) -> sane_events es -> sane_events tm ->
  fold_right Z.add 0 (map e_delta es') < 536000000 ->
  alike (matched (rested_note k)) (do l <- build_track_events es tm p; note_list env steps order [] l) (do l <- build_track_events es' tm' p; note_list env steps order' [] l).
Proof.
  intros k env steps order order' es es' tm tm' p O1 O2 K P H G T A S1 S3 B. unfold build_track_events.
  destruct es as [|e es], es' as [|e' es']; try contradiction.
  - (* an empty track: only tempo changes *)
    unfold unsorted. cbn [map app].
    assert (R : Forall2 (fun x y => raw_later k x y /\ is_tempo (ne_body x) = true /\ ne_delta x = 0)
       (map (fun e => NEvent (e_tick e) 0 0 (e_body e) false) tm) (map (fun e => NEvent (e_tick e) 0 0 (e_body e) false) tm')).
    { clear - G T. induction G as [|a b l l' (Q1 & Q2) G IH]; cbn [map]; constructor; inversion T; subst; auto. repeat split; auto. }
    assert (Q : forall l l', Forall2 (fun x y => raw_later k x y /\ is_tempo (ne_body x) = true /\ ne_delta x = 0) l l' -> forall x y, raw_later k x y /\ is_tempo (ne_body x) = true /\ ne_delta x = 0 ->
       Forall2 (fun x y => raw_later k x y /\ is_tempo (ne_body x) = true /\ ne_delta x = 0) (insert_tick x l) (insert_tick y l')).
    { intros l l' F. induction F as [|a b l l' W F IH]; intros x y V; cbn [insert_tick]; [constructor; [exact V|constructor]|].
      rewrite (proj1 (proj1 V)), (proj1 (proj1 W)). replace (ne_tick a + k <? ne_tick x + k) with (ne_tick a <? ne_tick x) by lia. destruct (ne_tick a <? ne_tick x); constructor; auto. }
    assert (R' : Forall2 (fun x y => raw_later k x y /\ is_tempo (ne_body x) = true /\ ne_delta x = 0)
       (sort_ticks (map (fun e => NEvent (e_tick e) 0 0 (e_body e) false) tm)) (sort_ticks (map (fun e => NEvent (e_tick e) 0 0 (e_body e) false) tm'))).
    { induction R; cbn [sort_ticks]; [constructor|]. apply Q; assumption. }
    revert R'. generalize (sort_ticks (map (fun e => NEvent (e_tick e) 0 0 (e_body e) false) tm)) (sort_ticks (map (fun e => NEvent (e_tick e) 0 0 (e_body e) false) tm')).
    intros l l' R'. assert (X : forall t1 t2 a1 a2 f1 f2, match timestamps t1 a1 f1 p l, timestamps t2 a2 f2 p l' with Ok u, Ok v => noted u = [] /\ noted v = [] | Panic, Panic => True | _, _ => False end).
    { induction R' as [|x y l l' ((_ & V2 & V3) & V4 & V5) R' IH]; intros t1 t2 a1 a2 f1 f2; cbn [timestamps]; [split; reflexivity|].
      rewrite V2, V5, V3. unfold delta_time. destruct (p =? 0); cbn [bind]; [exact I|]. destruct (ne_body x); try discriminate V4.
      match goal with |- context [timestamps ?t1 ?a1 ?f1 p l] => match goal with |- context [timestamps ?t2 ?a2 ?f2 p l'] => specialize (IH t1 t2 a1 a2 f1 f2);
        destruct (timestamps t1 a1 f1 p l), (timestamps t2 a2 f2 p l') end end; cbn [bind] in *; try contradiction; auto. }
    specialize (X 50000 50000 0 0 false false). destruct (timestamps 50000 0 false p l), (timestamps 50000 0 false p l'); cbn [bind alike] in *; try contradiction; auto.
    destruct X as [X1 X2]. unfold noted in X1, X2. rewrite X1, X2. apply matched_same. constructor.
  - pose proof H as (H1 & H2 & H3 & F).
    assert (SUM : fold_right Z.add 0 (map e_delta (e' :: es')) = k + fold_right Z.add 0 (map e_delta (e :: es))).
    { cbn [map fold_right]. rewrite H2. assert (Q : map e_delta es' = map e_delta es) by (clear - F; induction F as [|a b l l' (_ & Q & _) F IH]; cbn [map]; congruence). rewrite Q. lia. }
    rewrite SUM in B. cbn [map ascending] in A. destruct A as [_ A].
    pose proof (sorted_switch k e es e' es' tm tm' H G T A) as R.
    pose proof (sum_sort (unsorted (e :: es) tm)) as E. rewrite sum_unsorted in E. pose proof (sane_sort _ (sane_unsorted _ _ S1 S3)) as SA.
    destruct (Z.eq_dec p 0) as [->|NZ].
    + destruct R; exact I.
    + destruct (times_rest k p _ _ ltac:(lia) K R SA 50000 0 false ltac:(lia) ltac:(lia) ltac:(lia) ltac:(lia)) as (u & v & d & -> & -> & Q). cbn [bind].
      apply (notes_rested k d); auto. constructor.
Qed.

Lemma tracks_rested : forall k env steps order order' tm tm' p ts ts', (forall l, Permutation l (order l)) -> (forall l, Permutation l (order' l)) -> 0 <= k -> 0 <= p ->
  Forall2 (mapped k) tm tm' -> Forall (fun e => is_tempo (e_body e) = true) tm -> sane_events tm -> Forall2 (fun t t' => rested_events k (t_events t) (t_events t')) ts ts' ->
  Forall (fun t => sane_events (t_events t)) ts -> Forall (fun t => ascending 0 (map e_tick (t_events t))) ts ->
  Forall (fun t => fold_right Z.add 0 (map e_delta (t_events t)) < 536000000) ts' ->
  alike (matched (rested_note k)) (tracks_notes env steps order tm p ts) (tracks_notes env steps order' tm' p ts').
Proof.
  intros k env steps order order' tm tm' p ts ts' O1 O2 K P G T S3 F. induction F as [|t t' ts ts' H F IH]; intros S1 A B; cbn [tracks_notes]; [apply matched_same; constructor|].
  inversion S1; inversion A; inversion B; subst.
  pose proof (track_rested k env steps order order' _ _ _ _ p O1 O2 K P H G T ltac:(assumption) ltac:(assumption) S3 ltac:(assumption)) as X.
  unfold track_notes. destruct (do l <- build_track_events (t_events t) tm p; note_list env steps order [] l), (do l <- build_track_events (t_events t') tm' p; note_list env steps order' [] l);
    cbn [alike bind] in X |- *; try contradiction; auto.
  specialize (IH ltac:(assumption) ltac:(assumption) ltac:(assumption)).
  destruct (tracks_notes env steps order tm p ts), (tracks_notes env steps order' tm' p ts'); cbn [alike bind] in IH |- *; try contradiction; auto.
  apply matched_app; assumption.
Qed.

Lemma sum_rested : forall k es es', 0 <= k -> rested_events k es es' -> fold_right Z.add 0 (map e_delta es) <= fold_right Z.add 0 (map e_delta es').
Proof.
  intros k [|e es] [|e' es'] K H; try contradiction; [reflexivity|]. destruct H as (_ & H & _ & F). cbn [map fold_right]. rewrite H.
  assert (Q : map e_delta es' = map e_delta es) by (clear - F; induction F as [|a b l l' (_ & Q & _) F IH]; cbn [map]; congruence). rewrite Q. lia.
Qed.

Theorem rest_delays : forall env r k s s' steps order order', is_bytes r -> decode env r = Ok s -> 0 <= k -> rested_file k s s' -> short_tracks s' ->
  (forall l, Permutation l (order l)) -> (forall l, Permutation l (order' l)) ->
  alike (matched (rested_note k)) (extract env steps order s) (extract env steps order' s').
Proof.
  intros env r k s s' steps order order' Hr D K [E F] B O1 O2. pose proof (decoded_sane _ _ _ Hr D) as S1. pose proof (decoded_ticks _ _ _ Hr D) as TK.
  pose proof (PaceUseProofs.decoded_ppqn env r s) as PP. unfold extract, short_tracks in *.
  assert (A : Forall (fun t => ascending 0 (map e_tick (t_events t))) (f_tracks s)).
  { clear - F TK B K. revert TK B. induction F as [|t t' ts ts' H F IH]; intros TK B; constructor; inversion TK as [|? ? [_ Q] TK']; inversion B as [|? ? B1 B2]; subst; auto.
    apply ticks_ascending, Q. apply (Z.le_lt_trans _ (fold_right Z.add 0 (map e_delta (t_events t')))); [|lia].
    eapply Z.le_trans; [|eapply sum_rested; eassumption]. clear. apply Z.eq_le_incl. unfold total_delta. induction (t_events t) as [|e es IH]; cbn [map fold_right]; [reflexivity|]. rewrite IH. reflexivity. }
  clear TK. destruct F as [|t t' ts ts' H F]; [exact I|].
  inversion S1; inversion A; inversion B; subst.
  destruct (f_mthd s) as [h|], (f_mthd s') as [h'|]; cbn in E; try discriminate E.
  - injection E as E. rewrite <- E. destruct F as [|u u' us us' Q F]; [apply matched_same; constructor|].
    apply tracks_rested; auto using sane_tempos, rested_tempos, tempo_events_tempo.
  - destruct F as [|u u' us us' Q F]; [apply matched_same; constructor|exact I].
Qed.
