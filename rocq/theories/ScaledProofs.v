(** * Proofs for C129. *)
From Coq Require Import Permutation.
From Verif Require PaceUseProofs.
From Verif Require Import Base Strings Tables Event Track File Notes SpecNotes SpecNames SpecSlower SlowerProofs SpecDivided SpecScaled TransposeProofs NotesTimeProofs SpecTrack SpecDecoded DecodedProofs SpecHistory RestProofs.

Local Notation BOUND := 9000000000000000000.

(** Before rounding the time of the second event is [k] times that of the first one, or up to [k * m] nanoseconds more. *)
Definition stretched (k m : Z) (x y : nevent) : Prop :=
  exists a b, 0 <= a < BOUND /\ 0 <= b < BOUND /\ k * a <= b <= k * a + k * m /\ ne_at x = round_ms a /\ ne_at y = round_ms b.

Definition clocked (k m : Z) (x y : nevent) : Prop := ne_tick y = ne_tick x /\ ne_flats y = ne_flats x /\ ne_body y = times_body k (ne_body x) /\ stretched k m x y.

Definition shown (k n : Z) (x y : nevent) : Prop := ne_tick y = ne_tick x /\ ne_flats y = ne_flats x /\ ne_body y = ne_body x /\ stretched k (2 * n) x y.

(** Before times are known *)
Definition raw_times (k : Z) (x y : nevent) : Prop := ne_tick y = ne_tick x /\ ne_delta y = ne_delta x /\ ne_body y = times_body k (ne_body x).

Lemma insert_times : forall k x y l l', raw_times k x y -> Forall2 (raw_times k) l l' -> Forall2 (raw_times k) (insert_tick x l) (insert_tick y l').
Proof.
  intros k x y l l' H F. induction F as [|a b l l' Q F IH]; cbn [insert_tick]; [repeat constructor; apply H|].
  rewrite (proj1 H), (proj1 Q). destruct (ne_tick a <? ne_tick x); constructor; auto.
Qed.

Lemma sort_times : forall k l l', Forall2 (raw_times k) l l' -> Forall2 (raw_times k) (sort_ticks l) (sort_ticks l').
Proof. intros k l l' F. induction F; cbn [sort_ticks]; [constructor|]. apply insert_times; assumption. Qed.

Lemma unsorted_times : forall k es es' tm tm', Forall2 (times_event k) es es' -> Forall2 (times_event k) tm tm' -> Forall2 (raw_times k) (unsorted es tm) (unsorted es' tm').
Proof.
  intros k es es' tm tm' F G. unfold unsorted. apply Forall2_app.
  - induction F as [|e e' es es' (H1 & H2 & H3) F IH]; constructor; auto. repeat split; auto.
  - induction G as [|e e' tm tm' (H1 & H2 & H3) F' IH]; constructor; auto. repeat split; auto.
Qed.

Lemma tempos_times : forall k es es', Forall2 (times_event k) es es' -> Forall2 (times_event k) (tempo_events es) (tempo_events es').
Proof.
  intros k es es' F. induction F as [|e e' es es' (H1 & H2 & H3) F IH]; [constructor|]. cbn [tempo_events filter].
  assert (Q : is_tempo (e_body e') = is_tempo (e_body e)) by (rewrite H3; destruct (e_body e); reflexivity).
  rewrite Q. destruct (is_tempo (e_body e)); [constructor; [repeat split; auto|]|]; exact IH.
Qed.

(** Nothing takes time before the first tempo change. *)
Inductive quiet : list nevent -> Prop :=
| q_now : forall e l, ne_tick e = 0 -> ne_delta e = 0 -> is_tempo (ne_body e) = true -> quiet (e :: l)
| q_later : forall e l, ne_tick e = 0 -> ne_delta e = 0 -> is_tempo (ne_body e) = false -> quiet l -> quiet (e :: l).

Definition good (e : nevent) : Prop := 0 <= ne_tick e /\ (ne_tick e = 0 -> ne_delta e = 0).

Lemma quiet_insert : forall x l, good x -> quiet l -> quiet (insert_tick x l).
Proof.
  intros x l [G1 G2] Q. induction Q as [e l T D B|e l T D B Q IH]; cbn [insert_tick]; rewrite T; destruct (Z.ltb_spec 0 (ne_tick x)); try (constructor; assumption).
  - destruct (is_tempo (ne_body x)) eqn:X; [apply q_now|apply q_later]; try lia; auto; try (apply G2; lia). apply q_now; assumption.
  - destruct (is_tempo (ne_body x)) eqn:X; [apply q_now|apply q_later]; try lia; auto; try (apply G2; lia). apply q_later; assumption.
Qed.

Lemma quiet_sort : forall x l, In x l -> ne_tick x = 0 -> is_tempo (ne_body x) = true -> Forall good l -> quiet (sort_ticks l).
Proof.
  intros x l I T B F. induction F as [|y l H F IH]; [contradiction|]. cbn [sort_ticks]. destruct I as [<-|I]; [|apply quiet_insert; auto].
  pose proof (sort_in _ _ F) as S0. destruct (sort_ticks l) as [|z r]; cbn [insert_tick]; [apply q_now; auto; apply H, T|].
  inversion S0 as [|? ? [Z1 _] _]; subst. destruct (Z.ltb_spec (ne_tick z) (ne_tick y)); [lia|]. apply q_now; auto. apply H, T.
Qed.

Lemma times_step : forall k d t p, 0 < k -> 0 <= d -> 0 <= t -> 0 < p -> k * (1000 * d * t / p) <= 1000 * d * (k * t) / p <= k * (1000 * d * t / p) + k.
Proof.
  intros k d t p K D T P. pose proof (Z.mul_div_le (1000 * d * t) p P) as L. pose proof (Z.mul_succ_div_gt (1000 * d * t) p P) as U.
  set (X := 1000 * d * t) in *. replace (1000 * d * (k * t)) with (k * X) by (unfold X; ring). set (q := X / p) in *. split.
  - apply Z.div_le_lower_bound; [exact P|]. replace (p * (k * q)) with (k * (p * q)) by ring. apply Z.mul_le_mono_nonneg_l; lia.
  - apply Z.lt_le_incl, Z.div_lt_upper_bound; [exact P|]. replace (p * (k * q + k)) with (k * (p * Z.succ q)) by (unfold Z.succ; ring). apply Z.mul_lt_mono_pos_l; lia.
Qed.

Lemma clock_times : forall k p N l l', 0 < k -> 0 < p -> Forall2 (raw_times k) l l' -> sane l -> sane l' -> forall t a b m flats,
  0 <= t -> k * t <= 16777215 -> 0 <= a -> k * a <= b <= k * a + k * m -> m + zlen l <= N -> sum_deltas l < 536000000 -> b + 1000 * 16777215 * sum_deltas l < BOUND ->
  exists u v, timestamps t a flats p l = Ok u /\ timestamps (k * t) b flats p l' = Ok v /\ Forall2 (clocked k N) u v.
Proof.
  intros k p N l l' K P F. induction F as [|x y l l' (H1 & H2 & H3) F IH]; intros S1 S2 t a b m flats T T' A AB M L B; cbn [timestamps]; [exists [], []; repeat split; constructor|].
  inversion S1 as [|? ? [X1 X2] S1']; subst. inversion S2 as [|? ? [Y1 Y2] S2']; subst. pose proof (sum_nonneg _ S1') as NN.
  cbn [sum_deltas fold_right] in L, B. fold (sum_deltas l) in L, B. rewrite zlen_cons in M. rewrite H2 in *.
  assert (T1 : t <= 16777215) by nia. assert (AK : a <= k * a) by nia.
  destruct (delta_time_ok (ne_delta x) t p) as [E1 R1]; [lia..|]. destruct (delta_time_ok (ne_delta x) (k * t) p) as [E2 R2]; [nia..|].
  rewrite E1, E2. cbn [bind]. pose proof (times_step k (ne_delta x) t p K X1 T P) as D.
  set (c := 1000 * ne_delta x * t / p) in *. set (c' := 1000 * ne_delta x * (k * t) / p) in *.
  assert (CK : c <= k * c) by nia.
  rewrite (wrap64_id (a + c)) by lia. rewrite (wrap64_id (b + c')) by lia.
  assert (AB' : k * (a + c) <= b + c' <= k * (a + c) + k * (m + 1)) by lia.
  assert (ZL : 0 <= zlen l) by apply zlen_nonneg. assert (KM : k * (m + 1) <= k * N) by (apply Z.mul_le_mono_nonneg_l; lia).
  assert (ST : stretched k N (NEvent (ne_tick x) (ne_delta x) (round_ms (a + c)) (ne_body x) flats) (NEvent (ne_tick y) (ne_delta x) (round_ms (b + c')) (ne_body y) flats)).
  { exists (a + c), (b + c'). cbn [ne_at]. repeat split; lia. }
  assert (FL : (match ne_body y with KeySignature acc _ _ => acc <? 0 | _ => flats end) = match ne_body x with KeySignature acc _ _ => acc <? 0 | _ => flats end)
    by (rewrite H3; destruct (ne_body x); reflexivity).
  rewrite FL. set (flats' := match ne_body x with KeySignature acc _ _ => acc <? 0 | _ => flats end) in *.
  assert (TT : exists t2, (match ne_body x with Tempo u => u | _ => t end) = t2 /\ (match ne_body y with Tempo u => u | _ => k * t end) = k * t2 /\ 0 <= t2 /\ k * t2 <= 16777215).
  { rewrite H3 in Y2 |- *. destruct (ne_body x); cbn [times_body] in *; (eexists; split; [reflexivity|]; split; [reflexivity|]; lia || (split; [lia|exact T'])). }
  destruct TT as (t2 & -> & -> & TT & TT').
  destruct (IH S1' S2' t2 (a + c) (b + c') (m + 1) flats' TT TT' ltac:(lia) AB' ltac:(lia) ltac:(lia) ltac:(lia)) as (u & v & -> & -> & Q). cbn [bind].
  do 2 eexists. split; [reflexivity|]. split; [reflexivity|]. constructor; [|exact Q]. unfold clocked. cbn [ne_tick ne_flats ne_body]. do 3 (split; [auto|]).
  destruct ST as (a0 & b0 & W). exists a0, b0. exact W.
Qed.

Lemma quiet_times : forall k p N l, 0 < k -> 0 < p -> quiet l -> forall l', Forall2 (raw_times k) l l' -> sane l -> sane l' -> zlen l <= N -> sum_deltas l < 536000000 -> forall flats t,
  0 <= t <= 16777215 -> exists u v, timestamps t 0 flats p l = Ok u /\ timestamps t 0 flats p l' = Ok v /\ Forall2 (clocked k N) u v.
Proof.
  intros k p N l K P Q. induction Q as [x l T0 D0 B|x l T0 D0 B Q IH]; intros l' F S1 S2 M L flats t T;
    inversion F as [|? y ? l2 (H1 & H2 & H3) F']; subst; inversion S1 as [|? ? [X1 X2] S1']; subst; inversion S2 as [|? ? [Y1 Y2] S2']; subst; pose proof (sum_nonneg _ S1') as NN;
    cbn [sum_deltas fold_right] in L; fold (sum_deltas l) in L; rewrite zlen_cons in M; assert (ZL : 0 <= zlen l) by apply zlen_nonneg; cbn [timestamps]; rewrite H2, D0;
    (destruct (delta_time_ok 0 t p) as [E1 _]; [lia..|]); rewrite E1; cbn [bind]; replace (1000 * 0 * t / p) with 0 by (rewrite Z.mul_0_r; cbn [Z.mul]; symmetry; apply Z.div_0_l; lia);
    rewrite (wrap64_id (0 + 0)) by lia; change (0 + 0) with 0; assert (KN : 0 <= k * N) by (apply Z.mul_nonneg_nonneg; lia).
  - rewrite H3. destruct (ne_body x) eqn:BX; try discriminate B. cbn [times_body].
    rewrite H3 in Y2. cbn [times_body] in Y2.
    match type of BX with _ = Tempo ?w => destruct (clock_times k p N l l2 K P F' S1' S2' w 0 0 0 flats) as (u & v & HU & HV & W) end; [lia..|].
    rewrite HU, HV. cbn [bind].
    do 2 eexists. split; [reflexivity|]. split; [reflexivity|]. constructor; [|exact W]. unfold clocked. cbn [ne_tick ne_flats ne_body]. do 3 (split; [auto|]).
    exists 0, 0. cbn [ne_at]. repeat split; lia.
  - assert (BY : ne_body y = ne_body x) by (rewrite H3; destruct (ne_body x); try discriminate B; reflexivity). rewrite BY.
    set (flats' := match ne_body x with KeySignature acc _ _ => acc <? 0 | _ => flats end) in *.
    replace (match ne_body x with Tempo u => u | _ => t end) with t by (destruct (ne_body x); try discriminate B; reflexivity).
    destruct (IH l2 F' S1' S2' ltac:(lia) ltac:(lia) flats' t T) as (u & v & -> & -> & W). cbn [bind].
    do 2 eexists. split; [reflexivity|]. split; [reflexivity|]. constructor; [|exact W]. unfold clocked. cbn [ne_tick ne_flats ne_body]. do 2 (split; [auto|]). split; [congruence|].
    exists 0, 0. cbn [ne_at]. repeat split; lia.
Qed.

Lemma noted_times : forall k n l l', Forall2 (clocked k (2 * n)) l l' -> Forall2 (shown k n) (noted l) (noted l').
Proof.
  intros k n l l' F. unfold noted. induction F as [|x y l l' (H1 & H2 & H3 & H4) F IH]; [constructor|]. cbn [filter].
  assert (Q : is_note_event (ne_body y) = is_note_event (ne_body x)) by (rewrite H3; destruct (ne_body x); reflexivity). rewrite Q.
  destruct (is_note_event (ne_body x)) eqn:N; [|exact IH]. constructor; [|exact IH]. split; [exact H1|]. split; [exact H2|]. split; [|exact H4].
  rewrite H3. destruct (ne_body x); try discriminate N; reflexivity.
Qed.

(** Notes *)
Definition begun (k n : Z) (x y : nevent) : Prop := shown k n x y /\ 0 < k /\ exists ch i v, ne_body x = NoteOn ch i v.

Lemma round_times : forall k n x y, 0 < k -> stretched k (2 * n) x y -> Z.abs (ne_at y - k * ne_at x) <= 500000 * (k + 1) + 2 * k * n.
Proof.
  intros k n x y K (a & b & A & B & H & -> & ->). rewrite !round_nonneg by lia.
  assert (R : forall z, 0 <= z -> - 500000 <= (z + 500000) / 1000000 * 1000000 - z <= 500000) by (intros z Z0; pose proof (Z.div_mod (z + 500000) 1000000 ltac:(lia)); pose proof (Z.mod_pos_bound (z + 500000) 1000000 ltac:(lia)); lia).
  pose proof (R a ltac:(lia)) as RA. pose proof (R b ltac:(lia)) as RB. set (ra := (a + 500000) / 1000000 * 1000000) in *. set (rb := (b + 500000) / 1000000 * 1000000) in *.
  assert (KA : k * (- 500000) <= k * (ra - a) <= k * 500000) by (split; apply Z.mul_le_mono_nonneg_l; lia). lia.
Qed.

Lemma finished_times : forall k n env steps p p' e e', begun k n p p' -> shown k n e e' -> times_note k n (finished env steps p e) (finished env steps p' e').
Proof.
  intros k n env steps p p' e e' ((P1 & P2 & P3 & P4) & K0 & ch & i & v & K) (E1 & E2 & E3 & E4).
  unfold finished. rewrite P3, K. unfold times_note, untimed. cbn [o_ch o_note o_name o_vel o_start_tick o_end_tick o_start o_end].
  rewrite P1, P2, E1. split; [reflexivity|]. split; apply round_times; assumption.
Qed.

Definition pending_times (k n : Z) : pending -> pending -> Prop := Forall2 (fun u v => fst u = fst v /\ begun k n (snd u) (snd v)).

Lemma find_times : forall k n i p p', pending_times k n p p' ->
  match find_key i p, find_key i p' with Some x, Some y => begun k n x y | None, None => True | _, _ => False end.
Proof.
  intros k n i p p' F. induction F as [|[a x] [b y] p p' (Q & H) F IH]; cbn [find_key]; [exact I|]. cbn [fst snd] in Q, H. subst b.
  destruct (key_eqb i a); [exact H|exact IH].
Qed.

Lemma filter_times : forall k n (f : Z * Z -> bool) p p', pending_times k n p p' -> pending_times k n (filter (fun x => f (fst x)) p) (filter (fun x => f (fst x)) p').
Proof.
  intros k n f p p' F. induction F as [|u v p p' Q F IH]; [constructor|]. cbn [filter]. destruct Q as [Q H]. rewrite <- Q.
  destruct (f (fst u)); [constructor; auto|exact IH].
Qed.

Lemma ordered_times : forall k n env steps order order' q q' e e', (forall l, Permutation l (order l)) -> (forall l, Permutation l (order' l)) ->
  pending_times k n q q' -> shown k n e e' ->
  matched (times_note k n) (map (fun on => finished env steps on e) (order (map snd q))) (map (fun on => finished env steps on e') (order' (map snd q'))).
Proof.
  intros k n env steps order order' q q' e e' O1 O2 F H.
  assert (G : Forall2 (begun k n) (map snd q) (map snd q')).
  { clear O1 O2. induction F as [|u v q q' (_ & Q) F IH]; cbn [map]; constructor; auto. }
  destruct (Permutation_Forall2 (O1 (map snd q)) G) as (m & P & G').
  exists (map (fun on => finished env steps on e') m). split.
  - apply Permutation_map. eapply Permutation_trans; [apply Permutation_sym, P|apply O2].
  - clear P G. induction G' as [|x y l m Q G IH]; cbn [map]; constructor; auto. eapply finished_times; eassumption.
Qed.

Lemma finish_all_times : forall k n env steps order order' q q' e e', (forall l, Permutation l (order l)) -> (forall l, Permutation l (order' l)) ->
  pending_times k n q q' -> shown k n e e' -> matched (times_note k n) (finish_all env steps order q e) (finish_all env steps order' q' e').
Proof.
  intros k n env steps order order' q q' e e' O1 O2 F H. unfold finish_all. induction channels16 as [|c cs IH]; cbn [flat_map]; [apply matched_same; constructor|].
  apply matched_app; [|exact IH]. apply (ordered_times k n); auto. apply (filter_times k n (fun i => fst i =? c)). exact F.
Qed.

Lemma finish_times : forall k n env steps p p' i e e', pending_times k n p p' -> shown k n e e' ->
  matched (times_note k n) (fst (finish env steps p i e)) (fst (finish env steps p' i e')) /\ pending_times k n (snd (finish env steps p i e)) (snd (finish env steps p' i e')).
Proof.
  intros k n env steps p p' i e e' F H. unfold finish. pose proof (find_times k n i p p' F) as Q.
  destruct (find_key i p) as [x|], (find_key i p') as [y|]; try contradiction; cbn [fst snd].
  - split; [apply matched_same; constructor; [eapply finished_times; eassumption|constructor]|]. apply (filter_times k n (fun j => negb (key_eqb i j))). exact F.
  - split; [apply matched_same; constructor|exact F].
Qed.

Lemma notes_times : forall k n env steps order order' l l', (forall l, Permutation l (order l)) -> (forall l, Permutation l (order' l)) -> 0 < k -> Forall2 (shown k n) l l' ->
  forall p p', pending_times k n p p' -> alike (matched (times_note k n)) (note_list env steps order p l) (note_list env steps order' p' l').
Proof.
  intros k n env steps order order' l l' O1 O2 K0 D. induction D as [|x y l l' H D IH]; intros p p' P; cbn [note_list].
  { apply matched_same. constructor. }
  assert (END : forall i, alike (matched (times_note k n))
     (let (out, q) := finish env steps p i x in do ns <- note_list env steps order q l; Ok (out ++ ns))
     (let (out, q) := finish env steps p' i y in do ns <- note_list env steps order' q l'; Ok (out ++ ns))).
  { intros i. destruct (finish_times k n env steps p p' i x y P H) as [M N].
    destruct (finish env steps p i x) as [out q], (finish env steps p' i y) as [out' q']. cbn [fst snd] in M, N. specialize (IH _ _ N).
    destruct (note_list env steps order q l), (note_list env steps order' q' l'); cbn [alike bind] in IH |- *; try contradiction; auto.
    apply matched_app; assumption. }
  rewrite (proj1 (proj2 (proj2 H))). destruct (ne_body x) eqn:K; try (apply IH; exact P); try apply END.
  - match goal with |- context [0 <? ?w] => destruct (0 <? w); [|apply END] end.
    match goal with |- context [find_key ?i p] => pose proof (find_times k n i p p' P) as Z1; destruct (find_key i p), (find_key i p'); try contradiction; [apply IH; exact P|] end.
    match goal with |- context [?c <? 16] => destruct (c <? 16); [|exact I] end.
    apply IH. constructor; [|exact P]. split; [reflexivity|]. split; [exact H|]. split; [exact K0|]. eauto.
  - assert (N := filter_times k n (fun i => negb (existsb (Z.eqb (fst i)) channels16)) p p' P). specialize (IH _ _ N).
    cbn beta in IH. destruct (note_list env steps order _ l), (note_list env steps order' _ l'); cbn [alike bind] in IH |- *; try contradiction; auto.
    apply matched_app; [|exact IH]. apply (finish_all_times k n); auto.
Qed.

Lemma ticks_good : forall es t0, 0 <= t0 -> ticks_from t0 es -> Forall (fun e => 0 <= e_tick e /\ (e_tick e = 0 -> e_delta e = 0)) es.
Proof. induction es as [|e es IH]; intros t0 T H; [constructor|]. destruct H as (D & E & H). constructor; [lia|]. apply (IH (e_tick e)); [lia|exact H]. Qed.

Lemma filter_shorter : forall A (f : A -> bool) l, zlen (filter f l) <= zlen l.
Proof. intros A f l. induction l as [|x l IH]; [reflexivity|]. cbn [filter]. destruct (f x); rewrite ?zlen_cons; lia. Qed.

Lemma zlen_insert : forall x l, zlen (insert_tick x l) = 1 + zlen l.
Proof. intros x l. induction l as [|y l IH]; [reflexivity|]. cbn [insert_tick]. destruct (ne_tick y <? ne_tick x); rewrite !zlen_cons; lia. Qed.

Lemma zlen_sort : forall l, zlen (sort_ticks l) = zlen l.
Proof. induction l as [|x l IH]; [reflexivity|]. cbn [sort_ticks]. rewrite zlen_insert, IH, zlen_cons. lia. Qed.

Lemma track_times : forall k n env steps order order' es es' tm tm' p x, (forall l, Permutation l (order l)) -> (forall l, Permutation l (order' l)) -> 0 < k -> 0 <= p ->
  Forall2 (times_event k) es es' -> Forall2 (times_event k) tm tm' -> sane_events es -> sane_events es' -> sane_events tm -> sane_events tm' ->
  In x tm -> e_tick x = 0 -> is_tempo (e_body x) = true -> ticks_from 0 es -> Forall (fun e => 0 <= e_tick e) tm -> zlen es <= n -> zlen tm <= n ->
  fold_right Z.add 0 (map e_delta es) < 536000000 ->
  alike (matched (times_note k n)) (do l <- build_track_events es tm p; note_list env steps order [] l) (do l <- build_track_events es' tm' p; note_list env steps order' [] l).
Proof.
  intros k n env steps order order' es es' tm tm' p x O1 O2 K P F G S1 S2 S3 S4 X1 X2 X3 T1 T2 N1 N2 B. unfold build_track_events.
  pose proof (sort_times _ _ _ (unsorted_times _ _ _ _ _ F G)) as R.
  assert (Q : quiet (sort_ticks (unsorted es tm))).
  { apply (quiet_sort (NEvent (e_tick x) 0 0 (e_body x) false)); auto.
    - unfold unsorted. apply in_or_app. right. apply (in_map (fun e => NEvent (e_tick e) 0 0 (e_body e) false)). exact X1.
    - unfold unsorted. apply Forall_app. split; rewrite Forall_map.
      + generalize (ticks_good es 0 ltac:(lia) T1). apply Forall_impl. intros e H. exact H.
      + revert T2. apply Forall_impl. intros e H. split; [exact H|]. intros _. reflexivity. }
  destruct (Z.eq_dec p 0) as [->|NZ].
  - destruct R as [|y z l l' H R]; [apply matched_same; constructor|exact I].
  - pose proof (sum_sort (unsorted es tm)) as E. rewrite sum_unsorted in E.
    assert (L : zlen (sort_ticks (unsorted es tm)) <= 2 * n) by (rewrite zlen_sort; unfold unsorted; rewrite zlen_app; unfold zlen in *; rewrite !map_length; lia).
    destruct (quiet_times k p (2 * n) _ K ltac:(lia) Q _ R (sane_sort _ (sane_unsorted _ _ S1 S3)) (sane_sort _ (sane_unsorted _ _ S2 S4)) L ltac:(lia) false 50000 ltac:(lia)) as (u & v & -> & -> & W).
    cbn [bind]. apply notes_times; auto; [apply noted_times, W|constructor].
Qed.

Lemma tracks_times : forall k n env steps order order' tm tm' p x ts ts', (forall l, Permutation l (order l)) -> (forall l, Permutation l (order' l)) -> 0 < k -> 0 <= p ->
  Forall2 (times_event k) tm tm' -> sane_events tm -> sane_events tm' -> In x tm -> e_tick x = 0 -> is_tempo (e_body x) = true -> Forall (fun e => 0 <= e_tick e) tm -> zlen tm <= n ->
  Forall2 (fun t t' => Forall2 (times_event k) (t_events t) (t_events t')) ts ts' ->
  Forall (fun t => sane_events (t_events t)) ts -> Forall (fun t => sane_events (t_events t)) ts' -> Forall (fun t => ticks_from 0 (t_events t)) ts ->
  Forall (fun t => zlen (t_events t) <= n) ts -> Forall (fun t => fold_right Z.add 0 (map e_delta (t_events t)) < 536000000) ts ->
  alike (matched (times_note k n)) (tracks_notes env steps order tm p ts) (tracks_notes env steps order' tm' p ts').
Proof.
  intros k n env steps order order' tm tm' p x ts ts' O1 O2 K P G S3 S4 X1 X2 X3 T2 N2 F. induction F as [|t t' ts ts' H F IH]; intros S1 S2 T1 N1 B; cbn [tracks_notes]; [apply matched_same; constructor|].
  inversion S1; inversion S2; inversion T1; inversion N1; inversion B; subst.
  pose proof (track_times k n env steps order order' (t_events t) (t_events t') tm tm' p x O1 O2 K P H G ltac:(assumption) ltac:(assumption) S3 S4 X1 X2 X3 ltac:(assumption) T2 ltac:(assumption) N2 ltac:(assumption)) as X.
  unfold track_notes. destruct (do l <- build_track_events (t_events t) tm p; note_list env steps order [] l), (do l <- build_track_events (t_events t') tm' p; note_list env steps order' [] l);
    cbn [alike bind] in X |- *; try contradiction; auto.
  specialize (IH ltac:(assumption) ltac:(assumption) ltac:(assumption) ltac:(assumption) ltac:(assumption)).
  destruct (tracks_notes env steps order tm p ts), (tracks_notes env steps order' tm' p ts'); cbn [alike bind] in IH |- *; try contradiction; auto.
  apply matched_app; assumption.
Qed.

Theorem times_notes : forall env r r' k n s s' steps order order', is_bytes r -> is_bytes r' -> decode env r = Ok s -> decode env r' = Ok s' -> 0 < k -> times_file k s s' ->
  tempo_given s -> no_longer_than n s -> short_tracks s -> (forall l, Permutation l (order l)) -> (forall l, Permutation l (order' l)) ->
  alike (matched (times_note k n)) (extract env steps order s) (extract env steps order' s').
Proof.
  intros env r r' k n s s' steps order order' Hr Hr' D D' K [E F] (t0 & tr & x & w & TS & X1 & X2 & X3) N B O1 O2.
  pose proof (decoded_sane _ _ _ Hr D) as S1. pose proof (decoded_sane _ _ _ Hr' D') as S2. pose proof (decoded_ticks _ _ _ Hr D) as TK.
  pose proof (PaceUseProofs.decoded_ppqn env r s) as PP. unfold extract, short_tracks, no_longer_than in *.
  assert (A : Forall (fun t => ticks_from 0 (t_events t)) (f_tracks s)).
  { clear - TK B. induction TK as [|t ts [_ Q] TK IH]; constructor; inversion B as [|? ? B1 B2]; subst; auto. apply Q.
    apply (Z.le_lt_trans _ (fold_right Z.add 0 (map e_delta (t_events t)))); [|lia].
    apply Z.eq_le_incl. unfold total_delta. clear. induction (t_events t) as [|e es IH]; cbn [map fold_right]; [reflexivity|]. rewrite IH. reflexivity. }
  clear TK. rewrite TS in *. inversion F as [|? t' ? ts' H F' Q1 Q2]; subst. rewrite <- Q2 in *.
  inversion S1; inversion S2; inversion A as [|? ? A1 A2]; inversion N; inversion B; subst.
  destruct (f_mthd s) as [h|], (f_mthd s') as [h'|]; cbn in E; try discriminate E.
  - injection E as E. rewrite <- E. destruct F' as [|u u' us us' Q F']; [apply matched_same; constructor|].
    apply (tracks_times k n env steps order order' _ _ _ x); auto using sane_tempos, tempos_times.
    + unfold tempo_events. apply filter_In. split; [exact X1|]. rewrite X3. reflexivity.
    + rewrite X3. reflexivity.
    + unfold tempo_events. apply Forall_forall. intros e I. apply filter_In in I as [I _]. pose proof (ticks_good _ 0 ltac:(lia) A1) as G. rewrite Forall_forall in G. apply G, I.
    + apply (Z.le_trans _ (zlen (t_events t0))); [|assumption]. apply filter_shorter.
  - destruct F' as [|u u' us us' Q F']; [apply matched_same; constructor|exact I].
Qed.
