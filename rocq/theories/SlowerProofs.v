(** * Proofs for C122. *)
From Coq Require Import Permutation.
From Verif Require PaceUseProofs.
From Verif Require Import Base Strings Tables Event Track File Notes SpecNames SpecSlower TransposeProofs NotesTimeProofs SpecDecoded DecodedProofs.

Local Notation BOUND := 9000000000000000000.

(** [held g x y]: the same event, [g] nanoseconds later in the second piece (before rounding) *)
Definition held (g : Z) (x y : nevent) : Prop :=
  ne_tick x = ne_tick y /\ ne_flats x = ne_flats y /\ slower_body (ne_body x) (ne_body y) /\
  exists a, 0 <= a /\ 0 <= g /\ a + g < BOUND /\ ne_at x = round_ms a /\ ne_at y = round_ms (a + g).

(** The delays grow along the track. *)
Inductive delayed : Z -> list nevent -> list nevent -> Prop :=
| dl_nil : forall g, delayed g [] []
| dl_cons : forall g h x y l l', g <= h -> held h x y -> delayed h l l' -> delayed g (x :: l) (y :: l').

Lemma delayed_weaken : forall g g' l l', g' <= g -> delayed g l l' -> delayed g' l l'.
Proof. intros g g' l l' H D. inversion D; subst; [constructor|]. econstructor; [|eassumption|eassumption]. lia. Qed.

Lemma held_round : forall g x y, held g x y -> ne_at x <= ne_at y.
Proof. intros g x y (_ & _ & _ & a & A & G & B & -> & ->). rewrite !round_nonneg by lia. lia. Qed.

Lemma slower_note_event : forall b b', slower_body b b' -> is_note_event b = is_note_event b'.
Proof. intros b b' H. destruct b, b'; cbn in *; try discriminate H; try reflexivity; congruence. Qed.

(** Sorting *)
Definition raw_slower (x y : nevent) : Prop :=
  ne_tick x = ne_tick y /\ ne_delta x = ne_delta y /\ slower_body (ne_body x) (ne_body y).

Lemma insert_slower : forall x y l l', raw_slower x y -> Forall2 raw_slower l l' -> Forall2 raw_slower (insert_tick x l) (insert_tick y l').
Proof.
  intros x y l l' H F. induction F as [|a b l l' Q F IH]; cbn [insert_tick]; [repeat constructor; apply H|].
  destruct H as (H1 & H2 & H3), Q as (Q1 & Q2 & Q3). rewrite <- H1, <- Q1. destruct (ne_tick a <? ne_tick x); repeat constructor; auto.
Qed.

Lemma sort_slower : forall l l', Forall2 raw_slower l l' -> Forall2 raw_slower (sort_ticks l) (sort_ticks l').
Proof. intros l l' F. induction F; cbn [sort_ticks]; [constructor|]. apply insert_slower; assumption. Qed.

Lemma unsorted_slower : forall es es' tm tm', Forall2 slower_event es es' -> Forall2 slower_event tm tm' -> Forall2 raw_slower (unsorted es tm) (unsorted es' tm').
Proof.
  intros es es' tm tm' F G. unfold unsorted. apply Forall2_app.
  - induction F as [|e e' es es' (H1 & H2 & H3) F IH]; constructor; auto. repeat split; auto.
  - induction G as [|e e' tm tm' (H1 & H2 & H3) F' IH]; constructor; auto. repeat split; auto.
Qed.

Lemma tempos_slower : forall es es', Forall2 slower_event es es' -> Forall2 slower_event (tempo_events es) (tempo_events es').
Proof.
  intros es es' F. induction F as [|e e' es es' (H1 & H2 & H3) F IH]; [constructor|]. cbn [tempo_events filter].
  assert (Q : is_tempo (e_body e) = is_tempo (e_body e')) by (destruct (e_body e), (e_body e'); cbn in *; try discriminate H3; reflexivity).
  rewrite <- Q. destruct (is_tempo (e_body e)); [constructor; [repeat split; auto|]|]; exact IH.
Qed.

(** Times *)
Definition sum_deltas (l : list nevent) : Z := fold_right (fun e n => ne_delta e + n) 0 l.
Definition sane (l : list nevent) : Prop := Forall (fun e => 0 <= ne_delta e /\ match ne_body e with Tempo t => 0 <= t <= 16777215 | _ => True end) l.

Lemma delta_time_ok : forall d t p, 0 <= d < 536000000 -> 0 <= t <= 16777215 -> 0 < p -> delta_time d t p = Ok (1000 * d * t / p) /\ 0 <= 1000 * d * t / p <= 1000 * 16777215 * d.
Proof.
  intros d t p D T P. assert (B : 0 <= 1000 * d * t <= 1000 * 16777215 * d) by nia.
  assert (Q : 0 <= 1000 * d * t / p <= 1000 * d * t) by (split; [apply Z.div_pos; lia|apply Z.div_le_upper_bound; nia]).
  split; [|lia]. unfold delta_time. destruct (Z.eqb_spec p 0); [lia|]. f_equal. rewrite Z.mod_small by lia. apply wrap64_id. lia.
Qed.

Lemma sum_nonneg : forall l, sane l -> 0 <= sum_deltas l.
Proof. intros l F. induction F as [|e l [H _] F IH]; cbn [sum_deltas fold_right]; [lia|]. fold (sum_deltas l). lia. Qed.

Lemma times_slower : forall p l l', 0 < p -> Forall2 raw_slower l l' -> sane l -> sane l' -> forall tempo tempo' a g flats,
  0 <= tempo <= tempo' -> tempo' <= 16777215 -> 0 <= a -> 0 <= g -> sum_deltas l < 536000000 -> a + g + 1000 * 16777215 * sum_deltas l < BOUND ->
  alike (delayed g) (timestamps tempo a flats p l) (timestamps tempo' (a + g) flats p l').
Proof.
  intros p l l' P F. induction F as [|x y l l' (H1 & H2 & H3) F IH]; intros S1 S2 tempo tempo' a g flats T T' A G L B; cbn [timestamps]; [constructor|].
  inversion S1 as [|? ? [X1 X2] S1']; subst. inversion S2 as [|? ? [Y1 Y2] S2']; subst. pose proof (sum_nonneg _ S1') as N.
  cbn [sum_deltas fold_right] in L, B. fold (sum_deltas l) in L, B. rewrite <- H2 in *.
  destruct (delta_time_ok (ne_delta x) tempo p) as [E1 R1]; [lia..|]. destruct (delta_time_ok (ne_delta x) tempo' p) as [E2 R2]; [lia..|].
  rewrite E1, E2. cbn [bind].
  assert (D : 1000 * ne_delta x * tempo / p <= 1000 * ne_delta x * tempo' / p) by (apply Z.div_le_mono; nia).
  set (d := 1000 * ne_delta x * tempo / p) in *. set (d' := 1000 * ne_delta x * tempo' / p) in *.
  rewrite (wrap64_id (a + d)) by lia. rewrite (wrap64_id (a + g + d')) by lia. replace (a + g + d') with (a + d + (g + d' - d)) by lia.
  assert (FL : (match ne_body y with KeySignature acc _ _ => acc <? 0 | _ => flats end) = match ne_body x with KeySignature acc _ _ => acc <? 0 | _ => flats end)
    by (destruct (ne_body x), (ne_body y); cbn in H3; try discriminate H3; try reflexivity; congruence).
  rewrite FL. set (flats' := match ne_body x with KeySignature acc _ _ => acc <? 0 | _ => flats end).
  assert (TT : 0 <= (match ne_body x with Tempo t => t | _ => tempo end) <= (match ne_body y with Tempo t => t | _ => tempo' end) /\
               (match ne_body y with Tempo t => t | _ => tempo' end) <= 16777215)
    by (destruct (ne_body x), (ne_body y); cbn in H3; try discriminate H3; lia).
  destruct TT as [TT TT'].
  specialize (IH S1' S2' _ _ (a + d) (g + d' - d) flats' TT TT' ltac:(lia) ltac:(lia) ltac:(lia) ltac:(lia)).
  set (u := timestamps _ (a + d) flats' p l) in *. set (v := timestamps _ (a + d + (g + d' - d)) flats' p l') in *.
  destruct u as [u1| | | |], v as [v1| | | |]; cbn [alike bind] in IH |- *; try contradiction; auto.
  apply (dl_cons g (g + d' - d)); [lia| |exact IH]. unfold held. cbn [ne_tick ne_flats ne_body ne_at]. repeat split; auto.
  exists (a + d). repeat split; lia.
Qed.

Lemma filter_delayed : forall l l' g, delayed g l l' -> delayed g (filter (fun e => is_note_event (ne_body e)) l) (filter (fun e => is_note_event (ne_body e)) l').
Proof.
  intros l l' g D. induction D as [g|g h x y l l' Q H D IH]; [constructor|]. cbn [filter].
  pose proof H as (_ & _ & S0 & _). rewrite <- (slower_note_event _ _ S0). destruct (is_note_event (ne_body x)); [econstructor; eassumption|].
  eapply delayed_weaken; eassumption.
Qed.

(** Notes *)
Lemma finished_later : forall env steps g h p p' e e', held h p p' -> held g e e' -> h <= g -> later_note (finished env steps p e) (finished env steps p' e').
Proof.
  intros env steps g h p p' e e' (P1 & P2 & P3 & a & A1 & A2 & A3 & A4 & A5) (E1 & E2 & E3 & b & B1 & B2 & B3 & B4 & B5) H.
  unfold finished. destruct (ne_body p) eqn:K; destruct (ne_body p') eqn:K'; cbn [slower_body] in P3; try discriminate P3;
    try (unfold later_note; cbn; repeat split; lia).
  injection P3 as <- <- <-. unfold later_note. cbn [o_ch o_note o_name o_vel o_start_tick o_end_tick o_start o_end o_duration].
  rewrite <- P1, <- P2, <- E1, A4, A5, B4, B5, !round_nonneg by lia. split; [reflexivity|].
  rewrite !wrap64_id by lia. lia.
Qed.

Definition pending_later (g : Z) : pending -> pending -> Prop := Forall2 (fun u v => fst u = fst v /\ exists h, h <= g /\ held h (snd u) (snd v)).

Lemma pending_weaken : forall g g' p p', g <= g' -> pending_later g p p' -> pending_later g' p p'.
Proof. intros g g' p p' H F. induction F as [|u v p p' (Q & h & R & S0) F IH]; constructor; auto. split; [exact Q|]. exists h. split; [lia|exact S0]. Qed.

Lemma find_later : forall g k p p', pending_later g p p' ->
  match find_key k p, find_key k p' with Some x, Some y => exists h, h <= g /\ held h x y | None, None => True | _, _ => False end.
Proof.
  intros g k p p' F. induction F as [|[i x] [j y] p p' (Q & R) F IH]; cbn [find_key]; [exact I|]. cbn [fst snd] in Q, R. subst j.
  destruct (key_eqb k i); [exact R|exact IH].
Qed.

Lemma filter_later : forall g (f : Z * Z -> bool) p p', pending_later g p p' -> pending_later g (filter (fun x => f (fst x)) p) (filter (fun x => f (fst x)) p').
Proof.
  intros g f p p' F. induction F as [|u v p p' Q F IH]; [constructor|]. cbn [filter]. destruct Q as [Q R]. rewrite <- Q.
  destruct (f (fst u)); [constructor; auto|exact IH].
Qed.

Lemma matched_app : forall A (R : A -> A -> Prop) a a' b b', matched R a a' -> matched R b b' -> matched R (a ++ b) (a' ++ b').
Proof.
  intros A R a a' b b' (m & P & F) (n & Q & G). exists (m ++ n). split; [apply Permutation_app; assumption|apply Forall2_app; assumption].
Qed.

Lemma matched_same : forall A (R : A -> A -> Prop) a a', Forall2 R a a' -> matched R a a'.
Proof. intros A R a a' F. exists a'. split; [apply Permutation_refl|exact F]. Qed.

Lemma ordered_later : forall env steps g order order' q q' e e', (forall l, Permutation l (order l)) -> (forall l, Permutation l (order' l)) ->
  pending_later g q q' -> held g e e' ->
  matched later_note (map (fun on => finished env steps on e) (order (map snd q))) (map (fun on => finished env steps on e') (order' (map snd q'))).
Proof.
  intros env steps g order order' q q' e e' O1 O2 F H.
  assert (G : Forall2 (fun x y => exists h, h <= g /\ held h x y) (map snd q) (map snd q')).
  { clear O1 O2. induction F as [|u v q q' (_ & Q) F IH]; cbn [map]; constructor; auto. }
  destruct (Permutation_Forall2 (O1 (map snd q)) G) as (m & P & G').
  exists (map (fun on => finished env steps on e') m). split.
  - apply Permutation_map. eapply Permutation_trans; [apply Permutation_sym, P|apply O2].
  - clear P G. induction G' as [|x y l m (h & Q & R) G IH]; cbn [map]; constructor; auto. eapply finished_later; eassumption.
Qed.

Lemma finish_all_later : forall env steps g order order' q q' e e', (forall l, Permutation l (order l)) -> (forall l, Permutation l (order' l)) ->
  pending_later g q q' -> held g e e' -> matched later_note (finish_all env steps order q e) (finish_all env steps order' q' e').
Proof.
  intros env steps g order order' q q' e e' O1 O2 F H. unfold finish_all. induction channels16 as [|c cs IH]; cbn [flat_map]; [apply matched_same; constructor|].
  apply matched_app; [|exact IH]. apply (ordered_later env steps g); auto.
  apply (filter_later g (fun k => fst k =? c)). exact F.
Qed.

Lemma finish_later : forall env steps g p p' k e e', pending_later g p p' -> held g e e' ->
  matched later_note (fst (finish env steps p k e)) (fst (finish env steps p' k e')) /\ pending_later g (snd (finish env steps p k e)) (snd (finish env steps p' k e')).
Proof.
  intros env steps g p p' k e e' F H. unfold finish. pose proof (find_later g k p p' F) as Q.
  destruct (find_key k p) as [x|], (find_key k p') as [y|]; try contradiction; cbn [fst snd].
  - destruct Q as (h & Q & R). split; [apply matched_same; repeat constructor; eapply finished_later; eassumption|].
    apply (filter_later g (fun i => negb (key_eqb k i))). exact F.
  - split; [apply matched_same; constructor|exact F].
Qed.

Lemma notes_later : forall env steps order order' l l' g, (forall l, Permutation l (order l)) -> (forall l, Permutation l (order' l)) -> delayed g l l' ->
  forall p p', pending_later g p p' -> alike (matched later_note) (note_list env steps order p l) (note_list env steps order' p' l').
Proof.
  intros env steps order order' l l' g O1 O2 D. induction D as [g|g h x y l l' Q H D IH]; intros p p' P; cbn [note_list].
  { apply matched_same. constructor. }
  apply (pending_weaken g h _ _ Q) in P.
  assert (END : forall k, alike (matched later_note)
     (let (out, q) := finish env steps p k x in do ns <- note_list env steps order q l; Ok (out ++ ns))
     (let (out, q) := finish env steps p' k y in do ns <- note_list env steps order' q l'; Ok (out ++ ns))).
  { intros k. destruct (finish_later env steps h p p' k x y P H) as [M N].
    destruct (finish env steps p k x) as [out q], (finish env steps p' k y) as [out' q']. cbn [fst snd] in M, N. specialize (IH _ _ N).
    destruct (note_list env steps order q l), (note_list env steps order' q' l'); cbn [alike bind] in IH |- *; try contradiction; auto.
    apply matched_app; assumption. }
  pose proof H as (_ & _ & S0 & _).
  destruct (ne_body x) eqn:K; destruct (ne_body y) eqn:K'; cbn [slower_body] in S0; try discriminate S0; try (apply IH; exact P).
  - injection S0 as <- <- <-. apply END.
  - injection S0 as <- <- <-. match goal with |- context [0 <? ?w] => destruct (0 <? w); [|apply END] end.
    match goal with |- context [find_key ?k p] => pose proof (find_later h k p p' P) as Z1; destruct (find_key k p), (find_key k p'); try contradiction; [apply IH; exact P|] end.
    match goal with |- context [?c <? 16] => destruct (c <? 16); [|exact I] end.
    apply IH. constructor; [|exact P]. split; [reflexivity|]. exists h. split; [lia|exact H].
  - assert (N := filter_later h (fun i => negb (existsb (Z.eqb (fst i)) channels16)) p p' P). specialize (IH _ _ N).
    cbn beta in IH. destruct (note_list env steps order _ l), (note_list env steps order' _ l'); cbn [alike bind] in IH |- *; try contradiction; auto.
    apply matched_app; [|exact IH]. apply (finish_all_later env steps h); auto.
Qed.

Lemma sum_insert : forall x l, sum_deltas (insert_tick x l) = ne_delta x + sum_deltas l.
Proof.
  intros x l. induction l as [|y l IH]; [reflexivity|]. cbn [insert_tick]. destruct (ne_tick y <? ne_tick x); [|reflexivity].
  cbn [sum_deltas fold_right]. fold (sum_deltas (insert_tick x l)) (sum_deltas l). rewrite IH. lia.
Qed.

Lemma sum_sort : forall l, sum_deltas (sort_ticks l) = sum_deltas l.
Proof. induction l as [|x l IH]; [reflexivity|]. cbn [sort_ticks]. rewrite sum_insert, IH. reflexivity. Qed.

Lemma sane_sort : forall l, sane l -> sane (sort_ticks l).
Proof.
  intros l F. induction F as [|x l H F IH]; [constructor|]. cbn [sort_ticks]. unfold sane in *. clear F. induction (sort_ticks l) as [|y r IHr]; cbn [insert_tick]; [repeat constructor; apply H|].
  inversion IH; subst. destruct (ne_tick y <? ne_tick x); repeat (constructor; auto).
Qed.

Lemma sum_unsorted : forall es tm, sum_deltas (unsorted es tm) = fold_right Z.add 0 (map e_delta es).
Proof.
  intros es tm. unfold unsorted. induction es as [|e es IH]; cbn [map app sum_deltas fold_right].
  - induction tm as [|t tm IH]; [reflexivity|]. cbn [map sum_deltas fold_right ne_delta]. exact IH.
  - cbn [ne_delta]. unfold sum_deltas in IH. rewrite IH. reflexivity.
Qed.

Definition sane_events (es : list event) : Prop := Forall (fun e => 0 <= e_delta e /\ match e_body e with Tempo t => 0 <= t <= 16777215 | _ => True end) es.

Lemma sane_unsorted : forall es tm, sane_events es -> sane_events tm -> sane (unsorted es tm).
Proof.
  intros es tm F G. unfold unsorted, sane. apply Forall_app. split; rewrite Forall_map.
  - exact F.
  - revert G. apply Forall_impl. intros e [_ H]. cbn. split; [lia|exact H].
Qed.

Lemma sane_tempos : forall es, sane_events es -> sane_events (tempo_events es).
Proof. intros es F. unfold tempo_events, sane_events in *. rewrite Forall_forall in *. intros e I. apply filter_In in I as [I _]. exact (F e I). Qed.

Lemma track_later : forall env steps order order' es es' tm tm' p, (forall l, Permutation l (order l)) -> (forall l, Permutation l (order' l)) -> 0 <= p ->
  Forall2 slower_event es es' -> Forall2 slower_event tm tm' -> sane_events es -> sane_events es' -> sane_events tm -> sane_events tm' ->
  fold_right Z.add 0 (map e_delta es) < 536000000 ->
  alike (matched later_note) (do l <- build_track_events es tm p; note_list env steps order [] l) (do l <- build_track_events es' tm' p; note_list env steps order' [] l).
Proof.
  intros env steps order order' es es' tm tm' p O1 O2 P F G S1 S2 S3 S4 B. unfold build_track_events.
  pose proof (sort_slower _ _ (unsorted_slower _ _ _ _ F G)) as R. destruct (Z.eq_dec p 0) as [->|NZ].
  - destruct R as [|x y l l' Q R]; [apply matched_same; constructor|exact I].
  - pose proof (sum_sort (unsorted es tm)) as E. rewrite sum_unsorted in E.
    pose proof (times_slower p _ _ ltac:(lia) R (sane_sort _ (sane_unsorted _ _ S1 S3)) (sane_sort _ (sane_unsorted _ _ S2 S4)) 50000 50000 0 0 false
      ltac:(lia) ltac:(lia) ltac:(lia) ltac:(lia) ltac:(lia) ltac:(lia)) as T. cbn [Z.add] in T.
    destruct (timestamps 50000 0 false p (sort_ticks (unsorted es tm))) as [u| | | |], (timestamps 50000 0 false p (sort_ticks (unsorted es' tm'))) as [v| | | |];
      cbn [alike bind] in T |- *; try contradiction; auto.
    apply (notes_later env steps order order' _ _ 0 O1 O2); [apply filter_delayed, T|constructor].
Qed.

Lemma tracks_later : forall env steps order order' tm tm' p ts ts', (forall l, Permutation l (order l)) -> (forall l, Permutation l (order' l)) -> 0 <= p ->
  Forall2 slower_event tm tm' -> sane_events tm -> sane_events tm' -> Forall2 (fun t t' => Forall2 slower_event (t_events t) (t_events t')) ts ts' ->
  Forall (fun t => sane_events (t_events t)) ts -> Forall (fun t => sane_events (t_events t)) ts' ->
  Forall (fun t => fold_right Z.add 0 (map e_delta (t_events t)) < 536000000) ts ->
  alike (matched later_note) (tracks_notes env steps order tm p ts) (tracks_notes env steps order' tm' p ts').
Proof.
  intros env steps order order' tm tm' p ts ts' O1 O2 P G S3 S4 F. induction F as [|t t' ts ts' H F IH]; intros S1 S2 B; cbn [tracks_notes]; [apply matched_same; constructor|].
  inversion S1; inversion S2; inversion B; subst.
  pose proof (track_later env steps order order' _ _ _ _ p O1 O2 P H G ltac:(assumption) ltac:(assumption) S3 S4 ltac:(assumption)) as T.
  unfold track_notes. destruct (do l <- build_track_events (t_events t) tm p; note_list env steps order [] l), (do l <- build_track_events (t_events t') tm' p; note_list env steps order' [] l);
    cbn [alike bind] in T |- *; try contradiction; auto.
  specialize (IH ltac:(assumption) ltac:(assumption) ltac:(assumption)).
  destruct (tracks_notes env steps order tm p ts), (tracks_notes env steps order' tm' p ts'); cbn [alike bind] in IH |- *; try contradiction; auto.
  apply matched_app; assumption.
Qed.

Lemma decoded_sane : forall env r s, is_bytes r -> decode env r = Ok s -> Forall (fun t => sane_events (t_events t)) (f_tracks s).
Proof.
  intros env r s Hr H. apply decoded_file in H; [|exact Hr]. revert H. apply Forall_impl. intros t (_ & _ & H). revert H. apply Forall_impl. intros e (_ & D & H).
  split; [lia|]. destruct (e_body e); auto. cbn [decoded_body] in H. lia.
Qed.

Theorem slower_later : forall env r r' s s' steps order order', is_bytes r -> is_bytes r' -> decode env r = Ok s -> decode env r' = Ok s' -> slower_file s s' -> short_tracks s ->
  (forall l, Permutation l (order l)) -> (forall l, Permutation l (order' l)) ->
  alike (matched later_note) (extract env steps order s) (extract env steps order' s').
Proof.
  intros env r r' s s' steps order order' Hr Hr' D D' [E F] B O1 O2. pose proof (decoded_sane _ _ _ Hr D) as S1. pose proof (decoded_sane _ _ _ Hr' D') as S2.
  pose proof (PaceUseProofs.decoded_ppqn env r s) as PP. unfold extract, short_tracks in *. destruct F as [|t t' ts ts' H F]; [exact I|].
  inversion S1; inversion S2; inversion B; subst.
  destruct (f_mthd s) as [h|], (f_mthd s') as [h'|]; cbn in E; try discriminate E.
  - injection E as E. rewrite <- E. destruct F as [|u u' us us' Q F]; [apply matched_same; constructor|].
    apply tracks_later; auto using sane_tempos, tempos_slower.
  - destruct F as [|u u' us us' Q F]; [apply matched_same; constructor|exact I].
Qed.
