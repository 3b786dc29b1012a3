(** * Proofs for C130. *)
From Coq Require Import Permutation.
From Verif Require Import Base Strings Tables Event Track File Transpose Notes SpecNames SpecSlower SlowerProofs SpecKeyed RestProofs.

(** The same event at the same time, maybe in another key *)
Definition spelled (x y : nevent) : Prop := ne_tick y = ne_tick x /\ ne_at y = ne_at x /\ bare (ne_body y) = bare (ne_body x).

(** Before the times are known *)
Definition raw_keyed (R : body -> body -> Prop) (x y : nevent) : Prop := ne_tick y = ne_tick x /\ ne_delta y = ne_delta x /\ R (ne_body x) (ne_body y).

Lemma insert_keyed : forall R x y l l', raw_keyed R x y -> Forall2 (raw_keyed R) l l' -> Forall2 (raw_keyed R) (insert_tick x l) (insert_tick y l').
Proof.
  intros R x y l l' H F. induction F as [|a b l l' Q F IH]; cbn [insert_tick]; [repeat constructor; apply H|].
  rewrite (proj1 H), (proj1 Q). destruct (ne_tick a <? ne_tick x); constructor; auto.
Qed.

Lemma sort_keyed : forall R l l', Forall2 (raw_keyed R) l l' -> Forall2 (raw_keyed R) (sort_ticks l) (sort_ticks l').
Proof. intros R l l' F. induction F; cbn [sort_ticks]; [constructor|]. apply insert_keyed; assumption. Qed.

Lemma unsorted_keyed : forall R es es' tm tm', Forall2 (keyed_event R) es es' -> Forall2 (keyed_event R) tm tm' -> Forall2 (raw_keyed R) (unsorted es tm) (unsorted es' tm').
Proof.
  intros R es es' tm tm' F G. unfold unsorted. apply Forall2_app.
  - induction F as [|e e' es es' (H1 & H2 & H3) F IH]; constructor; auto. repeat split; auto.
  - induction G as [|e e' tm tm' (H1 & H2 & H3) F' IH]; constructor; auto. repeat split; auto.
Qed.

Lemma sign_keyed : forall b b', same_sign b b' -> keyed_body b b'.
Proof. intros b b' H. destruct b, b'; cbn in *; auto; rewrite ?H; congruence || discriminate || auto. Qed.

Lemma tempos_keyed : forall (R : body -> body -> Prop) es es', (forall b b', R b b' -> keyed_body b b') -> Forall2 (keyed_event R) es es' -> Forall2 (keyed_event R) (tempo_events es) (tempo_events es').
Proof.
  intros R es es' RK F. induction F as [|e e' es es' (H1 & H2 & H3) F IH]; [constructor|]. cbn [tempo_events filter].
  assert (Q : is_tempo (e_body e') = is_tempo (e_body e)) by (apply RK in H3; destruct (e_body e), (e_body e'); cbn in H3; try discriminate H3; reflexivity).
  rewrite Q. destruct (is_tempo (e_body e)); [constructor; [repeat split; auto|]|]; exact IH.
Qed.

Lemma times_keyed : forall p l l', Forall2 (raw_keyed keyed_body) l l' -> forall t a f f',
  alike (fun u v => Forall2 spelled (noted u) (noted v)) (timestamps t a f p l) (timestamps t a f' p l').
Proof.
  intros p l l' F. induction F as [|x y l l' (H1 & H2 & H3) F IH]; intros t a f f'; cbn [timestamps]; [constructor|].
  rewrite H2. destruct (delta_time (ne_delta x) t p) as [d| | | |]; cbn [bind alike]; auto.
  set (g := match ne_body x with KeySignature acc _ _ => acc <? 0 | _ => f end). set (g' := match ne_body y with KeySignature acc _ _ => acc <? 0 | _ => f' end).
  assert (T : (match ne_body y with Tempo u => u | _ => t end) = match ne_body x with Tempo u => u | _ => t end)
    by (destruct (ne_body x), (ne_body y); cbn in H3; try discriminate H3; try reflexivity; congruence).
  rewrite T. set (t2 := match ne_body x with Tempo u => u | _ => t end). specialize (IH t2 (wrap64 (a + d)) g g').
  destruct (timestamps t2 (wrap64 (a + d)) g p l), (timestamps t2 (wrap64 (a + d)) g' p l'); cbn [alike bind] in IH |- *; try contradiction; auto.
  unfold noted in *. cbn [filter ne_body].
  destruct (ne_body x) eqn:BX, (ne_body y) eqn:BY; cbn in H3; try discriminate H3; cbn [is_note_event]; try exact IH;
    (constructor; [|exact IH]); unfold spelled; cbn [ne_tick ne_at ne_body bare]; auto.
Qed.

Lemma times_signed : forall p l l', Forall2 (raw_keyed same_sign) l l' -> forall t a f,
  alike (fun u v => noted v = noted u) (timestamps t a f p l) (timestamps t a f p l').
Proof.
  intros p l l' F. induction F as [|x y l l' (H1 & H2 & H3) F IH]; intros t a f; cbn [timestamps]; [reflexivity|].
  rewrite H1, H2. destruct (delta_time (ne_delta x) t p) as [d| | | |]; cbn [bind alike]; auto.
  assert (G : (match ne_body y with KeySignature acc _ _ => acc <? 0 | _ => f end) = match ne_body x with KeySignature acc _ _ => acc <? 0 | _ => f end)
    by (destruct (ne_body x), (ne_body y); cbn in H3; try discriminate H3; try reflexivity; lia).
  assert (T : (match ne_body y with Tempo u => u | _ => t end) = match ne_body x with Tempo u => u | _ => t end)
    by (destruct (ne_body x), (ne_body y); cbn in H3; try discriminate H3; try reflexivity; congruence).
  rewrite T, G. set (t2 := match ne_body x with Tempo u => u | _ => t end). set (g := match ne_body x with KeySignature acc _ _ => acc <? 0 | _ => f end). specialize (IH t2 (wrap64 (a + d)) g).
  destruct (timestamps t2 (wrap64 (a + d)) g p l), (timestamps t2 (wrap64 (a + d)) g p l'); cbn [alike bind] in IH |- *; try contradiction; auto.
  unfold noted in *. cbn [filter ne_body]. rewrite IH.
  destruct (ne_body x) eqn:BX, (ne_body y) eqn:BY; cbn in H3; try discriminate H3; cbn [is_note_event]; try reflexivity; rewrite H3; reflexivity.
Qed.

(** Notes *)
Definition sounded (x y : nevent) : Prop := spelled x y /\ exists ch n v, ne_body x = NoteOn ch n v.

Lemma finished_keyed : forall env steps p p' e e', sounded p p' -> spelled e e' -> keyed_note (finished env steps p e) (finished env steps p' e').
Proof.
  intros env steps p p' e e' ((P1 & P2 & P3) & ch & n & v & K) (E1 & E2 & E3).
  rewrite K in P3. unfold finished. rewrite K. destruct (ne_body p'); try discriminate P3. cbn [bare] in P3. injection P3 as -> NV ->. rewrite NV. unfold keyed_note. cbn [o_ch o_note o_vel o_start_tick o_end_tick o_start o_end o_duration].
  rewrite P1, P2, E1, E2. reflexivity.
Qed.

Definition pending_keyed : pending -> pending -> Prop := Forall2 (fun u v => fst u = fst v /\ sounded (snd u) (snd v)).

Lemma find_keyed : forall i p p', pending_keyed p p' ->
  match find_key i p, find_key i p' with Some x, Some y => sounded x y | None, None => True | _, _ => False end.
Proof.
  intros i p p' F. induction F as [|[a x] [b y] p p' (Q & H) F IH]; cbn [find_key]; [exact I|]. cbn [fst snd] in Q, H. subst b.
  destruct (key_eqb i a); [exact H|exact IH].
Qed.

Lemma filter_keyed : forall (f : Z * Z -> bool) p p', pending_keyed p p' -> pending_keyed (filter (fun x => f (fst x)) p) (filter (fun x => f (fst x)) p').
Proof.
  intros f p p' F. induction F as [|u v p p' Q F IH]; [constructor|]. cbn [filter]. destruct Q as [Q H]. rewrite <- Q.
  destruct (f (fst u)); [constructor; auto|exact IH].
Qed.

Lemma ordered_keyed : forall env steps order order' q q' e e', (forall l, Permutation l (order l)) -> (forall l, Permutation l (order' l)) ->
  pending_keyed q q' -> spelled e e' ->
  matched keyed_note (map (fun on => finished env steps on e) (order (map snd q))) (map (fun on => finished env steps on e') (order' (map snd q'))).
Proof.
  intros env steps order order' q q' e e' O1 O2 F H.
  assert (G : Forall2 (sounded) (map snd q) (map snd q')).
  { clear O1 O2. induction F as [|u v q q' (_ & Q) F IH]; cbn [map]; constructor; auto. }
  destruct (Permutation_Forall2 (O1 (map snd q)) G) as (m & P & G').
  exists (map (fun on => finished env steps on e') m). split.
  - apply Permutation_map. eapply Permutation_trans; [apply Permutation_sym, P|apply O2].
  - clear P G. induction G' as [|x y l m Q G IH]; cbn [map]; constructor; auto. eapply finished_keyed; eassumption.
Qed.

Lemma finish_all_keyed : forall env steps order order' q q' e e', (forall l, Permutation l (order l)) -> (forall l, Permutation l (order' l)) ->
  pending_keyed q q' -> spelled e e' -> matched keyed_note (finish_all env steps order q e) (finish_all env steps order' q' e').
Proof.
  intros env steps order order' q q' e e' O1 O2 F H. unfold finish_all. induction channels16 as [|c cs IH]; cbn [flat_map]; [apply matched_same; constructor|].
  apply matched_app; [|exact IH]. apply (ordered_keyed); auto. apply (filter_keyed (fun i => fst i =? c)). exact F.
Qed.

Lemma finish_keyed : forall env steps p p' i e e', pending_keyed p p' -> spelled e e' ->
  matched keyed_note (fst (finish env steps p i e)) (fst (finish env steps p' i e')) /\ pending_keyed (snd (finish env steps p i e)) (snd (finish env steps p' i e')).
Proof.
  intros env steps p p' i e e' F H. unfold finish. pose proof (find_keyed i p p' F) as Q.
  destruct (find_key i p) as [x|], (find_key i p') as [y|]; try contradiction; cbn [fst snd].
  - split; [apply matched_same; constructor; [eapply finished_keyed; eassumption|constructor]|]. apply (filter_keyed (fun j => negb (key_eqb i j))). exact F.
  - split; [apply matched_same; constructor|exact F].
Qed.

Lemma notes_keyed : forall env steps order order' l l', (forall l, Permutation l (order l)) -> (forall l, Permutation l (order' l)) -> Forall2 (spelled) l l' ->
  forall p p', pending_keyed p p' -> alike (matched keyed_note) (note_list env steps order p l) (note_list env steps order' p' l').
Proof.
  intros env steps order order' l l' O1 O2 D. induction D as [|x y l l' H D IH]; intros p p' P; cbn [note_list].
  { apply matched_same. constructor. }
  assert (END : forall i, alike (matched keyed_note)
     (let (out, q) := finish env steps p i x in do ns <- note_list env steps order q l; Ok (out ++ ns))
     (let (out, q) := finish env steps p' i y in do ns <- note_list env steps order' q l'; Ok (out ++ ns))).
  { intros i. destruct (finish_keyed env steps p p' i x y P H) as [M N].
    destruct (finish env steps p i x) as [out q], (finish env steps p' i y) as [out' q']. cbn [fst snd] in M, N. specialize (IH _ _ N).
    destruct (note_list env steps order q l), (note_list env steps order' q' l'); cbn [alike bind] in IH |- *; try contradiction; auto.
    apply matched_app; assumption. }
  pose proof (proj2 (proj2 H)) as S0.
  destruct (ne_body x) eqn:K; destruct (ne_body y) eqn:K'; cbn [bare] in S0; try discriminate S0; try (apply IH; exact P).
  - injection S0 as -> NV ->. rewrite NV. apply END.
  - injection S0 as -> NV ->. rewrite NV. match goal with |- context [0 <? ?w] => destruct (0 <? w); [|apply END] end.
    match goal with |- context [find_key ?i p] => pose proof (find_keyed i p p' P) as Z1; destruct (find_key i p), (find_key i p'); try contradiction; [apply IH; exact P|] end.
    match goal with |- context [?c <? 16] => destruct (c <? 16); [|exact I] end.
    apply IH. constructor; [|exact P]. split; [reflexivity|]. split; [exact H|]. eauto.
  - assert (N := filter_keyed (fun i => negb (existsb (Z.eqb (fst i)) channels16)) p p' P). specialize (IH _ _ N).
    cbn beta in IH. destruct (note_list env steps order _ l), (note_list env steps order' _ l'); cbn [alike bind] in IH |- *; try contradiction; auto.
    apply matched_app; [|exact IH]. apply (finish_all_keyed); auto.
Qed.

Lemma track_keyed : forall env steps order order' t t' tm tm' p, (forall l, Permutation l (order l)) -> (forall l, Permutation l (order' l)) ->
  Forall2 (keyed_event keyed_body) (t_events t) (t_events t') -> Forall2 (keyed_event keyed_body) tm tm' ->
  alike (matched keyed_note) (track_notes env steps order tm p t) (track_notes env steps order' tm' p t').
Proof.
  intros env steps order order' t t' tm tm' p O1 O2 F G. unfold track_notes, build_track_events.
  pose proof (times_keyed p _ _ (sort_keyed _ _ _ (unsorted_keyed _ _ _ _ _ F G)) 50000 0 false false) as T.
  destruct (timestamps 50000 0 false p (sort_ticks (unsorted (t_events t) tm))), (timestamps 50000 0 false p (sort_ticks (unsorted (t_events t') tm'))); cbn [alike bind] in T |- *; try contradiction; auto.
  apply notes_keyed; auto. constructor.
Qed.

Lemma tracks_keyed : forall env steps order order' tm tm' p ts ts', (forall l, Permutation l (order l)) -> (forall l, Permutation l (order' l)) ->
  Forall2 (keyed_event keyed_body) tm tm' -> Forall2 (fun t t' => Forall2 (keyed_event keyed_body) (t_events t) (t_events t')) ts ts' ->
  alike (matched keyed_note) (tracks_notes env steps order tm p ts) (tracks_notes env steps order' tm' p ts').
Proof.
  intros env steps order order' tm tm' p ts ts' O1 O2 G F. induction F as [|t t' ts ts' H F IH]; cbn [tracks_notes]; [apply matched_same; constructor|].
  pose proof (track_keyed env steps order order' t t' tm tm' p O1 O2 H G) as X.
  destruct (track_notes env steps order tm p t), (track_notes env steps order' tm' p t'); cbn [alike bind] in X |- *; try contradiction; auto.
  destruct (tracks_notes env steps order tm p ts), (tracks_notes env steps order' tm' p ts'); cbn [alike bind] in IH |- *; try contradiction; auto.
  apply matched_app; assumption.
Qed.

Theorem keyed_notes : forall env s s' steps order order', keyed_file keyed_body s s' -> (forall l, Permutation l (order l)) -> (forall l, Permutation l (order' l)) ->
  alike (matched keyed_note) (extract env steps order s) (extract env steps order' s').
Proof.
  intros env s s' steps order order' [E F] O1 O2. unfold extract. destruct F as [|t t' ts ts' H F]; [exact I|].
  destruct (f_mthd s) as [h|], (f_mthd s') as [h'|]; cbn in E; try discriminate E.
  - injection E as E. rewrite <- E. destruct F as [|u u' us us' Q F]; [apply matched_same; constructor|]. apply tracks_keyed; auto using tempos_keyed.
  - destruct F as [|u u' us us' Q F]; [apply matched_same; constructor|exact I].
Qed.

Lemma tracks_signed : forall env steps order tm tm' p ts ts', Forall2 (keyed_event same_sign) tm tm' -> Forall2 (fun t t' => Forall2 (keyed_event same_sign) (t_events t) (t_events t')) ts ts' ->
  tracks_notes env steps order tm' p ts' = tracks_notes env steps order tm p ts.
Proof.
  intros env steps order tm tm' p ts ts' G F. induction F as [|t t' ts ts' H F IH]; cbn [tracks_notes]; [reflexivity|]. rewrite IH. unfold track_notes, build_track_events.
  pose proof (times_signed p _ _ (sort_keyed _ _ _ (unsorted_keyed _ _ _ _ _ H G)) 50000 0 false) as T. unfold noted in T.
  destruct (timestamps 50000 0 false p (sort_ticks (unsorted (t_events t) tm))), (timestamps 50000 0 false p (sort_ticks (unsorted (t_events t') tm'))); cbn [alike bind] in T |- *; try contradiction; auto.
  rewrite T. reflexivity.
Qed.

Theorem signed_notes : forall env s s' steps order, keyed_file same_sign s s' -> extract env steps order s' = extract env steps order s.
Proof.
  intros env s s' steps order [E F]. unfold extract. destruct F as [|t t' ts ts' H F]; [reflexivity|].
  destruct (f_mthd s) as [h|], (f_mthd s') as [h'|]; cbn in E; try discriminate E.
  - injection E as E. rewrite <- E. pose proof (tempos_keyed same_sign _ _ sign_keyed H) as G.
    destruct F as [|u u' us us' Q F]; [reflexivity|]. apply tracks_signed; [exact G|constructor; assumption].
  - destruct F as [|u u' us us' Q F]; reflexivity.
Qed.
