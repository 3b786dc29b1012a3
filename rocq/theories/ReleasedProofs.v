(** * Proofs for C132. *)
From Verif Require Import Base Strings Tables Event Track File Transpose Notes SpecNames SpecReleased.

Definition raw_released (x y : nevent) : Prop :=
  ne_tick y = ne_tick x /\ ne_delta y = ne_delta x /\ ne_at y = ne_at x /\ ne_flats y = ne_flats x /\ same_release (ne_body x) (ne_body y).

Lemma insert_released : forall x y l l', raw_released x y -> Forall2 raw_released l l' -> Forall2 raw_released (insert_tick x l) (insert_tick y l').
Proof.
  intros x y l l' H F. induction F as [|a b l l' Q F IH]; cbn [insert_tick]; [constructor; [exact H|constructor]|].
  rewrite (proj1 H), (proj1 Q). destruct (ne_tick a <? ne_tick x); constructor; auto.
Qed.

Lemma sort_released : forall l l', Forall2 raw_released l l' -> Forall2 raw_released (sort_ticks l) (sort_ticks l').
Proof. intros l l' F. induction F; cbn [sort_ticks]; [constructor|]. apply insert_released; assumption. Qed.

Lemma unsorted_released : forall es es' tm tm', Forall2 released_event es es' -> Forall2 released_event tm tm' -> Forall2 raw_released (unsorted es tm) (unsorted es' tm').
Proof.
  intros es es' tm tm' F G. unfold unsorted. apply Forall2_app.
  - induction F as [|e e' es es' (H1 & H2 & H3) F IH]; constructor; auto. unfold raw_released. cbn. auto.
  - induction G as [|e e' tm tm' (H1 & H2 & H3) F' IH]; constructor; auto. unfold raw_released. cbn. auto.
Qed.

Lemma tempos_released : forall es es', Forall2 released_event es es' -> Forall2 released_event (tempo_events es) (tempo_events es').
Proof.
  intros es es' F. induction F as [|e e' es es' H F IH]; [constructor|]. cbn [tempo_events filter].
  assert (Q : is_tempo (e_body e') = is_tempo (e_body e)) by (destruct H as (_ & _ & [->|(ch & k & A & B)]); [reflexivity|]; destruct (e_body e), (e_body e'); try contradiction; reflexivity).
  rewrite Q. destruct (is_tempo (e_body e)); [constructor; [exact H|]|]; exact IH.
Qed.

Lemma release_note_event : forall b b', same_release b b' -> is_note_event b' = is_note_event b.
Proof. intros b b' [->|(ch & k & P & Q)]; [reflexivity|]. destruct b, b'; try contradiction; reflexivity. Qed.

Definition noted (l : list nevent) : list nevent := filter (fun e => is_note_event (ne_body e)) l.

Lemma times_released : forall p l l', Forall2 raw_released l l' -> forall t a f,
  alike (fun u v => Forall2 raw_released (noted u) (noted v)) (timestamps t a f p l) (timestamps t a f p l').
Proof.
  intros p l l' F. induction F as [|x y l l' (H1 & H2 & H3 & H4 & H5) F IH]; intros t a f; cbn [timestamps]; [constructor|].
  rewrite H2. destruct (delta_time (ne_delta x) t p) as [d| | | |]; cbn [bind alike]; auto.
  assert (G : (match ne_body y with KeySignature acc _ _ => acc <? 0 | _ => f end) = match ne_body x with KeySignature acc _ _ => acc <? 0 | _ => f end)
    by (destruct H5 as [->|(ch & k & P & Q)]; [reflexivity|]; destruct (ne_body x), (ne_body y); try contradiction; reflexivity).
  assert (T : (match ne_body y with Tempo u => u | _ => t end) = match ne_body x with Tempo u => u | _ => t end)
    by (destruct H5 as [->|(ch & k & P & Q)]; [reflexivity|]; destruct (ne_body x), (ne_body y); try contradiction; reflexivity).
  rewrite T, G. set (t2 := match ne_body x with Tempo u => u | _ => t end). set (g := match ne_body x with KeySignature acc _ _ => acc <? 0 | _ => f end). specialize (IH t2 (wrap64 (a + d)) g).
  destruct (timestamps t2 (wrap64 (a + d)) g p l), (timestamps t2 (wrap64 (a + d)) g p l'); cbn [alike bind] in IH |- *; try contradiction; auto.
  unfold noted in *. cbn [filter ne_body]. rewrite (release_note_event _ _ H5). destruct (is_note_event (ne_body x)); [constructor; [|exact IH]|exact IH].
  unfold raw_released. cbn [ne_tick ne_delta ne_at ne_flats ne_body]. auto.
Qed.

Lemma finished_released : forall env steps p x y, raw_released x y -> finished env steps p y = finished env steps p x.
Proof. intros env steps p x y (H1 & _ & H3 & _). unfold finished. rewrite H1, H3. reflexivity. Qed.

Lemma finish_released : forall env steps p k x y, raw_released x y -> finish env steps p k y = finish env steps p k x.
Proof. intros env steps p k x y H. unfold finish. destruct (find_key k p); [|reflexivity]. rewrite (finished_released env steps n x y H). reflexivity. Qed.

Lemma notes_released : forall env steps order l l', Forall2 raw_released l l' -> forall p, note_list env steps order p l' = note_list env steps order p l.
Proof.
  intros env steps order l l' F. induction F as [|x y l l' H F IH]; intros p; [reflexivity|]. cbn [note_list].
  pose proof H as (H1 & H2 & H3 & H4 & [E|(ch & k & P & Q)]).
  - assert (XY : y = x) by (destruct x, y; cbn in *; congruence). subst y. destruct (ne_body x); rewrite ?IH; try reflexivity.
    + destruct (finish env steps p (ch, n_value n) x). rewrite IH. reflexivity.
    + destruct (0 <? velocity).
      * destruct (find_key (ch, n_value n) p); rewrite ?IH; reflexivity.
      * destruct (finish env steps p (ch, n_value n) x). rewrite IH. reflexivity.
  - assert (END : (let (out, p') := finish env steps p (ch, k) y in do ns <- note_list env steps order p' l'; Ok (out ++ ns)) = (let (out, p') := finish env steps p (ch, k) x in do ns <- note_list env steps order p' l; Ok (out ++ ns))).
    { rewrite (finish_released env steps p (ch, k) x y H). destruct (finish env steps p (ch, k) x). rewrite IH. reflexivity. }
    destruct (ne_body x), (ne_body y); try contradiction; cbn [releases] in P, Q; repeat match goal with H : _ /\ _ |- _ => destruct H end; subst; cbn [Z.ltb Z.compare];
      repeat match goal with E : n_value _ = n_value _ |- _ => rewrite E in * end; exact END.
Qed.

Lemma tracks_released : forall env steps order tm tm' p ts ts', Forall2 released_event tm tm' -> Forall2 (fun t t' => Forall2 released_event (t_events t) (t_events t')) ts ts' ->
  tracks_notes env steps order tm' p ts' = tracks_notes env steps order tm p ts.
Proof.
  intros env steps order tm tm' p ts ts' G F. induction F as [|t t' ts ts' H F IH]; cbn [tracks_notes]; [reflexivity|]. rewrite IH. unfold track_notes, build_track_events.
  pose proof (times_released p _ _ (sort_released _ _ (unsorted_released _ _ _ _ H G)) 50000 0 false) as T. unfold noted in T.
  destruct (timestamps 50000 0 false p (sort_ticks (unsorted (t_events t) tm))), (timestamps 50000 0 false p (sort_ticks (unsorted (t_events t') tm'))); cbn [alike bind] in T |- *; try contradiction; auto.
  rewrite (notes_released env steps order _ _ T). reflexivity.
Qed.

Theorem released_notes : forall env s s' steps order, released_file s s' -> extract env steps order s' = extract env steps order s.
Proof.
  intros env s s' steps order [E F]. unfold extract. destruct F as [|t t' ts ts' H F]; [reflexivity|].
  destruct (f_mthd s) as [h|], (f_mthd s') as [h'|]; cbn in E; try discriminate E.
  - injection E as E. rewrite <- E. destruct F as [|u u' us us' Q F]; [reflexivity|]. apply tracks_released; [apply tempos_released, H|constructor; assumption].
  - destruct F as [|u u' us us' Q F]; reflexivity.
Qed.
