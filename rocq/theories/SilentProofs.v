(** * Proofs about silent events *)
From Verif Require Import Base Tables Event Track File Transpose TransposeProofs Notes SpecNotes NotesTimeProofs SpecSilent.

(** What [paced] keeps, for the events of the notes command *)
Definition kept (e : nevent) : bool := negb (silent (ne_body e) && (ne_delta e =? 0)).

Lemma insert_first : forall x l, ascending (ne_tick x) (map ne_tick l) -> insert_tick x l = x :: l.
Proof. intros x [|y l] H; [reflexivity|]. cbn [map ascending] in H. cbn [insert_tick]. replace (ne_tick y <? ne_tick x) with false by lia. reflexivity. Qed.

Lemma ascending_filter : forall f l t0, ascending t0 (map ne_tick l) -> ascending t0 (map ne_tick (filter f l)).
Proof.
  intro f. induction l as [|x l IH]; intros t0 H; [exact I|]. cbn [map ascending] in H. destruct H as [H1 H2]. cbn [filter]. destruct (f x); [split; [exact H1|apply IH, H2]|].
  apply IH. clear IH. destruct l as [|y l]; [exact I|]. cbn [map ascending] in *. destruct H2 as [H2 H3]. split; [lia|exact H3].
Qed.

Lemma insert_filter : forall f x l t0, ascending t0 (map ne_tick l) -> filter f (insert_tick x l) = if f x then insert_tick x (filter f l) else filter f l.
Proof.
  intros f x. induction l as [|y l IH]; intros t0 A; [cbn; destruct (f x); reflexivity|]. cbn [map ascending] in A. destruct A as [A1 A2].
  cbn [insert_tick]. destruct (ne_tick y <? ne_tick x) eqn:L.
  - cbn [filter]. rewrite (IH _ A2). destruct (f y), (f x); try reflexivity. cbn [insert_tick]. rewrite L. reflexivity.
  - change (filter f (x :: y :: l)) with (if f x then x :: filter f (y :: l) else filter f (y :: l)). destruct (f x); [|reflexivity].
    symmetry. apply insert_first, ascending_filter. cbn [map ascending]. split; [lia|exact A2].
Qed.

Lemma lower_bound : forall l : list nevent, exists t0, Forall (fun x => t0 <= ne_tick x) l.
Proof.
  induction l as [|x l (t & H)]; [exists 0; constructor|]. exists (Z.min t (ne_tick x)). constructor; [lia|]. eapply Forall_impl; [|exact H]. cbv beta. intros y Y. lia.
Qed.

Lemma sort_filter : forall f l, filter f (sort_ticks l) = sort_ticks (filter f l).
Proof.
  intro f. induction l as [|x l IH]; [reflexivity|]. cbn [sort_ticks filter]. destruct (lower_bound l) as (t0 & B).
  rewrite (insert_filter f x (sort_ticks l) t0) by (apply sort_ascending, B). rewrite IH. destruct (f x); reflexivity.
Qed.

Lemma wrap64_twice : forall x, wrap64 (wrap64 x + wrap64 0) = wrap64 x.
Proof. intro x. unfold wrap64. lia. Qed.

(** Silent events without delta time leave the times of the others alone. *)
Lemma times_filter : forall ppqn l tempo at_ flats, ppqn <> 0 ->
  (do r <- timestamps tempo (wrap64 at_) flats ppqn l; Ok (filter (fun e => is_note_event (ne_body e)) r)) =
  (do r <- timestamps tempo (wrap64 at_) flats ppqn (filter kept l); Ok (filter (fun e => is_note_event (ne_body e)) r)).
Proof.
  intros ppqn l tempo at_ flats P. revert tempo at_ flats. induction l as [|e l IH]; intros tempo at_ flats; [reflexivity|]. cbn [filter]. destruct (kept e) eqn:K.
  - cbn [timestamps]. unfold delta_time. replace (ppqn =? 0) with false by lia. cbn [bind]. set (at' := wrap64 (wrap64 at_ + _)). cbv zeta.
    set (tempo' := match ne_body e with Tempo t => t | _ => tempo end). set (flats' := match ne_body e with KeySignature acc _ _ => acc <? 0 | _ => flats end).
    specialize (IH tempo' (wrap64 at_ + wrap64 ((1000 * ne_delta e * tempo) mod 18446744073709551616 / ppqn)) flats'). fold at' in IH. revert IH.
    destruct (timestamps tempo' at' flats' ppqn l) as [r| | | |], (timestamps tempo' at' flats' ppqn (filter kept l)) as [r'| | | |]; cbn [bind]; intro IH; try discriminate; try reflexivity.
    apply Ok_inj in IH. assert (E : filter (fun e => is_note_event (ne_body e)) r = filter (fun e => is_note_event (ne_body e)) r') by exact IH. clear IH.
    cbn [filter ne_body]. rewrite E. reflexivity.
  - assert (D : ne_delta e = 0) by (unfold kept in K; lia). assert (Q : silent (ne_body e) = true) by (unfold kept in K; destruct (silent (ne_body e)); [reflexivity|discriminate]).
    rewrite <- IH. cbn [timestamps]. unfold delta_time. replace (ppqn =? 0) with false by lia. cbn [bind]. rewrite D, Z.mul_0_r, Z.mul_0_l, Zmod_0_l, Zdiv_0_l, wrap64_twice.
    replace (match ne_body e with Tempo t => t | _ => tempo end) with tempo by (destruct (ne_body e); cbn in Q; congruence).
    replace (match ne_body e with KeySignature acc _ _ => acc <? 0 | _ => flats end) with flats by (destruct (ne_body e); cbn in Q; congruence). cbv zeta.
    destruct (timestamps tempo (wrap64 at_) flats ppqn l) as [r| | | |]; cbn [bind]; try reflexivity. cbn [filter ne_body].
    replace (is_note_event (ne_body e)) with false by (destruct (ne_body e); cbn in Q; try discriminate Q; reflexivity). reflexivity.
Qed.

Definition raise (x : Z * Z * body) : nevent := NEvent (fst (fst x)) (snd (fst x)) 0 (snd x) false.

Lemma raise_paced : forall es, filter kept (map (fun e => NEvent (e_tick e) (e_delta e) 0 (e_body e) false) es) = map raise (paced es).
Proof.
  induction es as [|e es IH]; [reflexivity|]. unfold paced in *. cbn [map filter]. unfold kept at 1. cbn [ne_body ne_delta]. destruct (negb _); [|exact IH]. cbn [map]. rewrite IH. reflexivity.
Qed.

Lemma raise_tempos : forall es, map (fun e => NEvent (e_tick e) 0 0 (e_body e) false) (tempo_events es) = map (fun x => NEvent (fst x) 0 0 (Tempo (snd x)) false) (tempo_list es).
Proof.
  induction es as [|e es IH]; [reflexivity|]. unfold tempo_events in *. cbn [filter tempo_list]. unfold is_tempo at 1. destruct (e_body e) eqn:B; try exact IH. cbn [map fst snd]. rewrite IH, B. reflexivity.
Qed.

Lemma kept_tempos : forall l, filter kept (map (fun x => NEvent (fst x) 0 0 (Tempo (snd x)) false) l) = map (fun x => NEvent (fst x) 0 0 (Tempo (snd x)) false) l.
Proof. induction l as [|x l IH]; [reflexivity|]. cbn [map filter]. unfold kept at 1. cbn [ne_body silent andb negb]. rewrite IH. reflexivity. Qed.

Lemma build_paced : forall es es' t0 t0' ppqn, ppqn <> 0 -> paced es = paced es' -> tempo_list t0 = tempo_list t0' ->
  build_track_events es (tempo_events t0) ppqn = build_track_events es' (tempo_events t0') ppqn.
Proof.
  intros es es' t0 t0' ppqn P E T. unfold build_track_events.
  pose proof (times_filter ppqn (sort_ticks (unsorted es (tempo_events t0))) 50000 0 false P) as A. pose proof (times_filter ppqn (sort_ticks (unsorted es' (tempo_events t0'))) 50000 0 false P) as B.
  change (wrap64 0) with 0 in A, B. rewrite A, B, !sort_filter. unfold unsorted. rewrite !filter_app, !raise_paced, !raise_tempos, !kept_tempos, E, T. reflexivity.
Qed.

Theorem silent_notes : forall env steps order s s' h, same_voices paced s s' -> f_mthd s = Some h -> h_ppqn h <> 0 -> extract env steps order s = extract env steps order s'.
Proof.
  intros env steps order [m ts] [m' ts'] h [H V] Hh P. cbn [f_mthd f_tracks] in *. subst m. cbn [option_map] in H. destruct m' as [h'|]; [|discriminate]. cbn [option_map] in H.
  unfold extract. cbn [f_mthd f_tracks]. destruct ts as [|t0 ts], ts' as [|t0' ts']; try contradiction; [reflexivity|]. destruct V as [T V].
  assert (Q : h_ppqn h = h_ppqn h') by congruence. rewrite <- Q.
  assert (K : tracks_notes env steps order (tempo_events (t_events t0)) (h_ppqn h) ts = tracks_notes env steps order (tempo_events (t_events t0')) (h_ppqn h) ts').
  { revert ts' V. induction ts as [|t ts IH]; intros [|t' ts'] V; try discriminate; [reflexivity|]. cbn [map] in V. assert (E : paced (t_events t) = paced (t_events t')) by congruence.
    assert (V' : map (fun t => paced (t_events t)) ts = map (fun t => paced (t_events t)) ts') by congruence. cbn [tracks_notes]. unfold track_notes.
    rewrite (build_paced _ _ _ _ _ P E T), (IH _ V'). reflexivity. }
  destruct ts as [|t ts], ts' as [|t' ts']; try discriminate; [reflexivity|]. exact K.
Qed.
