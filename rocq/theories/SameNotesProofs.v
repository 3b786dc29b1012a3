(** * SameNotesProofs: the notes of files with the same contents, up to transposition. *)
From Coq Require Import Permutation.
From Verif Require Import Base Strings Tables Event SpecEvent Track File SpecHistory SpecTrack TrackProofs FileProofs Transpose SpecKey SpecTranspose TransposeProofs TransposeFileProofs SpecNote Notes SpecNotes SpecSameNotes
  NotesProofs NotesTimeProofs.

(** ** Events *)

Definition erel (n : Z) (e e' : event) : Prop :=
  e_tick e' = e_tick e /\ e_delta e' = e_delta e /\ moved_content n (view (e_body e)) (view (e_body e')) /\ fits n (view (e_body e)).
Definition nrel (n : Z) (a b : nevent) : Prop :=
  ne_tick b = ne_tick a /\ ne_delta b = ne_delta a /\ ne_at b = ne_at a /\ moved_content n (view (ne_body a)) (view (ne_body b)) /\ fits n (view (ne_body a)).

(** What a moved body is. *)
Lemma moved_body : forall n b b', moved_content n (view b) (view b') -> fits n (view b) ->
  match b with
  | NoteOn ch x v => exists x', b' = NoteOn ch x' v /\ n_value x' = n_value x + n
  | NoteOff ch x v => exists x', b' = NoteOff ch x' v /\ n_value x' = n_value x + n
  | EndOfTrack => b' = EndOfTrack
  | Tempo t => b' = Tempo t
  | _ => is_note_event b' = false /\ is_tempo b' = false
  end.
Proof.
  intros n b b' M F. remember (view b) as c eqn:C. remember (view b') as c' eqn:C'. destruct M as [ch k v|ch k v|acc acc' kt minor E1 E2 E3|c S0].
  - destruct b; try discriminate C; destruct b'; try discriminate C'. cbn [view fits] in *. injection C as -> -> ->. injection C' as -> C' ->. eexists. split; [reflexivity|]. unfold limited in C'. lia.
  - destruct b; try discriminate C; destruct b'; try discriminate C'. cbn [view fits] in *. injection C as -> -> ->. injection C' as -> C' ->. eexists. split; [reflexivity|]. unfold limited in C'. lia.
  - destruct b; try discriminate C; destruct b'; try discriminate C'. split; reflexivity.
  - rewrite C in C', S0. clear c C F. destruct b; try contradiction; destruct b'; try discriminate C'; try (split; reflexivity); try reflexivity. cbn [view] in C'. injection C' as ->. reflexivity.
Qed.

Lemma moved_same_kind : forall n b b', moved_content n (view b) (view b') -> fits n (view b) -> is_note_event b' = is_note_event b /\ is_tempo b' = is_tempo b /\
  (forall t, (match b' with Tempo x => x | _ => t end) = match b with Tempo x => x | _ => t end).
Proof. intros n b b' M F. pose proof (moved_body n b b' M F) as H. destruct b; try (destruct H as (x & -> & _); auto); try (rewrite H; auto); destruct H as [H1 H2]; rewrite H1, H2; repeat split; intro t; destruct b'; try reflexivity; discriminate. Qed.

Lemma tempo_rel : forall n a b, Forall2 (erel n) a b -> Forall2 (erel n) (tempo_events a) (tempo_events b).
Proof.
  intros n a b F. unfold tempo_events. induction F as [|x y a b (T & D & M & X) F IH]; [constructor|]. cbn [filter].
  destruct (moved_same_kind n _ _ M X) as (_ & -> & _). destruct (is_tempo (e_body x)); [constructor; [repeat split; assumption|exact IH]|exact IH].
Qed.

Lemma unsorted_rel : forall n a b a' b', Forall2 (erel n) a a' -> Forall2 (erel n) b b' -> Forall2 (nrel n) (unsorted a b) (unsorted a' b').
Proof.
  intros n a b a' b' F G. unfold unsorted. apply Forall2_app.
  - induction F as [|x y a a' (T & D & M & X) F IH]; [constructor|]. cbn [map]. constructor; [|exact IH]. repeat split; assumption.
  - induction G as [|x y b b' (T & D & M & X) G IH]; [constructor|]. cbn [map]. constructor; [|exact IH]. repeat split; assumption.
Qed.

Lemma insert_rel : forall n x y l l', nrel n x y -> Forall2 (nrel n) l l' -> Forall2 (nrel n) (insert_tick x l) (insert_tick y l').
Proof.
  intros n x y l l' R F. induction F as [|a b l l' A F IH]; cbn [insert_tick]; [constructor; [exact R|constructor]|].
  pose proof A as (T & _). pose proof R as (T' & _). rewrite T, T'. destruct (ne_tick a <? ne_tick x); constructor; auto.
Qed.

Lemma sort_rel : forall n l l', Forall2 (nrel n) l l' -> Forall2 (nrel n) (sort_ticks l) (sort_ticks l').
Proof. intros n l l' F. induction F as [|a b l l' A F IH]; [constructor|]. cbn [sort_ticks]. apply insert_rel; assumption. Qed.

Lemma timestamps_rel : forall n ppqn l l', Forall2 (nrel n) l l' -> forall tempo at_ flats flats' r, timestamps tempo at_ flats ppqn l = Ok r ->
  exists r', timestamps tempo at_ flats' ppqn l' = Ok r' /\ Forall2 (nrel n) r r'.
Proof.
  intros n ppqn l l' F. induction F as [|a b l l' (T & D & A & M & X) F IH]; intros tempo at_ flats flats' r H; cbn [timestamps] in *; [apply Ok_inj in H; subst r; exists []; split; [reflexivity|constructor]|].
  rewrite D. destruct (delta_time (ne_delta a) tempo ppqn) as [d| | | |]; try discriminate. cbn [bind] in *. destruct (moved_same_kind n _ _ M X) as (_ & _ & K). rewrite (K tempo).
  match type of H with bind (timestamps ?t ?w ?f ppqn l) _ = _ => destruct (timestamps t w f ppqn l) as [r0| | | |] eqn:E; try discriminate end. cbn [bind] in H. apply Ok_inj in H. subst r.
  match goal with |- context [timestamps ?t ?w ?f ppqn l'] => destruct (IH t w _ f r0 E) as (r' & -> & G) end. cbn [bind]. eexists. split; [reflexivity|].
  constructor; [|exact G]. repeat split; cbn [ne_tick ne_delta ne_at ne_body]; assumption.
Qed.

Lemma filter_rel : forall n l l', Forall2 (nrel n) l l' -> Forall2 (nrel n) (filter (fun e => is_note_event (ne_body e)) l) (filter (fun e => is_note_event (ne_body e)) l').
Proof.
  intros n l l' F. induction F as [|a b l l' A F IH]; [constructor|]. cbn [filter]. pose proof A as (_ & _ & _ & M & X). destruct (moved_same_kind n _ _ M X) as (-> & _).
  destruct (is_note_event (ne_body a)); [constructor; assumption|exact IH].
Qed.

Lemma build_rel : forall n a b a' b' ppqn r, Forall2 (erel n) a a' -> Forall2 (erel n) b b' -> build_track_events a b ppqn = Ok r ->
  exists r', build_track_events a' b' ppqn = Ok r' /\ Forall2 (nrel n) r r'.
Proof.
  intros n a b a' b' ppqn r F G H. unfold build_track_events in *. destruct (timestamps _ _ _ _ (sort_ticks (unsorted a b))) as [l| | | |] eqn:E; try discriminate. cbn [bind] in H. apply Ok_inj in H. subst r.
  destruct (timestamps_rel n ppqn _ _ (sort_rel _ _ _ (unsorted_rel n a b a' b' F G)) _ _ _ false l E) as (l' & -> & K). cbn [bind]. eexists. split; [reflexivity|]. apply filter_rel, K.
Qed.

(** ** Notes *)

Definition is_on (e : nevent) (k : Z * Z) : Prop := exists x v, ne_body e = NoteOn (fst k) x v /\ n_value x = snd k.
Definition prel (n : Z) (a b : (Z * Z) * nevent) : Prop := fst (fst b) = fst (fst a) /\ snd (fst b) = snd (fst a) + n /\ nrel n (snd a) (snd b) /\ is_on (snd a) (fst a) /\ 0 <= snd (fst a) < 256.

Lemma key_rel : forall n a b x, prel n a b -> key_eqb (fst x, snd x + n) (fst b) = key_eqb x (fst a).
Proof. intros n a b x (E1 & E2 & _). unfold key_eqb. cbn [fst snd]. rewrite E1, E2. f_equal. lia. Qed.

Lemma find_rel : forall n p p' k, Forall2 (prel n) p p' ->
  match find_key k p with
  | Some e => exists e', find_key (fst k, snd k + n) p' = Some e' /\ nrel n e e' /\ is_on e k /\ 0 <= snd k < 256
  | None => find_key (fst k, snd k + n) p' = None
  end.
Proof.
  intros n p p' k F. induction F as [|[ka a] [kb b] p p' A F IH]; cbn [find_key]; [reflexivity|]. pose proof (key_rel n _ _ k A) as K. cbn [fst snd] in K. rewrite K.
  destruct (key_eqb k ka) eqn:E; [|exact IH]. apply key_eqb_spec in E. subst ka. destruct A as (_ & _ & A1 & A2 & A3). exists b. auto.
Qed.

Lemma drop_rel : forall n p p' k, Forall2 (prel n) p p' -> Forall2 (prel n) (drop_key k p) (drop_key (fst k, snd k + n) p').
Proof.
  intros n p p' k F. unfold drop_key. induction F as [|a b p p' A F IH]; [constructor|]. cbn [filter]. rewrite (key_rel n a b k A). destruct (key_eqb k (fst a)); cbn [negb]; [exact IH|constructor; assumption].
Qed.

Lemma pending_filter : forall n (g : Z -> bool) p p', Forall2 (prel n) p p' -> Forall2 (prel n) (filter (fun x => g (fst (fst x))) p) (filter (fun x => g (fst (fst x))) p').
Proof. intros n g p p' F. induction F as [|a b p p' A F IH]; [constructor|]. cbn [filter]. pose proof A as (E & _). rewrite E. destruct (g (fst (fst a))); [constructor; assumption|exact IH]. Qed.

Lemma value_moves : forall v n m, 0 <= v < 256 -> reasonable m -> reasonable (n + m) -> 0 <= v + n <= 127 -> note_transpose (v + n) m = note_transpose v (n + m).
Proof. intros v n m V M N F. rewrite !note_transpose_limited by (try assumption; lia). f_equal. f_equal. lia. Qed.

Lemma finished_rel : forall env env' n m a b e e' k, nrel n a b -> is_on a k -> 0 <= snd k < 256 -> nrel n e e' -> reasonable m -> reasonable (n + m) ->
  unnamed (finished env' m b e') = unnamed (finished env (n + m) a e).
Proof.
  intros env env' n m a b e e' k (T & D & A & M & X) (x & v & E & V) K (T' & D' & A' & _) R R'. pose proof (moved_body n _ _ M X) as B. rewrite E in B, X. destruct B as (x' & B & B'). cbn [view fits] in X.
  unfold finished. rewrite B, E. unfold unnamed. cbn [o_ch o_note o_vel o_start_tick o_end_tick o_start o_end o_duration]. rewrite B', T, T', A, A'. rewrite value_moves by (try assumption; lia). reflexivity.
Qed.

Lemma ordered_rel : forall env env' n m order order' e e' p p', (forall l, Permutation l (order l)) -> (forall l, Permutation l (order' l)) -> Forall2 (prel n) p p' -> nrel n e e' ->
  reasonable m -> reasonable (n + m) ->
  Permutation (map unnamed (map (fun on => finished env (n + m) on e) (order (map snd p)))) (map unnamed (map (fun on => finished env' m on e') (order' (map snd p')))).
Proof.
  intros env env' n m order order' e e' p p' O O' F E R R'. rewrite <- (Permutation_map unnamed (Permutation_map (fun on => finished env (n + m) on e) (O (map snd p)))).
  rewrite <- (Permutation_map unnamed (Permutation_map (fun on => finished env' m on e') (O' (map snd p')))). rewrite !map_map.
  replace (map (fun x => unnamed (finished env' m (snd x) e')) p') with (map (fun x => unnamed (finished env (n + m) (snd x) e)) p); [reflexivity|].
  induction F as [|a b p p' (A1 & A2 & A3 & A4 & A5) F IH]; [reflexivity|]. cbn [map]. f_equal; [symmetry; eapply finished_rel; eassumption|exact IH].
Qed.

Lemma finish_all_rel : forall env env' n m order order' e e' p p', (forall l, Permutation l (order l)) -> (forall l, Permutation l (order' l)) -> Forall2 (prel n) p p' -> nrel n e e' ->
  reasonable m -> reasonable (n + m) -> Permutation (map unnamed (finish_all env (n + m) order p e)) (map unnamed (finish_all env' m order' p' e')).
Proof.
  intros env env' n m order order' e e' p p' O O' F E R R'. unfold finish_all. rewrite <- !flat_map_map. apply flat_map_Permutation. intro ch.
  apply ordered_rel; try assumption. apply (pending_filter n (fun c => c =? ch)), F.
Qed.

Lemma note_list_skip : forall env m order p e es, is_note_event (ne_body e) = false -> note_list env m order p (e :: es) = note_list env m order p es.
Proof. intros env m order p e es H. cbn [note_list]. destruct (ne_body e); try discriminate; reflexivity. Qed.

Lemma note_list_rel : forall env env' n m order order' es es', (forall l, Permutation l (order l)) -> (forall l, Permutation l (order' l)) -> reasonable m -> reasonable (n + m) ->
  Forall2 (nrel n) es es' -> notes_in_range es -> forall p p' ns, Forall2 (prel n) p p' -> note_list env (n + m) order p es = Ok ns ->
  exists ns', note_list env' m order' p' es' = Ok ns' /\ Permutation (map unnamed ns) (map unnamed ns').
Proof.
  intros env env' n m order order' es es' O O' R R' F. induction F as [|e e' es es' E F IH]; intros NR p p' ns P H; cbn [note_list] in *; [apply Ok_inj in H; subst ns; exists []; split; [reflexivity|constructor]|].
  apply Forall_cons_iff in NR as [N0 NR]. pose proof E as (_ & _ & _ & M & X). pose proof (moved_body n _ _ M X) as B.
  assert (FIN : forall k, let (out, q) := finish env (n + m) p k e in let (out', q') := finish env' m p' (fst k, snd k + n) e' in map unnamed out' = map unnamed out /\ Forall2 (prel n) q q').
  { intros k. unfold finish. pose proof (find_rel n p p' k P) as G. destruct (find_key k p) as [on|].
    - destruct G as (on' & -> & G1 & G2 & G3). split; [cbn [map]; f_equal; eapply finished_rel; eassumption|apply drop_rel, P].
    - rewrite G. split; [reflexivity|exact P]. }
  assert (STEP : forall k ns, (let (out, q) := finish env (n + m) p k e in do x <- note_list env (n + m) order q es; Ok (out ++ x)) = Ok ns ->
    exists ns', (let (out, q) := finish env' m p' (fst k, snd k + n) e' in do x <- note_list env' m order' q es'; Ok (out ++ x)) = Ok ns' /\ Permutation (map unnamed ns) (map unnamed ns')).
  { intros k ns0 H0. specialize (FIN k). destruct (finish env (n + m) p k e) as [out q], (finish env' m p' (fst k, snd k + n) e') as [out' q'], FIN as [FO FP].
    destruct (note_list env (n + m) order q es) as [x| | | |] eqn:EX; try discriminate. cbn [bind] in H0. apply Ok_inj in H0. subst ns0. destruct (IH NR q q' x FP EX) as (x' & -> & PX).
    cbn [bind]. eexists. split; [reflexivity|]. rewrite !map_app, FO. apply Permutation_app_head, PX. }
  assert (SKIP : is_note_event (ne_body e) = false -> is_note_event (ne_body e') = false -> exists ns', note_list env' m order' p' (e' :: es') = Ok ns' /\ Permutation (map unnamed ns) (map unnamed ns')).
  { intros S1 S2. rewrite (note_list_skip _ _ _ _ _ _ S2). apply (IH NR p p' ns P). rewrite <- H. symmetry. apply (note_list_skip env (n + m) order p e es S1). }
  cbn [note_list] in SKIP. unfold notes_in_range in *. clear M.
  destruct (ne_body e) as [ch x v|ch x v| | | | | | | | | | | | | | | | | | ] eqn:EB; try exact (SKIP eq_refl (proj1 B)); try (rewrite B in *; exact (SKIP eq_refl eq_refl)).
  - destruct B as (x' & -> & EV). rewrite EV. apply (STEP (ch, n_value x) ns H).
  - destruct B as (x' & -> & EV). rewrite EV. destruct (0 <? v) eqn:V; [|apply (STEP (ch, n_value x) ns H)].
    pose proof (find_rel n p p' (ch, n_value x) P) as G. cbn [fst snd] in G. destruct (find_key (ch, n_value x) p) as [on|].
    + destruct G as (on' & -> & _). apply (IH NR p p' ns P H).
    + rewrite G. destruct (ch <? 16); [|discriminate]. refine (IH NR _ _ ns _ H). constructor; [|exact P]. repeat split; cbn [fst snd]; try reflexivity; try lia; try apply E. exists x, v. split; [exact EB|reflexivity].
  - rewrite B. match type of H with bind ?o _ = _ => destruct o as [x| | | |] eqn:EX; try discriminate end. cbn [bind] in H. apply Ok_inj in H. subst ns.
    destruct (IH NR _ _ x (pending_filter n (fun c => negb (existsb (Z.eqb c) channels16)) p p' P) EX) as (x' & EX' & PX). rewrite EX'. cbn [bind]. eexists. split; [reflexivity|].
    rewrite !map_app. apply Permutation_app; [apply finish_all_rel; assumption|exact PX].
Qed.

(** ** Tracks and files *)

Lemma track_rel : forall env env' n m order order' tm tm' ppqn t t' ns, (forall l, Permutation l (order l)) -> (forall l, Permutation l (order' l)) -> reasonable m -> reasonable (n + m) ->
  Forall2 (erel n) tm tm' -> Forall2 (erel n) (t_events t) (t_events t') -> (forall es, build_track_events (t_events t) tm ppqn = Ok es -> notes_in_range es) ->
  track_notes env (n + m) order tm ppqn t = Ok ns -> exists ns', track_notes env' m order' tm' ppqn t' = Ok ns' /\ Permutation (map unnamed ns) (map unnamed ns').
Proof.
  intros env env' n m order order' tm tm' ppqn t t' ns O O' R R' T F NR H. unfold track_notes in *. destruct (build_track_events (t_events t) tm ppqn) as [es| | | |] eqn:E; try discriminate. cbn [bind] in H.
  destruct (build_rel n _ _ _ _ ppqn es F T E) as (es' & -> & G). cbn [bind]. apply (note_list_rel env env' n m order order' es es' O O' R R' G (NR es eq_refl) [] [] ns (Forall2_nil _) H).
Qed.

Lemma tracks_rel : forall env env' n m order order' tm tm' ppqn ts ts' ns, (forall l, Permutation l (order l)) -> (forall l, Permutation l (order' l)) -> reasonable m -> reasonable (n + m) ->
  Forall2 (erel n) tm tm' -> Forall2 (fun t t' => Forall2 (erel n) (t_events t) (t_events t')) ts ts' -> (forall t es, In t ts -> build_track_events (t_events t) tm ppqn = Ok es -> notes_in_range es) ->
  tracks_notes env (n + m) order tm ppqn ts = Ok ns -> exists ns', tracks_notes env' m order' tm' ppqn ts' = Ok ns' /\ same_notes ns ns'.
Proof.
  intros env env' n m order order' tm tm' ppqn ts ts' ns O O' R R' T F. revert ns. induction F as [|t t' ts ts' A F IH]; intros ns NR H; cbn [tracks_notes] in *.
  - apply Ok_inj in H. subst ns. exists []. split; [reflexivity|]. exists [], []. repeat split; constructor.
  - destruct (track_notes env (n + m) order tm ppqn t) as [a| | | |] eqn:E1; try discriminate. cbn [bind] in H. destruct (tracks_notes env (n + m) order tm ppqn ts) as [b| | | |] eqn:E2; try discriminate.
    cbn [bind] in H. apply Ok_inj in H. subst ns. destruct (track_rel env env' n m order order' tm tm' ppqn t t' a O O' R R' T A (fun es => NR t es (or_introl eq_refl)) E1) as (a' & -> & PA).
    destruct (IH b (fun t0 es I => NR t0 es (or_intror I)) eq_refl) as (b' & -> & (X & Y & -> & -> & PB)). cbn [bind]. eexists. split; [reflexivity|]. exists (a :: X), (a' :: Y). split; [reflexivity|]. split; [reflexivity|]. constructor; assumption.
Qed.

Lemma ppqn_division : forall env r s h, decode env r = Ok s -> f_mthd s = Some h -> h_ppqn h = if Z.land (h_division h) 32768 =? 0 then Z.land (h_division h) 32767 else 0.
Proof.
  intros env r s h H Eh. unfold decode in H. destruct (chunks r) as [[|c cs]| | | |]; try discriminate. cbn [bind] in H.
  destruct (unmarshal_mthd c) as [h'| | | |] eqn:E; try discriminate. cbn [bind] in H.
  destruct (decode_tracks env 0 cs) as [ts| | | |]; try discriminate. cbn [bind] in H. destruct (_ =? _); [|discriminate].
  apply Ok_inj in H. subst s. cbn [f_mthd] in Eh. injection Eh as ->. unfold unmarshal_mthd in E.
  repeat match type of E with
  | match ?c with [] => _ | _ :: _ => _ end = _ => destruct c; try discriminate
  | (if Z.land ?d 32768 =? 0 then _ else _) = _ => destruct (Z.land d 32768 =? 0) eqn:Q
  | (if ?b then _ else _) = _ => destruct b; try discriminate
  | match ?o with Some _ => _ | None => _ end = _ => destruct o as [[? ?]|]; try discriminate
  | (let x := _ in _) = _ => cbv zeta in E
  end; apply Ok_inj in E; subst h; cbn [h_division h_ppqn]; rewrite Q; reflexivity.
Qed.

(** Events of decoded tracks with the same delta times have the same ticks. *)
Lemma decoded_rel : forall n env env' r r' s s', is_bytes r -> is_bytes r' -> decode env r = Ok s -> decode env' r' = Ok s' -> moved_contents n (smf_contents s) (smf_contents s') ->
  Forall (Forall (fun x => fits n (snd x))) (smf_contents s) -> Forall2 (fun t t' => Forall2 (erel n) (t_events t) (t_events t')) (f_tracks s) (f_tracks s').
Proof.
  intros n env env' r r' s s' B B' D D' M F. pose proof (decoded_tracks env r s B D) as T. pose proof (decoded_tracks env' r' s' B' D') as T'. unfold smf_contents in *. clear - M F T T'.
  revert T' M. generalize (f_tracks s'). induction T as [|t ts (w & c & W & E) T IH]; intros ts' T' M; cbn [map] in *; inversion M as [|? ? ? ? M0 M1]; subst.
  - destruct ts'; [constructor|discriminate].
  - destruct ts' as [|t' ts']; [discriminate|]. cbn [map] in *. match goal with H : _ :: _ = _ :: _ |- _ => injection H as -> -> end.
    apply Forall_cons_iff in F as [F0 F]. apply Forall_cons_iff in T' as [(w' & c' & W' & E') T']. constructor; [|apply IH; assumption].
    pose proof (ticks env w _ c W E) as K. pose proof (ticks env' w' _ c' W' E') as K'.
    assert (DL : forall i, total_delta (firstn i (t_events t')) = total_delta (firstn i (t_events t))).
    { clear - M0. intro i. revert i. revert M0. generalize (t_events t') as b. generalize (t_events t) as a. induction a as [|x a IH]; intros [|y b] M i; cbn [map] in M; inversion M as [|? ? ? ? [M1 _] M2]; subst; [reflexivity|].
      destruct i; [reflexivity|]. cbn [firstn]. unfold total_delta in *. cbn [fold_right]. rewrite (IH b M2 i). cbn [ev_view fst] in M1. lia. }
    assert (G : forall a b i, (forall j x, nth_error a j = Some x -> nth_error (t_events t) (i + j) = Some x) -> (forall j x, nth_error b j = Some x -> nth_error (t_events t') (i + j) = Some x) ->
      Forall2 (fun x y => fst y = fst x /\ moved_content n (snd x) (snd y)) (map ev_view a) (map ev_view b) -> Forall (fun x => fits n (snd x)) (map ev_view a) -> Forall2 (erel n) a b).
    { induction a as [|x a IHa]; intros [|y b] i A1 B1 MV F2; cbn [map] in MV; inversion MV as [|? ? ? ? [X1 X2] X3]; subst; [constructor|]. cbn [map] in F2. apply Forall_cons_iff in F2 as [F3 F2]. constructor.
      - pose proof (A1 0%nat x eq_refl) as Q. pose proof (B1 0%nat y eq_refl) as Q'. rewrite Nat.add_0_r in Q, Q'. destruct (K _ _ Q) as [K1 _], (K' _ _ Q') as [K1' _]. cbn [ev_view fst snd] in *.
        split; [rewrite K1, K1', DL, X1; reflexivity|]. split; [exact X1|]. split; [exact X2|exact F3].
      - apply (IHa b (S i)); [| |exact X3|exact F2].
        + intros j z Hz. replace (S i + j)%nat with (i + S j)%nat by lia. apply A1. exact Hz.
        + intros j z Hz. replace (S i + j)%nat with (i + S j)%nat by lia. apply B1. exact Hz. }
    apply (G _ _ 0%nat); auto.
Qed.

(** Files with the same contents, but for the pitch of the notes, have the same notes, but for the pitch. *)
Theorem notes_moved : forall env order order' n m r r' s s' h h' notes, (forall l, Permutation l (order l)) -> (forall l, Permutation l (order' l)) -> reasonable m -> reasonable (n + m) ->
  is_bytes r -> is_bytes r' -> decode env r = Ok s -> decode env r' = Ok s' -> f_mthd s = Some h -> f_mthd s' = Some h' -> h_division h' = h_division h ->
  moved_contents n (smf_contents s) (smf_contents s') -> Forall (Forall (fun x => fits n (snd x))) (smf_contents s) ->
  extract env (n + m) order s = Ok notes -> exists notes', extract env m order' s' = Ok notes' /\ same_notes notes notes'.
Proof.
  intros env order order' n m r r' s s' h h' notes O O' R R' B B' D D' Eh Eh' DV M F H.
  pose proof (decoded_rel n env env r r' s s' B B' D D' M F) as REL. unfold extract in *. rewrite Eh in H. rewrite Eh'.
  assert (P : h_ppqn h' = h_ppqn h) by (rewrite (ppqn_division _ _ _ _ D Eh), (ppqn_division _ _ _ _ D' Eh'), DV; reflexivity). rewrite P.
  pose proof (fun t t0 es I I0 => decoded_notes_range env r s t t0 (h_ppqn h) es B D I I0) as NR.
  destruct REL as [|t0 t0' ts ts' A REL]; [discriminate|]. 
  assert (EMPTY : ts = [] -> Ok [] = Ok notes -> exists notes', Ok [] = Ok notes' /\ same_notes notes notes').
  { intros _ Q. apply Ok_inj in Q. subst notes. exists []. split; [reflexivity|]. exists [], []. repeat split; constructor. }
  destruct REL as [|t1 t1' ts ts' A1 REL]; [apply (EMPTY eq_refl H)|].
  refine (tracks_rel env env n m order order' _ _ (h_ppqn h) (t1 :: ts) (t1' :: ts') notes O O' R R' (tempo_rel _ _ _ A) (Forall2_cons _ _ A1 REL) _ H).
  intros t es I E. apply (NR t t0 es); [right; exact I|left; reflexivity|exact E].
Qed.

(** The notes of a transposed file are those of the original moved by the same number of semitones; [m]: the --transpose of the second run. *)
Theorem transposed_notes : forall env order order' n m r s bs s2 notes, (forall l, Permutation l (order l)) -> (forall l, Permutation l (order' l)) -> reasonable n -> reasonable m -> reasonable (n + m) ->
  is_bytes r -> decode env r = Ok s -> legal_smf s -> Forall (fun t => faithful_events env (t_events t)) (f_tracks s) -> Forall (Forall (fun x => fits n (snd x))) (smf_contents s) ->
  transpose_execute env n s = Ok bs -> zlen bs < 4294967296 -> decode env bs = Ok s2 -> extract env (n + m) order s = Ok notes ->
  exists notes', extract env m order' s2 = Ok notes' /\ same_notes notes notes'.
Proof.
  intros env order order' n m r s bs s2 notes O O' N R R' B D L F FT E Z D2 X. destruct (transpose_written env n r s B D L F N) as (bs' & E' & K). rewrite E in E'. apply Ok_inj in E'. subst bs'.
  destruct (K Z) as (s' & h & h2 & D' & Eh & Eh2 & (_ & _ & _ & _ & DV) & M). rewrite D2 in D'. apply Ok_inj in D'. subst s'.
  destruct (transpose_legal env n r s bs s2 B D L F N E Z D2) as [B2 _].
  apply (notes_moved env order order' n m r bs s s2 h h2 notes); assumption.
Qed.
