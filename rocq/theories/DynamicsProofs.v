(** * Proofs for C124. *)
From Coq Require Import Permutation.
From Verif Require Import Base Strings Tables Event Track File Notes SpecNames SpecSlower SlowerProofs SpecDynamics SpecDecoded DecodedProofs.

(** The three cases of [replayed_body] with the shape of the events *)
Definition ends (k : Z * Z) (b : body) : Prop :=
  match b with NoteOff ch n _ => k = (ch, n_value n) | NoteOn ch n v => k = (ch, n_value n) /\ v = 0 | _ => False end.
Definition keyless (b : body) : Prop := match b with NoteOff _ _ _ | NoteOn _ _ _ => False | _ => True end.

Inductive sim (R : Z -> Z -> Prop) : body -> body -> Prop :=
| sim_same : forall b, keyless b -> sim R b b
| sim_end : forall b b' k, ends k b -> ends k b' -> sim R b b'
| sim_strike : forall ch n n' v v', n_value n = n_value n' -> 0 < v -> 0 < v' -> R v v' -> sim R (NoteOn ch n v) (NoteOn ch n' v').

Definition loud (b : body) : Prop := match b with NoteOn _ _ v => 0 <= v | _ => True end.

Lemma releases_ends : forall b k, releases b = Some k -> ends k b.
Proof.
  intros b k H. destruct b; cbn in *; try discriminate H; [injection H as <-; reflexivity|].
  match type of H with context [?v =? 0] => destruct (Z.eqb_spec v 0); [|discriminate H] end. injection H as <-. split; [reflexivity|assumption].
Qed.

Lemma strikes_on : forall b ch n v, loud b -> strikes b = Some (ch, n, v) -> exists x, b = NoteOn ch x v /\ n_value x = n /\ 0 < v.
Proof.
  intros b ch n v L H. destruct b; cbn in *; try discriminate H.
  match type of H with context [?w =? 0] => destruct (Z.eqb_spec w 0); [discriminate H|] end. injection H as <- <- <-. eexists. repeat split. lia.
Qed.

Lemma replayed_sim : forall R b b', loud b -> loud b' -> replayed_body R b b' -> sim R b b'.
Proof.
  intros R b b' L L' H. destruct H as [b H|b b' k H H'|b b' ch n v v' H H' Q].
  - destruct b; try (apply sim_same; exact I).
    + eapply sim_end; cbn; reflexivity.
    + cbn in H. match type of H with context [?w =? 0] => destruct (Z.eqb_spec w 0); [|discriminate H] end.
      eapply sim_end; cbn; split; auto.
  - apply (sim_end R _ _ k); apply releases_ends; assumption.
  - apply strikes_on in H as (x & -> & E & P); [|exact L]. apply strikes_on in H' as (x' & -> & E' & P'); [|exact L'].
    constructor; auto. congruence.
Qed.

(** Of an event, everything but the content is the same. *)
Definition like (R : Z -> Z -> Prop) (x y : nevent) : Prop :=
  ne_tick x = ne_tick y /\ ne_delta x = ne_delta y /\ ne_at x = ne_at y /\ ne_flats x = ne_flats y /\ sim R (ne_body x) (ne_body y).

Definition sim_event (R : Z -> Z -> Prop) (e e' : event) : Prop := e_tick e = e_tick e' /\ e_delta e = e_delta e' /\ sim R (e_body e) (e_body e').

Lemma insert_like : forall R x y l l', like R x y -> Forall2 (like R) l l' -> Forall2 (like R) (insert_tick x l) (insert_tick y l').
Proof.
  intros R x y l l' H F. induction F as [|a b l l' Q F IH]; cbn [insert_tick]; [repeat constructor; apply H|].
  rewrite <- (proj1 H), <- (proj1 Q). destruct (ne_tick a <? ne_tick x); constructor; auto.
Qed.

Lemma sort_like : forall R l l', Forall2 (like R) l l' -> Forall2 (like R) (sort_ticks l) (sort_ticks l').
Proof. intros R l l' F. induction F; cbn [sort_ticks]; [constructor|]. apply insert_like; assumption. Qed.

Lemma unsorted_like : forall R es es' tm tm', Forall2 (sim_event R) es es' -> Forall2 (sim_event R) tm tm' -> Forall2 (like R) (unsorted es tm) (unsorted es' tm').
Proof.
  intros R es es' tm tm' F G. unfold unsorted. apply Forall2_app.
  - induction F as [|e e' es es' (H1 & H2 & H3) F IH]; constructor; auto. repeat split; auto.
  - induction G as [|e e' tm tm' (H1 & H2 & H3) F' IH]; constructor; auto. repeat split; auto.
Qed.

(** What reads the content before the notes are made sees no difference. *)
Lemma sim_inert : forall A (f : body -> A), (forall ch n v ch' n' v', f (NoteOn ch n v) = f (NoteOn ch' n' v') /\ f (NoteOff ch n v) = f (NoteOn ch' n' v')) ->
  forall R b b', sim R b b' -> f b = f b'.
Proof.
  intros A f Q R b b' H. destruct H as [b H|b b' k H H'|ch n n' v v' E P P' H]; [reflexivity| |apply Q].
  destruct b; try contradiction H; destruct b'; try contradiction H'; try (apply Q; fail); try (symmetry; apply Q; fail).
  match goal with |- f (NoteOff ?c ?n ?v) = f (NoteOff ?c' ?n' ?v') => transitivity (f (NoteOn c n v)); [apply Q|symmetry; apply Q] end.
Qed.

Lemma tempos_like : forall R es es', Forall2 (sim_event R) es es' -> Forall2 (sim_event R) (tempo_events es) (tempo_events es').
Proof.
  intros R es es' F. induction F as [|e e' es es' (H1 & H2 & H3) F IH]; [constructor|]. cbn [tempo_events filter].
  rewrite <- (sim_inert _ is_tempo ltac:(split; reflexivity) R _ _ H3). destruct (is_tempo (e_body e)); [constructor; [repeat split; auto|]|]; exact IH.
Qed.

Lemma times_like : forall R p l l', Forall2 (like R) l l' -> forall tempo a flats, alike (Forall2 (like R)) (timestamps tempo a flats p l) (timestamps tempo a flats p l').
Proof.
  intros R p l l' F. induction F as [|x y l l' (H1 & H2 & H3 & H4 & H5) F IH]; intros tempo a flats; cbn [timestamps]; [constructor|].
  rewrite <- H1, <- H2. destruct (delta_time (ne_delta x) tempo p) as [d| | | |]; cbn [bind alike]; auto.
  rewrite <- (sim_inert _ (fun b => match b with Tempo t => t | _ => tempo end) ltac:(split; reflexivity) R _ _ H5).
  rewrite <- (sim_inert _ (fun b => match b with KeySignature acc _ _ => acc <? 0 | _ => flats end) ltac:(split; reflexivity) R _ _ H5).
  match goal with |- context [timestamps ?t ?b ?f p l] => specialize (IH t b f); destruct (timestamps t b f p l), (timestamps t b f p l') end; cbn [alike bind] in IH |- *; try contradiction; auto.
  constructor; [|exact IH]. repeat split; auto.
Qed.

Lemma filter_like : forall R l l', Forall2 (like R) l l' -> Forall2 (like R) (filter (fun e => is_note_event (ne_body e)) l) (filter (fun e => is_note_event (ne_body e)) l').
Proof.
  intros R l l' F. induction F as [|x y l l' H F IH]; [constructor|]. cbn [filter].
  rewrite <- (sim_inert _ is_note_event ltac:(split; reflexivity) R _ _ (proj2 (proj2 (proj2 (proj2 H))))). destruct (is_note_event (ne_body x)); [constructor|]; auto.
Qed.

(** Keys that are held: the same ones, struck at the same times *)
Definition both_on (R : Z -> Z -> Prop) (x y : nevent) : Prop :=
  ne_tick x = ne_tick y /\ ne_at x = ne_at y /\ ne_flats x = ne_flats y /\
  exists ch n n' v v', ne_body x = NoteOn ch n v /\ ne_body y = NoteOn ch n' v' /\ n_value n = n_value n' /\ R v v'.
Definition pending_like (R : Z -> Z -> Prop) : pending -> pending -> Prop := Forall2 (fun u v => fst u = fst v /\ both_on R (snd u) (snd v)).

Lemma finished_like : forall R env steps p p' e e', both_on R p p' -> like R e e' -> replayed_note R (finished env steps p e) (finished env steps p' e').
Proof.
  intros R env steps p p' e e' (P1 & P2 & P3 & ch & n & n' & v & v' & B & B' & N & Q) (E1 & _ & E2 & _). unfold finished. rewrite B, B', N, P1, P2, P3, E1, E2.
  repeat split. exact Q.
Qed.

Lemma find_like : forall R k p p', pending_like R p p' ->
  match find_key k p, find_key k p' with Some x, Some y => both_on R x y | None, None => True | _, _ => False end.
Proof.
  intros R k p p' F. induction F as [|[i x] [j y] p p' (Q & H) F IH]; cbn [find_key]; [exact I|]. cbn [fst snd] in Q, H. subst j.
  destruct (key_eqb k i); [exact H|exact IH].
Qed.

Lemma filter_pending_like : forall R (f : Z * Z -> bool) p p', pending_like R p p' -> pending_like R (filter (fun x => f (fst x)) p) (filter (fun x => f (fst x)) p').
Proof.
  intros R f p p' F. induction F as [|u v p p' Q F IH]; [constructor|]. cbn [filter]. destruct Q as [Q H]. rewrite <- Q.
  destruct (f (fst u)); [constructor; auto|exact IH].
Qed.

Lemma ordered_like : forall R env steps order order' q q' e e', (forall l, Permutation l (order l)) -> (forall l, Permutation l (order' l)) ->
  pending_like R q q' -> like R e e' ->
  matched (replayed_note R) (map (fun on => finished env steps on e) (order (map snd q))) (map (fun on => finished env steps on e') (order' (map snd q'))).
Proof.
  intros R env steps order order' q q' e e' O1 O2 F H.
  assert (G : Forall2 (both_on R) (map snd q) (map snd q')).
  { clear O1 O2. induction F as [|u v q q' (_ & Q) F IH]; cbn [map]; constructor; auto. }
  destruct (Permutation_Forall2 (O1 (map snd q)) G) as (m & P & G').
  exists (map (fun on => finished env steps on e') m). split.
  - apply Permutation_map. eapply Permutation_trans; [apply Permutation_sym, P|apply O2].
  - clear P G. induction G' as [|x y l m Q G IH]; cbn [map]; constructor; auto. apply finished_like; assumption.
Qed.

Lemma finish_all_like : forall R env steps order order' q q' e e', (forall l, Permutation l (order l)) -> (forall l, Permutation l (order' l)) ->
  pending_like R q q' -> like R e e' -> matched (replayed_note R) (finish_all env steps order q e) (finish_all env steps order' q' e').
Proof.
  intros R env steps order order' q q' e e' O1 O2 F H. unfold finish_all. induction channels16 as [|c cs IH]; cbn [flat_map]; [apply matched_same; constructor|].
  apply matched_app; [|exact IH]. apply ordered_like; auto. apply (filter_pending_like R (fun k => fst k =? c)). exact F.
Qed.

Lemma finish_like : forall R env steps p p' k e e', pending_like R p p' -> like R e e' ->
  matched (replayed_note R) (fst (finish env steps p k e)) (fst (finish env steps p' k e')) /\ pending_like R (snd (finish env steps p k e)) (snd (finish env steps p' k e')).
Proof.
  intros R env steps p p' k e e' F H. unfold finish. pose proof (find_like R k p p' F) as Q.
  destruct (find_key k p) as [x|], (find_key k p') as [y|]; try contradiction; cbn [fst snd].
  - split; [apply matched_same; constructor; [apply finished_like; assumption|constructor]|]. apply (filter_pending_like R (fun i => negb (key_eqb k i))). exact F.
  - split; [apply matched_same; constructor|exact F].
Qed.

(** An event that ends a note *)
Lemma note_list_ends : forall env steps order p e r k, ends k (ne_body e) ->
  note_list env steps order p (e :: r) = (let (out, q) := finish env steps p k e in do ns <- note_list env steps order q r; Ok (out ++ ns)).
Proof.
  intros env steps order p e r k H. cbn [note_list]. destruct (ne_body e); try contradiction H; cbn in H.
  - subst k. reflexivity.
  - destruct H as [-> ->]. reflexivity.
Qed.

Lemma notes_like : forall R env steps order order' l l', (forall l, Permutation l (order l)) -> (forall l, Permutation l (order' l)) -> Forall2 (like R) l l' ->
  forall p p', pending_like R p p' -> alike (matched (replayed_note R)) (note_list env steps order p l) (note_list env steps order' p' l').
Proof.
  intros R env steps order order' l l' O1 O2 D. induction D as [|x y l l' H D IH]; intros p p' P.
  { apply matched_same. constructor. }
  pose proof H as (H1 & H2 & H3 & H4 & H5). remember (ne_body x) as bx eqn:E in H5. remember (ne_body y) as by0 eqn:E' in H5. destruct H5 as [b K|b b' k K K'|ch n n' v v' N V V' Q].
  - cbn [note_list]. rewrite <- E, <- E'. clear E E'. destruct b; try contradiction K; try (apply IH; exact P).
    assert (N := filter_pending_like R (fun i => negb (existsb (Z.eqb (fst i)) channels16)) p p' P). specialize (IH _ _ N).
    cbn beta in IH. destruct (note_list env steps order _ l), (note_list env steps order' _ l'); cbn [alike bind] in IH |- *; try contradiction; auto.
    apply matched_app; [|exact IH]. apply finish_all_like; auto.
  - subst b b'. rewrite (note_list_ends env steps order p x l k K), (note_list_ends env steps order' p' y l' k K').
    destruct (finish_like R env steps p p' k x y P H) as [M N].
    destruct (finish env steps p k x) as [out q], (finish env steps p' k y) as [out' q']. cbn [fst snd] in M, N. specialize (IH _ _ N).
    destruct (note_list env steps order q l), (note_list env steps order' q' l'); cbn [alike bind] in IH |- *; try contradiction; auto.
    apply matched_app; assumption.
  - cbn [note_list]. rewrite <- E, <- E', <- N. destruct (Z.ltb_spec 0 v); [|lia]. destruct (Z.ltb_spec 0 v'); [|lia].
    pose proof (find_like R (ch, n_value n) p p' P) as F. destruct (find_key (ch, n_value n) p), (find_key (ch, n_value n) p'); try contradiction; [apply IH; exact P|].
    destruct (ch <? 16); [|exact I]. apply IH. constructor; [|exact P]. split; [reflexivity|]. repeat split; auto. exists ch, n, n', v, v'. repeat split; auto.
Qed.

Lemma track_like : forall R env steps order order' es es' tm tm' p, (forall l, Permutation l (order l)) -> (forall l, Permutation l (order' l)) ->
  Forall2 (sim_event R) es es' -> Forall2 (sim_event R) tm tm' ->
  alike (matched (replayed_note R)) (do l <- build_track_events es tm p; note_list env steps order [] l) (do l <- build_track_events es' tm' p; note_list env steps order' [] l).
Proof.
  intros R env steps order order' es es' tm tm' p O1 O2 F G. unfold build_track_events.
  pose proof (times_like R p _ _ (sort_like R _ _ (unsorted_like R _ _ _ _ F G)) 50000 0 false) as T.
  destruct (timestamps 50000 0 false p (sort_ticks (unsorted es tm))) as [u| | | |], (timestamps 50000 0 false p (sort_ticks (unsorted es' tm'))) as [v| | | |];
    cbn [alike bind] in T |- *; try contradiction; auto.
  apply notes_like; auto; [apply filter_like, T|constructor].
Qed.

Lemma tracks_like : forall R env steps order order' tm tm' p ts ts', (forall l, Permutation l (order l)) -> (forall l, Permutation l (order' l)) ->
  Forall2 (sim_event R) tm tm' -> Forall2 (fun t t' => Forall2 (sim_event R) (t_events t) (t_events t')) ts ts' ->
  alike (matched (replayed_note R)) (tracks_notes env steps order tm p ts) (tracks_notes env steps order' tm' p ts').
Proof.
  intros R env steps order order' tm tm' p ts ts' O1 O2 G F. induction F as [|t t' ts ts' H F IH]; cbn [tracks_notes]; [apply matched_same; constructor|].
  pose proof (track_like R env steps order order' _ _ _ _ p O1 O2 H G) as T.
  unfold track_notes. destruct (do l <- build_track_events (t_events t) tm p; note_list env steps order [] l), (do l <- build_track_events (t_events t') tm' p; note_list env steps order' [] l);
    cbn [alike bind] in T |- *; try contradiction; auto.
  destruct (tracks_notes env steps order tm p ts), (tracks_notes env steps order' tm' p ts'); cbn [alike bind] in IH |- *; try contradiction; auto.
  apply matched_app; assumption.
Qed.

Lemma decoded_loud : forall env r s, is_bytes r -> decode env r = Ok s -> Forall (fun t => Forall (fun e => loud (e_body e)) (t_events t)) (f_tracks s).
Proof.
  intros env r s Hr H. apply decoded_file in H; [|exact Hr]. revert H. apply Forall_impl. intros t (_ & _ & H). revert H. apply Forall_impl. intros e (_ & D & H).
  destruct (e_body e); cbn; auto. cbn [decoded_body] in H. lia.
Qed.

Lemma events_sim : forall R es es', Forall2 (replayed_event R) es es' -> Forall (fun e => loud (e_body e)) es -> Forall (fun e => loud (e_body e)) es' -> Forall2 (sim_event R) es es'.
Proof.
  intros R es es' F. induction F as [|e e' es es' (H1 & H2 & H3) F IH]; intros L L'; constructor; inversion L; inversion L'; subst; auto.
  repeat split; auto. apply replayed_sim; auto.
Qed.

Theorem replayed_notes : forall env r r' s s' R steps order order', is_bytes r -> is_bytes r' -> decode env r = Ok s -> decode env r' = Ok s' -> replayed_file R s s' ->
  (forall l, Permutation l (order l)) -> (forall l, Permutation l (order' l)) ->
  alike (matched (replayed_note R)) (extract env steps order s) (extract env steps order' s').
Proof.
  intros env r r' s s' R steps order order' Hr Hr' D D' [E F] O1 O2. pose proof (decoded_loud _ _ _ Hr D) as L. pose proof (decoded_loud _ _ _ Hr' D') as L'. clear D D'.
  assert (G : Forall2 (fun t t' => Forall2 (sim_event R) (t_events t) (t_events t')) (f_tracks s) (f_tracks s')).
  { revert L L'. induction F as [|t t' ts ts' H F IH]; intros L L'; constructor; inversion L; inversion L'; subst; auto. apply events_sim; assumption. }
  unfold extract. destruct G as [|t t' ts ts' H G]; [exact I|].
  destruct (f_mthd s) as [h|], (f_mthd s') as [h'|]; cbn in E; try discriminate E.
  - injection E as E. rewrite <- E. destruct G as [|u u' us us' Q G]; [apply matched_same; constructor|].
    apply tracks_like; auto using tempos_like.
  - destruct G as [|u u' us us' Q G]; [apply matched_same; constructor|exact I].
Qed.

Theorem released_notes : forall env r r' s s' steps order order', is_bytes r -> is_bytes r' -> decode env r = Ok s -> decode env r' = Ok s' -> replayed_file eq s s' ->
  (forall l, Permutation l (order l)) -> (forall l, Permutation l (order' l)) ->
  alike (@Permutation note_out) (extract env steps order s) (extract env steps order' s').
Proof.
  intros env r r' s s' steps order order' Hr Hr' D D' F O1 O2. pose proof (replayed_notes env r r' s s' eq steps order order' Hr Hr' D D' F O1 O2) as Q.
  destruct (extract env steps order s) as [l| | | |], (extract env steps order' s') as [l'| | | |]; cbn [alike] in Q |- *; auto. destruct Q as (m & P & G).
  eapply Permutation_trans; [|exact P]. replace m with l; [apply Permutation_refl|]. clear P. induction G as [|x y l m (A & B & C) G IH]; [reflexivity|]. f_equal; [|exact IH].
  destruct x, y. cbn in A, B, C. congruence.
Qed.
