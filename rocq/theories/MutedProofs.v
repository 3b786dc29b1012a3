(** * Proofs for C131. *)
From Coq Require Import Permutation.
From Verif Require Import Base Strings Tables Event Track File Transpose Notes SpecDivided SpecMuted DividedProofs.

(** Every note is on a channel with a NoteOn event. *)
Definition on_channel (P : Z -> Prop) (e : nevent) : Prop := exists ch n v, ne_body e = NoteOn ch n v /\ P ch.

Lemma finished_channel : forall (P : Z -> Prop) env steps p e, on_channel P p -> P (o_ch (finished env steps p e)).
Proof. intros P env steps p e (ch & n & v & H & C). unfold finished. rewrite H. exact C. Qed.

Lemma find_channel : forall P k (p : pending) x, Forall (fun u => on_channel P (snd u)) p -> find_key k p = Some x -> on_channel P x.
Proof. intros P k p x F. induction F as [|[i y] p H F IH]; cbn [find_key]; [discriminate|]. destruct (key_eqb k i); [|exact IH]. intros E. injection E as <-. exact H. Qed.

Lemma filter_channel : forall A (Q : A -> Prop) f l, Forall Q l -> Forall Q (filter f l).
Proof. intros A Q f l F. induction F; cbn [filter]; [constructor|]. destruct (f x); [constructor|]; auto. Qed.

Lemma list_channels : forall (P : Z -> Prop) env steps order l, (forall l, Permutation l (order l)) -> (forall e, In e l -> forall ch n v, ne_body e = NoteOn ch n v -> P ch) ->
  forall p ns, Forall (fun u => on_channel P (snd u)) p -> note_list env steps order p l = Ok ns -> Forall (fun o => P (o_ch o)) ns.
Proof.
  intros P env steps order l O1. induction l as [|e l IH]; intros C p ns F H; cbn [note_list] in H; [apply Ok_inj in H; subst; constructor|].
  specialize (IH (fun e I => C e (or_intror I))).
  assert (END : forall k, (let (out, p') := finish env steps p k e in do ns <- note_list env steps order p' l; Ok (out ++ ns)) = Ok ns -> Forall (fun o => P (o_ch o)) ns).
  { intros k. unfold finish. pose proof (find_channel P k p) as W. destruct (find_key k p) as [x|].
    - destruct (note_list env steps order (drop_key k p) l) eqn:N; try discriminate. cbn [bind]. intros E. apply Ok_inj in E. subst ns. constructor; [apply finished_channel; apply W; auto|].
      apply (IH _ _ (filter_channel _ _ _ _ F) N).
    - destruct (note_list env steps order p l) eqn:N; try discriminate. cbn [bind app]. intros E. apply Ok_inj in E. subst ns. apply (IH _ _ F N). }
  destruct (ne_body e) eqn:K; try (apply (IH _ _ F H)); try (apply END in H; exact H).
  - match type of H with context [0 <? ?w] => destruct (0 <? w); [|apply END in H; exact H] end.
    match type of H with context [find_key ?k p] => destruct (find_key k p); [apply (IH _ _ F H)|] end.
    match type of H with context [?c <? 16] => destruct (c <? 16); [|discriminate H] end.
    refine (IH _ _ _ H). constructor; [|exact F]. cbn [snd]. do 3 eexists. split; [exact K|]. apply (C e (or_introl eq_refl) _ _ _ K).
  - match type of H with context [note_list env steps order ?q l] => destruct (note_list env steps order q l) eqn:N; try discriminate H end. cbn [bind] in H. apply Ok_inj in H. subst ns.
    apply Forall_app. split; [|apply (IH _ _ (filter_channel _ _ _ _ F) N)]. unfold finish_all. apply Forall_flat_map. apply Forall_forall. intros c _. apply Forall_map.
    apply (Permutation_Forall (O1 _)). apply Forall_map. apply filter_channel. revert F. apply Forall_impl. intros u U. apply finished_channel. exact U.
Qed.

Lemma stamped_body : forall p l t a f u, timestamps t a f p l = Ok u -> map ne_body u = map ne_body l.
Proof.
  intros p. induction l as [|e l IH]; intros t a f u H; cbn [timestamps] in H; [apply Ok_inj in H; subst; reflexivity|].
  destruct (delta_time (ne_delta e) t p) as [d| | | |]; try discriminate H. cbn [bind] in H.
  match type of H with context [timestamps ?t2 ?a2 ?f2 p l] => destruct (timestamps t2 a2 f2 p l) eqn:N; try discriminate H end. cbn [bind] in H. apply Ok_inj in H. subst u. cbn [map ne_body]. f_equal. apply (IH _ _ _ _ N).
Qed.

Lemma insert_inv : forall x l y, In y (insert_tick x l) -> y = x \/ In y l.
Proof.
  intros x l y. induction l as [|z l IH]; cbn [insert_tick]; [intros [<-|[]]; auto|]. destruct (ne_tick z <? ne_tick x); cbn [In]; intros [<-|I]; auto.
  destruct (IH I); auto.
Qed.

Lemma sort_inv : forall l y, In y (sort_ticks l) -> In y l.
Proof. induction l as [|x l IH]; intros y I; cbn [sort_ticks] in I; [exact I|]. apply insert_inv in I as [->|I]; [left; reflexivity|right; auto]. Qed.

Lemma track_channels : forall (P : Z -> Prop) env steps order tm p t ns, (forall l, Permutation l (order l)) -> Forall (fun e => is_tempo (e_body e) = true) tm ->
  (forall e, In e (t_events t) -> forall ch n v, e_body e = NoteOn ch n v -> P ch) -> track_notes env steps order tm p t = Ok ns -> Forall (fun o => P (o_ch o)) ns.
Proof.
  intros P env steps order tm p t ns O1 T C H. unfold track_notes, build_track_events in H.
  destruct (timestamps 50000 0 false p (sort_ticks (unsorted (t_events t) tm))) eqn:N; try discriminate H. cbn [bind] in H.
  apply (list_channels P) in H; [exact H|exact O1| |constructor]. intros e I ch n v B. apply filter_In in I as [I _].
  apply stamped_body in N. apply (in_map ne_body) in I. rewrite N in I. apply in_map_iff in I as (x & X & I). apply sort_inv in I. unfold unsorted in I.
  apply in_app_iff in I as [I|I]; apply in_map_iff in I as (y & <- & I); cbn [ne_body] in X.
  - apply (C y I ch n v). congruence.
  - rewrite Forall_forall in T. apply T in I. rewrite X, B in I. discriminate I.
Qed.

Lemma muted_divided : forall chosen l l', muted chosen l l' -> exists l2, divided chosen l l' l2.
Proof.
  intros chosen l l' M. induction M as [|e e' l l' Q [R|R] M [l2 IH]|e l l' R M [l2 IH]].
  - exists []. constructor.
  - exists l2. apply dv_first; assumption.
  - exists (e :: l2). apply dv_both; auto. split; reflexivity.
  - exists (e :: l2). apply dv_second; auto. split; reflexivity.
Qed.

Lemma divided_channels : forall chosen l l1 l2, divided chosen l l1 l2 ->
  (forall e, In e l1 -> forall ch n v, e_body e = NoteOn ch n v -> chosen ch = true) /\ (forall e, In e l2 -> forall ch n v, e_body e = NoteOn ch n v -> chosen ch = false).
Proof.
  intros chosen l l1 l2 D. induction D as [|e e' l l1 l2 [_ Q] R D [I1 I2]|e e' l l1 l2 [_ Q] R D [I1 I2]|e e1 e2 l l1 l2 [_ Q1] [_ Q2] R D [I1 I2]]; [split; intros e []|..]; split; auto; intros x [<-|I] ch n v B; eauto.
  - rewrite Q in B. rewrite B in R. exact R.
  - rewrite Q in B. rewrite B in R. cbn [partial_event] in R. destruct (chosen ch); [discriminate R|reflexivity].
  - rewrite Q1 in B. rewrite B in R. contradiction.
  - rewrite Q2 in B. rewrite B in R. contradiction.
Qed.

Definition chosen_note (chosen : Z -> bool) (o : Z * Z * bytes * Z * Z * Z) : bool := match o with (ch, _, _, _, _, _) => chosen ch end.

Lemma heard_untimed : forall chosen ns, map untimed (heard chosen ns) = filter (chosen_note chosen) (map untimed ns).
Proof. intros chosen ns. unfold heard. induction ns as [|o ns IH]; [reflexivity|]. cbn [filter map]. unfold untimed at 2. cbn [chosen_note]. destruct (chosen (o_ch o)); cbn [map]; rewrite IH; reflexivity. Qed.

Lemma perm_filter : forall A (f : A -> bool) l l', Permutation l l' -> Permutation (filter f l) (filter f l').
Proof.
  intros A f l l' H. induction H as [|x l l' H IH|x y l|l m n H1 IH1 H2 IH2]; cbn [filter]; [constructor|destruct (f x); auto|destruct (f x), (f y); auto using perm_swap, Permutation_refl|eapply Permutation_trans; eassumption].
Qed.

Lemma heard_all : forall chosen ns, Forall (fun o => chosen (o_ch o) = true) ns -> heard chosen ns = ns.
Proof. intros chosen ns F. unfold heard. induction F as [|o ns H F IH]; [reflexivity|]. cbn [filter]. rewrite H, IH. reflexivity. Qed.

Lemma heard_none : forall chosen ns, Forall (fun o => chosen (o_ch o) = false) ns -> heard chosen ns = [].
Proof. intros chosen ns F. unfold heard. induction F as [|o ns H F IH]; [reflexivity|]. cbn [filter]. rewrite H, IH. reflexivity. Qed.

Lemma heard_app : forall chosen a b, heard chosen (a ++ b) = heard chosen a ++ heard chosen b.
Proof. intros chosen a b. unfold heard. induction a as [|o a IH]; [reflexivity|]. cbn [app filter]. rewrite IH. destruct (chosen (o_ch o)); reflexivity. Qed.

Lemma track_muted : forall chosen env steps order order' tm p t t1 ns, (forall l, Permutation l (order l)) -> (forall l, Permutation l (order' l)) ->
  Forall (fun e => is_tempo (e_body e) = true) tm -> muted chosen (t_events t) (t_events t1) -> track_notes env steps order tm p t = Ok ns ->
  exists ns1, track_notes env steps order' tm p t1 = Ok ns1 /\ Permutation (map untimed (heard chosen ns)) (map untimed ns1).
Proof.
  intros chosen env steps order order' tm p t t1 ns O1 O2 T M H. destruct (muted_divided _ _ _ M) as [l2 D].
  pose proof (divided_channels _ _ _ _ D) as [C1 C2]. set (t2 := MTrk (t_tag t1) (t_number t1) (t_length t1) (t_bytes t1) l2 (t_ctx t1)).
  destruct (track_divided chosen env steps order order' tm p t t1 t2 ns O1 O2 T D H) as (ns1 & ns2 & N1 & N2 & P). exists ns1. split; [exact N1|].
  rewrite heard_untimed. eapply Permutation_trans; [apply perm_filter, P|]. rewrite <- heard_untimed, heard_app.
  rewrite (heard_all chosen ns1), (heard_none chosen ns2), app_nil_r; [apply Permutation_refl| |].
  - apply (track_channels (fun c => chosen c = false) env steps order' tm p t2); auto.
  - apply (track_channels (fun c => chosen c = true) env steps order' tm p t1); auto.
Qed.

Lemma tempo_only : forall es, Forall (fun e => is_tempo (e_body e) = true) (tempo_events es).
Proof. intros es. apply Forall_forall. intros e I. apply filter_In in I. tauto. Qed.

Theorem muted_notes : forall chosen env steps order order' s s' ns, muted_file chosen s s' -> (forall l, Permutation l (order l)) -> (forall l, Permutation l (order' l)) ->
  extract env steps order s = Ok ns -> exists ns', extract env steps order' s' = Ok ns' /\ Permutation (map untimed (heard chosen ns)) (map untimed ns').
Proof.
  intros chosen env steps order order' s s' ns (E & t0 & ts & t0' & ts' & TS & TS' & T0 & F) O1 O2. unfold extract. rewrite TS, TS', T0.
  assert (G : forall tm p ns, Forall (fun e => is_tempo (e_body e) = true) tm -> tracks_notes env steps order tm p ts = Ok ns ->
     exists ns', tracks_notes env steps order' tm p ts' = Ok ns' /\ Permutation (map untimed (heard chosen ns)) (map untimed ns')).
  { intros tm p ns0 T. clear - F T O1 O2. revert ns0. induction F as [|t t' ts ts' M F IH]; intros ns H; cbn [tracks_notes] in *; [apply Ok_inj in H; subst; exists []; split; [reflexivity|constructor]|].
    destruct (track_notes env steps order tm p t) as [a| | | |] eqn:N; try discriminate H. cbn [bind] in H.
    destruct (tracks_notes env steps order tm p ts) as [b| | | |]; try discriminate H. cbn [bind] in H. apply Ok_inj in H. subst ns.
    destruct (track_muted chosen env steps order order' tm p t t' a O1 O2 T M N) as (a' & -> & PA). destruct (IH b eq_refl) as (b' & -> & PB). cbn [bind]. eexists. split; [reflexivity|].
    rewrite heard_app, !map_app. apply Permutation_app; assumption. }
  destruct (f_mthd s) as [h|], (f_mthd s') as [h'|]; cbn in E; try discriminate E.
  - injection E as E. rewrite <- E. inversion F; subst; [intros H; apply Ok_inj in H; subst ns; exists []; split; [reflexivity|constructor]|]. apply G, tempo_only.
  - inversion F; subst; [intros H; apply Ok_inj in H; subst ns; exists []; split; [reflexivity|constructor]|discriminate].
Qed.
