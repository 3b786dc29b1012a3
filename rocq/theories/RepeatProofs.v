(** * Proofs for C128. *)
From Verif Require Import Base Strings Tables Event Track File Transpose Notes SpecNotes SpecDivided SpecHistory SpecRepeat NotesTimeProofs TransposeProofs.

Definition timed (t a : Z) (f : bool) (p : Z) (l : list nevent) : outcome (list nevent) :=
  do u <- timestamps t a f p l; Ok (filter (fun e => is_note_event (ne_body e)) u).

Lemma wrap_twice : forall z, wrap64 (wrap64 z) = wrap64 z.
Proof. intros z. apply wrap64_id. unfold wrap64. lia. Qed.

Lemma timed_step : forall t a f p e l l',
  (forall a' f', wrap64 a' = a' -> timed (match ne_body e with Tempo u => u | _ => t end) a' f' p l = timed (match ne_body e with Tempo u => u | _ => t end) a' f' p l') ->
  timed t a f p (e :: l) = timed t a f p (e :: l').
Proof.
  intros t a f p e l l' H. unfold timed in *. cbn [timestamps]. destruct (delta_time (ne_delta e) t p) as [d| | | |]; try reflexivity. cbn [bind].
  set (f' := match ne_body e with KeySignature acc _ _ => acc <? 0 | _ => f end). specialize (H (wrap64 (a + d)) f' (wrap_twice _)).
  destruct (timestamps _ (wrap64 (a + d)) f' p l) as [u| | | |], (timestamps _ (wrap64 (a + d)) f' p l') as [v| | | |]; cbn [bind] in *; try discriminate H; try reflexivity.
  apply Ok_inj in H. cbn [filter ne_body]. rewrite H. reflexivity.
Qed.

(** The event repeated: time and tempo stay, and it is no note. *)
Lemma timed_repeat : forall a f p x u l, p <> 0 -> wrap64 a = a -> ne_delta x = 0 -> ne_body x = Tempo u -> timed u a f p (x :: l) = timed u a f p l.
Proof.
  intros a f p x u l P A D B. unfold timed. cbn [timestamps]. rewrite D, B. unfold delta_time. destruct (Z.eqb_spec p 0); [contradiction|]. cbn [bind].
  replace (wrap64 (1000 * 0 * u mod 18446744073709551616 / p)) with 0 by (cbn [Z.mul]; rewrite Z.mod_0_l, Z.div_0_l by lia; reflexivity). rewrite Z.add_0_r, A.
  destruct (timestamps u a f p l) as [v| | | |]; try reflexivity.
Qed.

Definition tempoless (l : list nevent) : Prop := Forall (fun e => is_tempo (ne_body e) = false) l.

Lemma repeat_next : forall p x u B, p <> 0 -> ne_delta x = 0 -> ne_body x = Tempo u -> ascending (ne_tick x) (map ne_tick B) -> forall A, tempoless A -> forall a f, wrap64 a = a ->
  timed u a f p (merge A (x :: B)) = timed u a f p (merge A B).
Proof.
  intros p x u B P D K S0 A F. induction F as [|e A E F IH]; intros a f R; [apply timed_repeat; assumption|].
  rewrite merge_cons. destruct (Z.ltb_spec (ne_tick x) (ne_tick e)) as [L|L]; [apply timed_repeat; assumption|].
  assert (M : merge (e :: A) B = e :: merge A B).
  { destruct B as [|b B]; [rewrite !merge_nil_r; reflexivity|]. rewrite merge_cons. cbn [map ascending] in S0. destruct (Z.ltb_spec (ne_tick b) (ne_tick e)); [lia|reflexivity]. }
  rewrite M. apply timed_step. intros a' f' R'. destruct (ne_body e); try discriminate E; apply IH; exact R'.
Qed.

Fixpoint last_set (c : Z) (l : list nevent) : Z := match l with [] => c | e :: r => last_set (match ne_body e with Tempo u => u | _ => c end) r end.

Lemma repeat_later : forall p x u B, p <> 0 -> ne_delta x = 0 -> ne_body x = Tempo u -> ascending (ne_tick x) (map ne_tick B) -> forall C c, last_set c C = u -> forall A, tempoless A -> forall a f, wrap64 a = a ->
  timed c a f p (merge A (C ++ x :: B)) = timed c a f p (merge A (C ++ B)).
Proof.
  intros p x u B P D K S0 C. induction C as [|y C IH]; intros c E A F; cbn [last_set] in E.
  - subst c. cbn [app]. intros a f R. apply repeat_next; assumption.
  - cbn [app]. induction F as [|e A T F IHA]; intros a f R.
    + cbn [merge]. apply timed_step. intros a' f' R'. apply (IH _ E [] (Forall_nil _) a' f' R').
    + rewrite !merge_cons. destruct (ne_tick y <? ne_tick e).
      * apply timed_step. intros a' f' R'. apply (IH _ E (e :: A)); [constructor; assumption|exact R'].
      * apply timed_step. intros a' f' R'. destruct (ne_body e); try discriminate T; apply IHA; exact R'.
Qed.

Lemma tempo_events_app : forall a b, tempo_events (a ++ b) = tempo_events a ++ tempo_events b.
Proof. intros a b. unfold tempo_events. induction a as [|e a IH]; [reflexivity|]. cbn [app filter]. rewrite IH. destruct (is_tempo (e_body e)); reflexivity. Qed.

Lemma last_tempo_set : forall l c, last_set c (map as_tempo (tempo_events l)) = match last_tempo l with Some u => u | None => c end.
Proof.
  induction l as [|e l IH]; intros c; [reflexivity|]. cbn [last_tempo tempo_events filter]. fold (tempo_events l). destruct (e_body e) eqn:K; cbn [is_tempo]; try (rewrite IH; destruct (last_tempo l); reflexivity).
  cbn [map last_set as_tempo ne_body]. rewrite K, IH. destruct (last_tempo l); reflexivity.
Qed.

Lemma same_tempi : forall b b', Forall2 same_moment b b' -> map as_tempo (tempo_events b') = map as_tempo (tempo_events b).
Proof.
  intros b b' F. induction F as [|e e' b b' [H1 H2] F IH]; [reflexivity|]. cbn [tempo_events filter]. rewrite H2. destruct (is_tempo (e_body e)); [|exact IH].
  cbn [map]. unfold as_tempo at 1 3. rewrite H1, H2. f_equal. exact IH.
Qed.

Lemma ascending_end : forall a t0 b, ascending t0 (a ++ b) -> exists t1, ascending t1 b.
Proof. induction a as [|x a IH]; intros t0 b H; [exists t0; exact H|]. cbn [app ascending] in H. eapply IH, H. Qed.

Lemma events_repeat : forall track es es' p, tempo_repeated es es' -> no_tempo track -> ascending 0 (map e_tick track) -> ascending 0 (map e_tick es) -> ascending 0 (map e_tick es') ->
  build_track_events track (tempo_events es') p = build_track_events track (tempo_events es) p.
Proof.
  intros track es es' p (a & x & b & b' & u & -> & -> & F & B & L) N T S0 S1. unfold build_track_events, unsorted.
  fold as_track as_tempo. change (fun e : event => NEvent (e_tick e) (e_delta e) 0 (e_body e) false) with as_track. change (fun e : event => NEvent (e_tick e) 0 0 (e_body e) false) with as_tempo.
  assert (T' : ascending 0 (map ne_tick (map as_track track))) by (rewrite map_map; exact T).
  assert (Q0 : ascending 0 (map ne_tick (map as_tempo (tempo_events (a ++ b))))) by (rewrite map_map; apply (ascending_filter event e_tick (fun e => is_tempo (e_body e))); exact S0).
  assert (Q1 : ascending 0 (map ne_tick (map as_tempo (tempo_events (a ++ x :: b'))))) by (rewrite map_map; apply (ascending_filter event e_tick (fun e => is_tempo (e_body e))); exact S1).
  rewrite !(sort_merge _ _ 0 0) by assumption.
  assert (XB : tempo_events (x :: b') = x :: tempo_events b') by (cbn [tempo_events filter]; rewrite B; reflexivity).
  rewrite !tempo_events_app, XB in *. rewrite !map_app in *. cbn [map] in *. rewrite (same_tempi b b' F) in *.
  destruct (Z.eq_dec p 0) as [->|P].
  - assert (PAN : forall m l, timestamps m 0 false 0 l = match l with [] => Ok [] | _ => Panic end) by (intros m [|e l]; reflexivity). rewrite !PAN.
    assert (NE : forall A C (y : nevent), merge A (y :: C) <> []) by (intros [|e A] C y; [discriminate|rewrite merge_cons; destruct (_ <? _); discriminate]).
    assert (NA : tempo_events a <> []). { intros E. pose proof (last_tempo_set a (u + 1)) as W. rewrite E, L in W. cbn in W. lia. }
    destruct (tempo_events a) as [|y r]; [contradiction|]. cbn [map app]. 
    destruct (merge (map as_track track) (as_tempo y :: map as_tempo r ++ as_tempo x :: map as_tempo (tempo_events b))) eqn:M1; [apply NE in M1; contradiction|].
    destruct (merge (map as_track track) (as_tempo y :: map as_tempo r ++ map as_tempo (tempo_events b))) eqn:M2; [apply NE in M2; contradiction|]. reflexivity.
  - apply (repeat_later p (as_tempo x) u (map as_tempo (tempo_events b)) P eq_refl B); [| |apply Forall_map; revert N; apply Forall_impl; intros e H; exact H|reflexivity].
    + destruct (ascending_end _ _ _ Q1) as [t1 [_ W]]. exact W.
    + rewrite last_tempo_set, L. reflexivity.
Qed.

Theorem repeat_notes : forall env r r' s s' steps order, is_bytes r -> is_bytes r' -> decode env r = Ok s -> decode env r' = Ok s' -> repeated_file s s' -> ticks_fit s -> ticks_fit s' ->
  extract env steps order s' = extract env steps order s.
Proof.
  intros env r r' s s' steps order Hr Hr' D D' (P & t0 & ts & t0' & ts' & E & E' & R & TS & N) F F'.
  pose proof (decoded_ticks _ _ _ Hr D) as K. pose proof (decoded_ticks _ _ _ Hr' D') as K'. unfold ticks_fit, extract in *. rewrite E, E' in *.
  inversion K as [|? ? [_ K1] K2]; inversion F as [|? ? F1 F2]; inversion K' as [|? ? [_ K1'] _]; inversion F' as [|? ? F1' _]; subst.
  assert (S0 := ticks_ascending _ _ (K1 F1)). assert (S1 := ticks_ascending _ _ (K1' F1')).
  assert (G : forall p, tracks_notes env steps order (tempo_events (t_events t0')) p ts' = tracks_notes env steps order (tempo_events (t_events t0)) p ts).
  { intros p. clear - TS N K2 F2 R S0 S1. revert ts' TS. induction ts as [|t ts IH]; intros [|t' ts'] TS; try discriminate TS; [reflexivity|]. cbn [map] in TS. injection TS as TE TS.
    inversion N; inversion K2 as [|? ? [_ K3] K4]; inversion F2; subst. cbn [tracks_notes]. unfold track_notes. rewrite TE, (events_repeat (t_events t) _ _ p R); auto using ticks_ascending. rewrite (IH ltac:(assumption) K4 ltac:(assumption) ts' TS). reflexivity. }
  destruct (f_mthd s) as [h|], (f_mthd s') as [h'|]; cbn [option_map] in P; try discriminate P.
  - injection P as P. rewrite <- P, G. destruct ts, ts'; try discriminate TS; reflexivity.
  - destruct ts, ts'; try discriminate TS; reflexivity.
Qed.
