(** * TransposeWorkProofs: C99. *)
From Verif Require Import Base Strings Tables Event Track File Transpose SpecTranspose TransposeProofs TransposeFileProofs TransposeWork SpecTransposeWork Samples.

Lemma loop_passes_twelves : forall fuel ix, - Z.of_nat fuel <= ix -> twelves ix (loop_passes fuel ix).
Proof.
  induction fuel as [|f IH]; intros ix H; cbn [loop_passes]; destruct (Z.ltb_spec ix 0); try (unfold twelves; lia).
  specialize (IH (ix + 12) ltac:(lia)). unfold twelves in *. lia.
Qed.

Lemma up_loop_runs : forall fuel ix n, twelves ix n -> (up_loop fuel ix = Loop <-> Z.of_nat fuel < n).
Proof.
  induction fuel as [|f IH]; intros ix n T; cbn [up_loop]; destruct (Z.ltb_spec ix 0).
  - split; [|reflexivity]. intros _. unfold twelves in T. lia.
  - split; [discriminate|]. unfold twelves in T. lia.
  - rewrite (IH (ix + 12) (n - 1)); unfold twelves in *; lia.
  - split; [discriminate|]. unfold twelves in T. lia.
Qed.

Lemma pitch_passes_bounds : forall p steps, 0 <= p_ord p < 12 -> -9223372036854775808 <= steps <= 9223372036854775796 ->
  Z.max 0 (- steps) / 12 <= pitch_passes steps p <= (Z.max 0 (- steps) + 11) / 12.
Proof.
  intros p steps Hp Hs. unfold pitch_passes. rewrite class_index by assumption. rewrite wrap64_id by lia. cbv zeta.
  pose proof (loop_passes_twelves (Z.to_nat (- (p_ord p + steps))) (p_ord p + steps) ltac:(lia)) as T.
  destruct T as (T1 & T2 & T3). lia.
Qed.

Lemma notes_passes_bounds : forall steps, -9223372036854775808 <= steps <= 9223372036854775796 -> forall l,
  Forall (fun p => 0 <= p_ord p < 12) l ->
  zlen l * (Z.max 0 (- steps) / 12) <= fold_right (fun p n => pitch_passes steps p + n) 0 l <= zlen l * ((Z.max 0 (- steps) + 11) / 12).
Proof.
  intros steps Hs. induction l as [|p l IH]; intros F; [cbn; lia|]. inversion F; subst. cbn [fold_right].
  specialize (IH H2). pose proof (pitch_passes_bounds p steps H1 Hs). unfold zlen in *. cbn [length]. nia.
Qed.

Lemma tables_notes : forall s, In s (MAJOR_SCALES ++ MINOR_SCALES) -> zlen (s_notes s) = 7 /\ Forall (fun p => 0 <= p_ord p < 12) (s_notes s).
Proof.
  intros s I. cbn [In app MAJOR_SCALES MINOR_SCALES] in I.
  repeat (destruct I as [<-|I]; [split; [reflexivity|repeat (apply Forall_cons; [cbn; lia|]); constructor]|]). destruct I.
Qed.

Lemma key_scale_in : forall acc kt s, key_scale acc kt = Ok s -> In s (MAJOR_SCALES ++ MINOR_SCALES).
Proof.
  intros acc kt s E. unfold key_scale, major_scale, minor_scale in E. apply in_or_app.
  destruct (kt =? 0).
  - left. destruct (find _ MAJOR_SCALES) as [x|] eqn:F; [|discriminate]. injection E as <-. apply find_some in F. tauto.
  - destruct (kt =? 1); [|discriminate]. right. destruct (find _ MINOR_SCALES) as [x|] eqn:F; [|discriminate]. injection E as <-. apply find_some in F. tauto.
Qed.

Lemma event_passes_bounds : forall env c steps e r, transpose_event env c steps e = Ok r -> -9223372036854775808 <= steps <= 9223372036854775796 ->
  7 * (if is_key e then 1 else 0) * (Z.max 0 (- steps) / 12) <= event_passes steps e <= 7 * (if is_key e then 1 else 0) * ((Z.max 0 (- steps) + 11) / 12).
Proof.
  intros env c steps e r E Hs. unfold transpose_event, event_passes, is_key in *. destruct (e_body e); try lia.
  destruct (key_scale _ _) as [s| | | |] eqn:K; try discriminate. apply key_scale_in in K. destruct (tables_notes s K) as [L F].
  pose proof (notes_passes_bounds steps Hs _ F) as B. rewrite L in B. lia.
Qed.

Lemma events_passes_bounds : forall env steps, -9223372036854775808 <= steps <= 9223372036854775796 -> forall es c r, transpose_events env c steps es = Ok r ->
  7 * zlen (filter is_key es) * (Z.max 0 (- steps) / 12) <= fold_right (fun e m => event_passes steps e + m) 0 es
    <= 7 * zlen (filter is_key es) * ((Z.max 0 (- steps) + 11) / 12).
Proof.
  intros env steps Hs. induction es as [|e es IH]; intros c r E; [cbn; lia|]. cbn [transpose_events] in E.
  destruct (transpose_event env c steps e) as [[e' c']| | | |] eqn:E1; try discriminate. cbn [bind] in E.
  destruct (transpose_events env c' steps es) as [r'| | | |] eqn:E2; try discriminate. apply IH in E2.
  apply event_passes_bounds in E1; [|exact Hs]. cbn [fold_right filter]. unfold zlen in *. destruct (is_key e); cbn [length] in *; nia.
Qed.

Lemma smf_passes_bounds : forall env steps s s', transpose_smf env steps s = Ok s' -> -9223372036854775808 <= steps <= 9223372036854775796 ->
  7 * key_count s * (Z.max 0 (- steps) / 12) <= smf_passes steps s <= 7 * key_count s * ((Z.max 0 (- steps) + 11) / 12).
Proof.
  intros env steps [h ts] s' E Hs. unfold transpose_smf, smf_passes, key_count in *. cbn [f_tracks] in *.
  destruct (transpose_tracks env steps ts) as [ts'| | | |] eqn:ET; try discriminate. clear E s'. revert ts' ET.
  induction ts as [|t ts IH]; intros ts' ET; [cbn; lia|]. cbn [transpose_tracks] in ET.
  destruct (transpose_track env steps t) as [t'| | | |] eqn:E1; try discriminate. cbn [bind] in ET.
  destruct (transpose_tracks env steps ts) as [r'| | | |] eqn:E2; try discriminate. specialize (IH _ eq_refl).
  unfold transpose_track in E1. destruct (transpose_events env (t_ctx t) steps (t_events t)) as [es| | | |] eqn:E3; try discriminate.
  apply events_passes_bounds in E3; [|exact Hs]. cbn [fold_right map concat]. rewrite filter_app. unfold zlen in *. rewrite app_length. nia.
Qed.

Lemma pitch_runs : forall p steps ix fuel, scale_index SCALE 0 (p_ord p) = Some ix ->
  (up_loop fuel (wrap64 (ix + steps)) = Loop <-> Z.of_nat fuel < pitch_passes steps p).
Proof.
  intros p steps ix fuel E. unfold pitch_passes. rewrite E. cbv zeta. apply up_loop_runs, loop_passes_twelves. lia.
Qed.

Lemma work_of_file : forall env r s steps, is_bytes r -> decode env r = Ok s -> reasonable steps ->
  7 * key_count s * (Z.max 0 (- steps) / 12) <= smf_passes steps s <= 7 * key_count s * ((Z.max 0 (- steps) + 11) / 12).
Proof.
  intros env r s steps B D H. destruct (transpose_decoded env steps r s B D H) as (s' & E & _).
  unfold reasonable in H. apply (smf_passes_bounds env steps s s' E). lia.
Qed.

(** The passes in closed form *)
Definition closed_pitch (steps : Z) (p : pitch) : Z := Z.max 0 ((11 - wrap64 (p_ord p + steps)) / 12).

Lemma closed_pitch_eq : forall steps p, 0 <= p_ord p < 12 -> pitch_passes steps p = closed_pitch steps p.
Proof.
  intros steps p Hp. unfold pitch_passes, closed_pitch. rewrite class_index by assumption. cbv zeta. set (x := wrap64 _). clearbody x.
  pose proof (loop_passes_twelves (Z.to_nat (- x)) x ltac:(lia)) as (T1 & T2 & T3). lia.
Qed.

Definition closed_event (steps : Z) (e : event) : Z :=
  match e_body e with
  | KeySignature acc kt _ =>
      match key_scale acc kt with
      | Ok s => fold_right (fun p n => closed_pitch steps p + n) 0 (s_notes s)
      | _ => 0
      end
  | _ => 0
  end.

Lemma closed_event_eq : forall steps e, event_passes steps e = closed_event steps e.
Proof.
  intros steps e. unfold event_passes, closed_event. destruct (e_body e); try reflexivity.
  destruct (key_scale _ _) as [s| | | |] eqn:K; try reflexivity. apply key_scale_in in K. destruct (tables_notes s K) as [_ F].
  induction F as [|p l Hp F IH]; [reflexivity|]. cbn [fold_right]. rewrite IH, closed_pitch_eq by assumption. reflexivity.
Qed.

Lemma closed_smf_eq : forall steps s,
  smf_passes steps s = fold_right (fun t n => fold_right (fun e m => closed_event steps e + m) 0 (t_events t) + n) 0 (f_tracks s).
Proof.
  intros steps s. unfold smf_passes. induction (f_tracks s) as [|t ts IH]; [reflexivity|]. cbn [fold_right]. rewrite IH. f_equal.
  induction (t_events t) as [|e es IE]; [reflexivity|]. cbn [fold_right]. rewrite IE, closed_event_eq. reflexivity.
Qed.

Definition endless_file : bytes := single_header ++ sample_track [0; 255; 89; 2; 0; 0; 0; 144; 60; 100; 0; 255; 47; 0].
Lemma endless : exists r s, zlen r = 36 /\ decode default_env r = Ok s /\
  5000000000000000000 < smf_passes (-9223372036854775808) s /\ 4000000000000000000 < smf_passes 9223372036854775807 s.
Proof.
  exists endless_file.
  let x := eval vm_compute in (decode default_env endless_file) in match x with Ok ?s => exists s end.
  split; [vm_compute; reflexivity|]. split; [vm_compute; reflexivity|]. rewrite !closed_smf_eq. split; vm_compute; reflexivity.
Qed.
