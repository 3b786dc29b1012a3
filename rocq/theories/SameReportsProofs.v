(** * SameReportsProofs: files with the same contents but for pitch are valid or not alike. *)
From Verif Require Import Base Strings Tables Event SpecEvent Track File SpecHistory SpecTrack TrackProofs FileProofs Transpose SpecKey SpecTranspose TransposeProofs TransposeFileProofs Validate SpecSameReports.

Definition urel (e e' : event) : Prop := unpitched (view (e_body e')) = unpitched (view (e_body e)).

Ltac both := match goal with H : urel ?e ?e' |- _ => unfold urel in H; destruct (e_body e) as [ | | | | | | | |k1 ?| | | | | | | | | | | ], (e_body e') as [ | | | | | | | |k2 ?| | | | | | | | | | | ]; cbn [view unpitched] in H; try discriminate H; try reflexivity end.

Lemma track0_rel : forall e e', urel e e' -> is_track0_event e' = is_track0_event e.
Proof. intros e e' H. unfold is_track0_event. both. injection H as -> _. reflexivity. Qed.
Lemma track1_rel : forall e e', urel e e' -> is_track1_event e' = is_track1_event e.
Proof. intros e e' H. unfold is_track1_event. both. Qed.
Lemma eot_rel : forall e e', urel e e' -> is_eot e' = is_eot e.
Proof. intros e e' H. unfold is_eot. both. Qed.
Lemma controller_rel : forall e e', urel e e' -> as_controller (e_body e') = as_controller (e_body e).
Proof. intros e e' H. unfold as_controller. both. injection H as -> -> _. reflexivity. Qed.

Lemma reports_rel : forall (f : event -> verror) (g : event -> bool) es es', (forall e e', urel e e' -> g e' = g e) -> (forall e e', report (f e) = report (f e')) -> Forall2 urel es es' ->
  map report (map f (filter g es)) = map report (map f (filter g es')).
Proof.
  intros f g es es' G R F. induction F as [|e e' es es' U F IH]; [reflexivity|]. cbn [filter]. rewrite (G _ _ U). destruct (g e); [|exact IH]. cbn [map]. rewrite (R e e'), IH. reflexivity.
Qed.

Lemma eot_scan_rel : forall k n es es', Forall2 urel es es' -> forall i, map report (fst (eot_scan k n i es)) = map report (fst (eot_scan k n i es')) /\ snd (eot_scan k n i es) = snd (eot_scan k n i es').
Proof.
  intros k n es es' F. induction F as [|e e' es es' U F IH]; intro i; [split; reflexivity|]. cbn [eot_scan]. destruct (IH (i + 1)) as [A B].
  destruct (eot_scan k n (i + 1) es) as [a x], (eot_scan k n (i + 1) es') as [b y]. cbn [fst snd] in *. rewrite (eot_rel _ _ U). destruct (is_eot e); [|split; assumption]. cbn [fst snd]. split; [|reflexivity].
  rewrite !map_app, A. destruct (i + 1 =? n); reflexivity.
Qed.

Lemma f2_length : forall A B (R : A -> B -> Prop) x y, Forall2 R x y -> length y = length x.
Proof. intros A B R x y F. induction F; cbn [length]; congruence. Qed.

Definition trel (t t' : mtrk) : Prop := t_number t' = t_number t /\ Forall2 urel (t_events t) (t_events t').

Lemma validate_eot_rel : forall t t', trel t t' -> map report (validate_eot t) = map report (validate_eot t').
Proof.
  intros t t' [N F]. unfold validate_eot. rewrite N. assert (Z : zlen (t_events t') = zlen (t_events t)) by (unfold zlen; f_equal; apply (f2_length _ _ _ _ _ F)). rewrite Z.
  destruct (eot_scan_rel (t_number t) (zlen (t_events t)) _ _ F 0) as [A B]. destruct (eot_scan _ _ 0 (t_events t)) as [a x], (eot_scan _ _ 0 (t_events t')) as [b y]. cbn [fst snd] in *. subst y.
  rewrite !map_app, A. destruct x; reflexivity.
Qed.

Lemma bank_scan_rel : forall k es es', Forall2 urel es es' -> forall i last, bank_scan k i last es' = bank_scan k i last es.
Proof. intros k es es' F. induction F as [|e e' es es' U F IH]; intros i last; [reflexivity|]. cbn [bank_scan]. cbv zeta. rewrite (controller_rel _ _ U), IH. reflexivity. Qed.

Lemma concat_rel : forall (f : mtrk -> list verror) ts ts', (forall t t', trel t t' -> map report (f t) = map report (f t')) -> Forall2 trel ts ts' ->
  map report (concat (map f ts)) = map report (concat (map f ts')).
Proof. intros f ts ts' H F. induction F as [|t t' ts ts' T F IH]; [reflexivity|]. cbn [map concat]. rewrite !map_app, (H _ _ T), IH. reflexivity. Qed.

Theorem validate_rel : forall s s' h h', f_mthd s = Some h -> f_mthd s' = Some h' -> h_format h' = h_format h -> Forall2 trel (f_tracks s) (f_tracks s') ->
  match validate s with Ok errs => exists errs', validate s' = Ok errs' /\ map report errs' = map report errs | o => validate s' = o end.
Proof.
  intros s s' h h' E E' Fm F. unfold validate. rewrite E, E', Fm.
  assert (LZ : zlen (f_tracks s') = zlen (f_tracks s)) by (unfold zlen; f_equal; apply (f2_length _ _ _ _ _ F)).
  assert (TAIL : map report (concat (map validate_eot (f_tracks s')) ++ concat (map (fun t => bank_scan (t_number t) 0 None (t_events t)) (f_tracks s'))) =
    map report (concat (map validate_eot (f_tracks s)) ++ concat (map (fun t => bank_scan (t_number t) 0 None (t_events t)) (f_tracks s)))).
  { rewrite !map_app. f_equal; symmetry; apply concat_rel; try assumption; [apply validate_eot_rel|]. intros t t' [N U]. rewrite N, (bank_scan_rel _ _ _ U). reflexivity. }
  assert (E0 : map report (if h_format h =? 0 then validate_format0 s' else []) = map report (if h_format h =? 0 then validate_format0 s else [])) by (unfold validate_format0; rewrite LZ; reflexivity).
  destruct (h_format h =? 1) eqn:F1; cbn [bind].
  - unfold validate_format1. destruct F as [|t t' ts ts' [N U] F]; [reflexivity|]. cbn [bind]. eexists. split; [reflexivity|]. rewrite !map_app in *. f_equal; [exact E0|]. f_equal; [|exact TAIL].
    f_equal.
    + symmetry. apply reports_rel; [intros e e' X; rewrite (track0_rel _ _ X); reflexivity|reflexivity|exact U].
    + symmetry. apply concat_rel; [|exact F]. intros x x' [X1 X2]. rewrite X1. apply reports_rel; [intros e e' X; rewrite (track1_rel _ _ X); reflexivity|reflexivity|exact X2].
  - eexists. split; [reflexivity|]. rewrite !map_app in *. cbn [map app]. f_equal; [exact E0|exact TAIL].
Qed.

(** ** Decoded files *)

Lemma decode_numbers : forall env cs n ts, decode_tracks env n cs = Ok ts -> forall i t, nth_error ts i = Some t -> t_number t = n + Z.of_nat i.
Proof.
  intros env cs. induction cs as [|w cs IH]; intros n ts E; cbn [decode_tracks] in E; [apply Ok_inj in E; subst ts; intros [|i] t; discriminate|].
  destruct (bytes_eqb _ _); [|eapply IH; eassumption]. destruct (unmarshal_mtrk env n new_context w) as [t0| | | |] eqn:Et; try discriminate. cbn [bind] in E.
  destruct (decode_tracks env (n + 1) cs) as [ts'| | | |] eqn:E'; try discriminate. cbn [bind] in E. apply Ok_inj in E. subst ts. intros [|i] t H.
  - injection H as <-. unfold unmarshal_mtrk in Et. destruct w as [|a0 [|a1 [|a2 [|a3 [|a4 [|a5 [|a6 [|a7 r']]]]]]]]; try discriminate;
    destruct (negb (bytes_eqb [a0; a1; a2; a3] (str "MTrk"))); try discriminate.
    destruct (decode_events env new_context r') as [[es c']| | | |] eqn:Ed; try discriminate. cbn [bind] in Et. apply Ok_inj in Et. subst t0. cbn [t_number]. lia.
  - cbn [nth_error] in H. rewrite (IH _ _ E' i t H). lia.
Qed.

Lemma decoded_numbers : forall env r s, decode env r = Ok s -> forall i t, nth_error (f_tracks s) i = Some t -> t_number t = Z.of_nat i.
Proof.
  intros env r s H. unfold decode in H. destruct (chunks r) as [[|c cs]| | | |]; try discriminate. cbn [bind] in H.
  destruct (unmarshal_mthd c) as [h| | | |]; try discriminate. cbn [bind] in H. destruct (decode_tracks env 0 cs) as [ts| | | |] eqn:E; try discriminate. cbn [bind] in H.
  destruct (_ =? _); [|discriminate]. apply Ok_inj in H. subst s. cbn [f_tracks]. apply (decode_numbers env cs 0 ts E).
Qed.

Theorem same_reports : forall env env' r r' s s' h h', decode env r = Ok s -> decode env' r' = Ok s' -> f_mthd s = Some h -> f_mthd s' = Some h' -> h_format h' = h_format h ->
  map (map (fun x => unpitched (snd x))) (smf_contents s') = map (map (fun x => unpitched (snd x))) (smf_contents s) ->
  match validate s with Ok errs => exists errs', validate s' = Ok errs' /\ map report errs' = map report errs | o => validate s' = o end.
Proof.
  intros env env' r r' s s' h h' D D' E E' Fm C. apply (validate_rel s s' h h' E E' Fm). pose proof (decoded_numbers env r s D) as N. pose proof (decoded_numbers env' r' s' D') as N'.
  unfold smf_contents in C. rewrite !map_map in C. clear - N N' C.
  assert (G : forall a b i, (forall j t, nth_error a j = Some t -> t_number t = Z.of_nat (i + j)) -> (forall j t, nth_error b j = Some t -> t_number t = Z.of_nat (i + j)) ->
    map (fun x => map (fun y => unpitched (snd y)) (map ev_view (t_events x))) b = map (fun x => map (fun y => unpitched (snd y)) (map ev_view (t_events x))) a -> Forall2 trel a b).
  { induction a as [|t a IH]; intros [|t' b] i A B M; try discriminate; [constructor|]. cbn [map] in M. injection M as M0 M. constructor.
    - split; [rewrite (A 0%nat t eq_refl), (B 0%nat t' eq_refl); reflexivity|]. rewrite !map_map in M0. revert M0. clear. generalize (t_events t') as y. generalize (t_events t) as x.
      induction x as [|e x IH]; intros [|e' y] M; try discriminate; [constructor|]. cbn [map] in M. injection M as M0 M. constructor; [exact M0|apply IH, M].
    - apply (IH b (S i)); [| |exact M]; intros j x Hx; [rewrite (A (S j) x Hx)|rewrite (B (S j) x Hx)]; f_equal; lia. }
  apply (G _ _ 0%nat); auto.
Qed.

Lemma moved_unpitched : forall n x y, moved_content n x y -> unpitched y = unpitched x.
Proof. intros n x y M. destruct M; reflexivity. Qed.

Theorem transposed_reports : forall env n r s bs s2, is_bytes r -> decode env r = Ok s -> legal_smf s -> Forall (fun t => faithful_events env (t_events t)) (f_tracks s) -> reasonable n ->
  transpose_execute env n s = Ok bs -> zlen bs < 4294967296 -> decode env bs = Ok s2 ->
  match validate s with Ok errs => exists errs', validate s2 = Ok errs' /\ map report errs' = map report errs | o => validate s2 = o end.
Proof.
  intros env n r s bs s2 B D L F N E Z D2. destruct (transpose_written env n r s B D L F N) as (bs' & E' & K). rewrite E in E'. apply Ok_inj in E'. subst bs'.
  destruct (K Z) as (s' & h & h2 & D' & Eh & Eh2 & (_ & _ & FM & _ & _) & M). rewrite D2 in D'. apply Ok_inj in D'. subst s'.
  apply (same_reports env env r bs s s2 h h2 D D2 Eh Eh2 FM). clear - M. induction M as [|a b X Y A M IH]; [reflexivity|]. cbn [map]. f_equal; [|exact IH].
  clear - A. induction A as [|x y a b [_ M] A IH]; [reflexivity|]. cbn [map]. rewrite (moved_unpitched _ _ _ M), IH. reflexivity.
Qed.
