(** * Proofs for C123. *)
From Coq Require Import Permutation.
From Verif Require Import Base Strings Tables Event SpecFile Track File Notes Transpose Validate SpecTrack SpecNames SpecSlower SpecTrackOrder FileProofs.

Definition decoded_as (env : env) (item : bytes * bytes) (t : mtrk) : Prop :=
  exists n w, chunk_bytes (fst item) (snd item) w /\ unmarshal_mtrk env n new_context w = Ok t /\ t_number t = n.

Lemma nth_Forall2 : forall A B (R : A -> B -> Prop) l l', length l' = length l -> (forall i a, nth_error l i = Some a -> exists b, nth_error l' i = Some b /\ R a b) -> Forall2 R l l'.
Proof.
  intros A B R l. induction l as [|a l IH]; intros [|b l'] L H; try discriminate L; [constructor|]. constructor.
  - destruct (H 0%nat a eq_refl) as (b' & E & Q). cbn in E. injection E as <-. exact Q.
  - apply IH; [cbn in L; lia|]. intros i x E. exact (H (S i) x E).
Qed.

Lemma decoded_items : forall env header items r s, file_bytes (header :: items) r -> decode env r = Ok s ->
  Forall2 (decoded_as env) (filter is_mtrk items) (f_tracks s) /\ (forall i t, nth_error (f_tracks s) i = Some t -> t_number t = Z.of_nat i).
Proof.
  intros env [tag p] items r s F D. destruct (decode_each _ _ _ _ _ _ F D) as (h & w0 & _ & _ & _ & _ & L & X).
  assert (N : forall i tag payload, nth_error (filter is_mtrk items) i = Some (tag, payload) ->
     exists w t, chunk_bytes tag payload w /\ nth_error (f_tracks s) i = Some t /\ unmarshal_mtrk env (Z.of_nat i) new_context w = Ok t /\ t_number t = Z.of_nat i).
  { intros i tg pl H. destruct (X i tg pl H) as (w & t & C & T & U). exists w, t. repeat split; auto.
    destruct (unmarshal_mtrk_number _ _ 0 _ _ _ U) as (_ & _ & _ & Q & _). exact Q. }
  split.
  - apply nth_Forall2; [exact L|]. intros i [tg pl] H. destruct (N i tg pl H) as (w & t & C & T & U & Q). exists t. split; [exact T|]. exists (Z.of_nat i), w. auto.
  - intros i t T. destruct (nth_error (filter is_mtrk items) i) as [[tg pl]|] eqn:E.
    + destruct (N i tg pl E) as (w & t' & C & T' & U & Q). congruence.
    + apply nth_error_None in E. assert (nth_error (f_tracks s) i <> None) by congruence. apply nth_error_Some in H. lia.
Qed.

Lemma decoded_same : forall env it t t', decoded_as env it t -> decoded_as env it t' -> same_track t t'.
Proof.
  intros env it t t' (n & w & C & U & _) (n' & w' & C' & U' & _). rewrite (chunk_bytes_det _ _ _ _ C' C) in U'.
  destruct (unmarshal_mtrk_number _ _ n' _ _ _ U) as (t2 & U2 & S2 & _). congruence.
Qed.

Lemma decoded_all_same : forall env l ts ts', Forall2 (decoded_as env) l ts -> Forall2 (decoded_as env) l ts' -> Forall2 same_track ts ts'.
Proof.
  intros env l ts ts' F. revert ts'. induction F as [|i t l ts D F IH]; intros ts' F'; inversion F'; subst; constructor; auto. eapply decoded_same; eassumption.
Qed.

Theorem reordered_read : forall env r r' s, tracks_reordered r r' -> decode env r = Ok s -> exists s', decode env r' = Ok s' /\ file_reordered s s'.
Proof.
  intros env r r' s (header & first & rest & rest' & items & items' & F & F' & E & E' & P) D.
  destruct (tracks_permuted env header items items' r r' s F F') as (s' & D' & H'); [rewrite E, E'; constructor; exact P|exact D|].
  exists s'. split; [exact D'|]. split; [exact H'|].
  destruct (decoded_items env header items r s F D) as [A N]. destruct (decoded_items env header items' r' s' F' D') as [A' N'].
  rewrite E in A. rewrite E' in A'. inversion A as [|? t0 ? ts A1 A2 EA ET]; subst. inversion A' as [|? t0' ? ts' A1' A2' EA' ET']; subst.
  exists t0, t0', ts, ts'. rewrite <- ET in N. rewrite <- ET' in N'. repeat split; auto; try (destruct (decoded_same _ _ _ _ A1 A1') as (? & ? & ? & ? & ?); assumption).
  - exact (N 0%nat t0 eq_refl).
  - exact (N' 0%nat t0' eq_refl).
  - apply Forall_forall. intros t I. apply In_nth_error in I as [i I]. rewrite (N (S i) t I). lia.
  - apply Forall_forall. intros t I. apply In_nth_error in I as [i I]. rewrite (N' (S i) t I). lia.
  - destruct (Permutation_Forall2 (Permutation_sym P) A2') as (m & Q & B). exists m. split; [apply Permutation_sym, Q|]. eapply decoded_all_same; eassumption.
Qed.

(** Notes *)
Lemma finish_all_orders : forall env steps order order' p e, (forall l, Permutation l (order l)) -> (forall l, Permutation l (order' l)) ->
  Permutation (finish_all env steps order p e) (finish_all env steps order' p e).
Proof.
  intros env steps order order' p e O O'. unfold finish_all. induction channels16 as [|c cs IH]; cbn [flat_map]; [constructor|]. apply Permutation_app; [|exact IH].
  apply Permutation_map. eapply Permutation_trans; [apply Permutation_sym, O|apply O'].
Qed.

Lemma note_list_orders : forall env steps order order' es, (forall l, Permutation l (order l)) -> (forall l, Permutation l (order' l)) -> forall p,
  alike (@Permutation note_out) (note_list env steps order p es) (note_list env steps order' p es).
Proof.
  intros env steps order order' es O O'. induction es as [|e es IH]; intros p; cbn [note_list]; [apply perm_nil|].
  assert (END : forall k, alike (@Permutation note_out) (let (out, q) := finish env steps p k e in do ns <- note_list env steps order q es; Ok (out ++ ns))
     (let (out, q) := finish env steps p k e in do ns <- note_list env steps order' q es; Ok (out ++ ns))).
  { intros k. destruct (finish env steps p k e) as [out q]. specialize (IH q).
    destruct (note_list env steps order q es), (note_list env steps order' q es); cbn [alike bind] in IH |- *; try contradiction; auto. apply Permutation_app_head, IH. }
  destruct (ne_body e); auto.
  - match goal with |- context [0 <? ?w] => destruct (0 <? w); [|apply END] end. destruct (find_key _ p); [apply IH|]. match goal with |- context [?c <? 16] => destruct (c <? 16); [apply IH|exact I] end.
  - match goal with |- context [note_list env steps order ?q es] => specialize (IH q); destruct (note_list env steps order q es), (note_list env steps order' q es) end;
      cbn [alike bind] in IH |- *; try contradiction; auto. apply Permutation_app; [apply finish_all_orders; assumption|exact IH].
Qed.

Lemma track_orders : forall env steps order order' tm p t t', (forall l, Permutation l (order l)) -> (forall l, Permutation l (order' l)) -> t_events t = t_events t' ->
  alike (@Permutation note_out) (track_notes env steps order tm p t) (track_notes env steps order' tm p t').
Proof.
  intros env steps order order' tm p t t' O O' E. unfold track_notes. rewrite <- E. destruct (build_track_events (t_events t) tm p) as [l| | | |]; cbn [bind alike]; auto.
  apply note_list_orders; assumption.
Qed.

Lemma tracks_same_orders : forall env steps order order' tm p ts ts', (forall l, Permutation l (order l)) -> (forall l, Permutation l (order' l)) -> Forall2 same_track ts ts' ->
  alike (@Permutation note_out) (tracks_notes env steps order tm p ts) (tracks_notes env steps order' tm p ts').
Proof.
  intros env steps order order' tm p ts ts' O O' F. induction F as [|t t' ts ts' (_ & _ & _ & E & _) F IH]; cbn [tracks_notes]; [apply perm_nil|].
  pose proof (track_orders env steps order order' tm p t t' O O' E) as T.
  destruct (track_notes env steps order tm p t), (track_notes env steps order' tm p t'); cbn [alike bind] in T |- *; try contradiction; auto.
  destruct (tracks_notes env steps order tm p ts), (tracks_notes env steps order' tm p ts'); cbn [alike bind] in IH |- *; try contradiction; auto. apply Permutation_app; assumption.
Qed.

Lemma tracks_notes_permuted : forall env steps order tm p ts ts', Permutation ts ts' -> forall ns, tracks_notes env steps order tm p ts = Ok ns ->
  exists ns', tracks_notes env steps order tm p ts' = Ok ns' /\ Permutation ns ns'.
Proof.
  intros env steps order tm p ts ts' P. induction P as [|t ts ts' P IH|t u ts|ts ts1 ts' P1 IH1 P2 IH2]; intros ns H.
  - exists ns. auto.
  - cbn [tracks_notes] in *. destruct (track_notes env steps order tm p t) as [a| | | |]; try discriminate H. cbn [bind] in *.
    destruct (tracks_notes env steps order tm p ts) as [b| | | |]; try discriminate H. cbn [bind] in H. apply Ok_inj in H. subst ns.
    destruct (IH b eq_refl) as (b' & -> & Q). exists (a ++ b'). split; [reflexivity|]. apply Permutation_app_head, Q.
  - cbn [tracks_notes] in *. destruct (track_notes env steps order tm p u) as [a| | | |]; try discriminate H. cbn [bind] in *.
    destruct (track_notes env steps order tm p t) as [b| | | |]; try discriminate H. cbn [bind] in *.
    destruct (tracks_notes env steps order tm p ts) as [c| | | |]; try discriminate H. cbn [bind] in *. apply Ok_inj in H. subst ns.
    exists (b ++ a ++ c). split; [reflexivity|]. rewrite !app_assoc. apply Permutation_app_tail, Permutation_app_comm.
  - destruct (IH1 ns H) as (m & E & Q). destruct (IH2 m E) as (n & E' & Q'). exists n. split; [exact E'|]. eapply Permutation_trans; eassumption.
Qed.

Theorem reordered_notes : forall env s s' steps order order' ns, file_reordered s s' -> (forall l, Permutation l (order l)) -> (forall l, Permutation l (order' l)) ->
  extract env steps order s = Ok ns -> exists ns', extract env steps order' s' = Ok ns' /\ Permutation ns ns'.
Proof.
  intros env s s' steps order order' ns (H & t0 & t0' & ts & ts' & E & E' & (_ & _ & _ & T & _) & _ & _ & _ & _ & m & P & F) O O' X.
  unfold extract in *. rewrite E in X. rewrite E', H. rewrite <- T.
  destruct (f_mthd s) as [h|].
  - assert (R : tracks_notes env steps order (tempo_events (t_events t0)) (h_ppqn h) ts = Ok ns) by (destruct ts; [|exact X]; apply Ok_inj in X; subst ns; reflexivity).
    pose proof (tracks_same_orders env steps order order' (tempo_events (t_events t0)) (h_ppqn h) ts m O O' F) as A. rewrite R in A.
    destruct (tracks_notes env steps order' (tempo_events (t_events t0)) (h_ppqn h) m) as [nm| | | |] eqn:M; try contradiction. cbn [alike] in A.
    destruct (tracks_notes_permuted _ _ _ _ _ _ _ P _ M) as (ns' & R' & Q). exists ns'.
    split; [destruct ts'; [cbn in R'; exact R'|exact R']|]. eapply Permutation_trans; eassumption.
  - destruct ts as [|t ts]; [|discriminate X]. inversion F; subst. apply Permutation_nil in P. subst ts'. exists ns. auto.
Qed.

(** Transposition *)
Lemma transposed_same : forall env steps ts ts', Forall2 same_track ts ts' -> forall xs, transpose_tracks env steps ts = Ok xs ->
  exists xs', transpose_tracks env steps ts' = Ok xs' /\ Forall2 same_track xs xs' /\ map t_number xs = map t_number ts /\ map t_number xs' = map t_number ts'.
Proof.
  intros env steps ts ts' F. induction F as [|t t' ts ts' (_ & _ & _ & E & C) F IH]; intros xs H; cbn [transpose_tracks] in *.
  - apply Ok_inj in H. subst xs. exists []. repeat split. constructor.
  - unfold transpose_track in *. rewrite <- E, <- C. destruct (transpose_events env (t_ctx t) steps (t_events t)) as [es| | | |]; try discriminate H. cbn [bind] in *.
    destruct (transpose_tracks env steps ts) as [ys| | | |]; try discriminate H. cbn [bind] in H. apply Ok_inj in H. subst xs.
    destruct (IH ys eq_refl) as (ys' & -> & G & N & N'). cbn [bind]. eexists. split; [reflexivity|]. repeat split; cbn [map t_number]; try congruence. constructor; [repeat split|exact G].
Qed.

Lemma transposed_permuted : forall env steps ts ts', Permutation ts ts' -> forall xs, transpose_tracks env steps ts = Ok xs ->
  exists xs', transpose_tracks env steps ts' = Ok xs' /\ Permutation xs xs'.
Proof.
  intros env steps ts ts' P. induction P as [|t ts ts' P IH|t u ts|ts ts1 ts' P1 IH1 P2 IH2]; intros xs H.
  - exists xs. auto.
  - cbn [transpose_tracks] in *. destruct (transpose_track env steps t) as [a| | | |]; try discriminate H. cbn [bind] in *.
    destruct (transpose_tracks env steps ts) as [b| | | |]; try discriminate H. cbn [bind] in H. apply Ok_inj in H. subst xs.
    destruct (IH b eq_refl) as (b' & -> & Q). exists (a :: b'). split; [reflexivity|]. constructor. exact Q.
  - cbn [transpose_tracks] in *. destruct (transpose_track env steps u) as [a| | | |]; try discriminate H. cbn [bind] in *.
    destruct (transpose_track env steps t) as [b| | | |]; try discriminate H. cbn [bind] in *.
    destruct (transpose_tracks env steps ts) as [c| | | |]; try discriminate H. cbn [bind] in *. apply Ok_inj in H. subst xs.
    exists (b :: a :: c). split; [reflexivity|]. apply perm_swap.
  - destruct (IH1 xs H) as (m & E & Q). destruct (IH2 m E) as (n & E' & Q'). exists n. split; [exact E'|]. eapply Permutation_trans; eassumption.
Qed.

Lemma numbers_kept : forall xs ts, map t_number xs = map t_number ts -> Forall (fun t => t_number t <> 0) ts -> Forall (fun t => t_number t <> 0) xs.
Proof. intros xs ts E F. apply Forall_map with (P := fun n => n <> 0). rewrite E. apply Forall_map. exact F. Qed.

Theorem reordered_transposed : forall env steps s s' x, file_reordered s s' -> transpose_smf env steps s = Ok x ->
  exists x', transpose_smf env steps s' = Ok x' /\ file_reordered x x'.
Proof.
  intros env steps s s' x (H & t0 & t0' & ts & ts' & E & E' & S0 & N & N' & NF & NF' & m & P & F) X.
  unfold transpose_smf in *. rewrite E in X. rewrite E', H. cbn [transpose_tracks] in *.
  destruct S0 as (_ & _ & _ & T & C). unfold transpose_track in *. rewrite <- T, <- C.
  destruct (transpose_events env (t_ctx t0) steps (t_events t0)) as [es| | | |]; try discriminate X. cbn [bind] in *.
  fold (transpose_track) in *. destruct (transpose_tracks env steps ts) as [ys| | | |] eqn:Y; try discriminate X. cbn [bind] in X. apply Ok_inj in X. subst x.
  destruct (transposed_same env steps ts m F ys Y) as (ym & YM & G & Q1 & Q2). destruct (transposed_permuted env steps m ts' P ym YM) as (ys' & Y' & P').
  rewrite Y'. cbn [bind]. eexists. split; [reflexivity|]. split; [reflexivity|]. cbn [f_tracks].
  assert (NM : Forall (fun t => t_number t <> 0) m) by (rewrite Forall_forall in *; intros t I; apply NF', (Permutation_in _ P), I).
  do 4 eexists. split; [reflexivity|]. split; [reflexivity|]. repeat split; cbn [t_number]; auto.
  - eapply numbers_kept; eassumption.
  - pose proof (numbers_kept _ _ Q2 NM) as K. rewrite Forall_forall in *. intros t I. apply K, (Permutation_in _ (Permutation_sym P')), I.
  - exists ym. split; [exact P'|exact G].
Qed.

(** Validation *)
Lemma eot_scan_unnumbered : forall n n' k es i, later_track n = later_track n' ->
  map unnumbered (fst (eot_scan n k i es)) = map unnumbered (fst (eot_scan n' k i es)) /\ snd (eot_scan n k i es) = snd (eot_scan n' k i es).
Proof.
  intros n n' k es. induction es as [|e es IH]; intros i E; cbn [eot_scan]; [auto|]. destruct (IH (i + 1) E) as [H1 H2].
  destruct (eot_scan n k (i + 1) es) as [a x], (eot_scan n' k (i + 1) es) as [b y]. cbn [fst snd] in *. subst y.
  destruct (is_eot e); cbn [fst snd]; [|auto]. split; [|reflexivity]. rewrite !map_app, H1. f_equal. destruct (i + 1 =? k); cbn [map unnumbered]; rewrite ?E; reflexivity.
Qed.

Lemma eot_unnumbered : forall t t', t_events t = t_events t' -> later_track (t_number t) = later_track (t_number t') ->
  map unnumbered (validate_eot t) = map unnumbered (validate_eot t').
Proof.
  intros t t' H E. unfold validate_eot. rewrite <- H. destruct (eot_scan_unnumbered _ _ (zlen (t_events t)) (t_events t) 0 E) as [A B].
  destruct (eot_scan (t_number t) _ _ _) as [a x], (eot_scan (t_number t') _ _ _) as [b y]. cbn [fst snd] in *. subst y.
  rewrite !map_app, A. f_equal. destruct x; cbn [map unnumbered]; rewrite ?E; reflexivity.
Qed.

Lemma bank_unnumbered : forall n n' es i c, later_track n = later_track n' -> map unnumbered (bank_scan n i c es) = map unnumbered (bank_scan n' i c es).
Proof.
  intros n n' es. induction es as [|e es IH]; intros i c E; cbn [bank_scan]; [reflexivity|]. rewrite !map_app, (IH _ _ E). f_equal.
  unfold bank_check. rewrite !map_app.
  repeat match goal with |- context [match ?x with _ => _ end] => destruct x; cbn [map unnumbered app]; rewrite ?E; try reflexivity end.
Qed.

Lemma later_tracks : forall t t' : mtrk, t_number t <> 0 -> t_number t' <> 0 -> later_track (t_number t) = later_track (t_number t').
Proof. intros t t' A B. unfold later_track. destruct (Z.eqb_spec (t_number t) 0), (Z.eqb_spec (t_number t') 0); congruence. Qed.

Lemma errors_reordered : forall (f : mtrk -> list verror) ts ts', (forall t t', t_events t = t_events t' -> later_track (t_number t) = later_track (t_number t') -> map unnumbered (f t) = map unnumbered (f t')) ->
  Forall (fun t => t_number t <> 0) ts -> Forall (fun t => t_number t <> 0) ts' -> matched same_track ts ts' ->
  Permutation (map unnumbered (concat (map f ts))) (map unnumbered (concat (map f ts'))).
Proof.
  intros f ts ts' H N N' (m & P & F). assert (NM : Forall (fun t => t_number t <> 0) m) by (rewrite Forall_forall in *; intros t I; apply N', (Permutation_in _ P), I).
  assert (E : map unnumbered (concat (map f ts)) = map unnumbered (concat (map f m))).
  { clear P. induction F as [|t t' ts m (_ & _ & _ & Q & _) F IH]; [reflexivity|]. inversion N; inversion NM; subst. cbn [map concat]. rewrite !map_app. f_equal; [|auto].
    apply H; [exact Q|]. apply later_tracks; assumption. }
  rewrite E. apply Permutation_map. rewrite <- !flat_map_concat_map. apply Permutation_flat_map, P.
Qed.

Lemma tracks_count : forall s s', file_reordered s s' -> zlen (f_tracks s) = zlen (f_tracks s').
Proof.
  intros s s' (_ & t0 & t0' & ts & ts' & E & E' & _ & _ & _ & _ & _ & m & P & F). rewrite E, E'. unfold zlen. cbn [length].
  rewrite <- (Permutation_length P). clear - F. induction F; cbn [length] in *; lia.
Qed.

Theorem reordered_validated : forall s s' es, file_reordered s s' -> validate s = Ok es -> exists es', validate s' = Ok es' /\ Permutation (map unnumbered es) (map unnumbered es').
Proof.
  intros s s' es R V. pose proof (tracks_count s s' R) as L. destruct R as (H & t0 & t0' & ts & ts' & E & E' & S0 & N & N' & NF & NF' & M).
  unfold validate in *. rewrite H. destruct (f_mthd s) as [h|]; [|discriminate V].
  assert (Z0 : later_track (t_number t0) = later_track (t_number t0')) by (rewrite N, N'; reflexivity). destruct S0 as (_ & _ & _ & T & _).
  assert (A0 : validate_format0 s' = validate_format0 s) by (unfold validate_format0; rewrite L; reflexivity).
  assert (A2 : Permutation (map unnumbered (concat (map validate_eot (f_tracks s)))) (map unnumbered (concat (map validate_eot (f_tracks s'))))).
  { rewrite E, E'. cbn [map concat]. rewrite !map_app, (eot_unnumbered t0 t0' T Z0). apply Permutation_app_head. apply errors_reordered; auto. intros t t' Q1 Q2. apply eot_unnumbered; assumption. }
  assert (A3 : Permutation (map unnumbered (concat (map (fun t => bank_scan (t_number t) 0 None (t_events t)) (f_tracks s))))
                           (map unnumbered (concat (map (fun t => bank_scan (t_number t) 0 None (t_events t)) (f_tracks s'))))).
  { rewrite E, E'. cbn [map concat]. rewrite !map_app, <- T, (bank_unnumbered _ _ (t_events t0) 0 None Z0). apply Permutation_app_head.
    apply errors_reordered; auto. intros t t' Q1 Q2. rewrite <- Q1. apply bank_unnumbered, Q2. }
  rewrite A0.
  assert (A1 : forall e1, (if h_format h =? 1 then validate_format1 s else Ok []) = Ok e1 ->
     exists e1', (if h_format h =? 1 then validate_format1 s' else Ok []) = Ok e1' /\ Permutation (map unnumbered e1) (map unnumbered e1')).
  { intros e1 X. destruct (h_format h =? 1); [|apply Ok_inj in X; subst e1; exists []; auto]. unfold validate_format1 in *. rewrite E in X. rewrite E'.
    apply Ok_inj in X. subst e1. eexists. split; [reflexivity|]. rewrite !map_app, <- T. apply Permutation_app_head. apply errors_reordered; auto.
    intros t t' Q1 Q2. rewrite <- Q1, !map_map. cbn [unnumbered]. rewrite Q2. reflexivity. }
  destruct (if h_format h =? 1 then validate_format1 s else Ok []) as [e1| | | |]; try discriminate V. cbn [bind] in V. apply Ok_inj in V. subst es.
  destruct (A1 e1 eq_refl) as (e1' & -> & P1). cbn [bind]. eexists. split; [reflexivity|]. rewrite !map_app. repeat apply Permutation_app; auto.
Qed.
