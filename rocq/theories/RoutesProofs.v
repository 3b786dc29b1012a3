(** * RoutesProofs: the file from the listing, the file from the document and the file written again are the same. *)
From Verif Require Import Base Strings Tables Event SpecEvent Marshal Track File SpecTrack FileProofs SpecTable SpecAssemble SpecSurvive SpecRead SpecText SpecJson NoteProofs Disassemble TextAssemble Json Manufacturer Assemble
  ReassembleProofs JsonExportProofs JsonFileProofs SpecRoutes SettledProofs.

(** What is encoded is given by the header and the contents. *)
Lemma encode_tracks_view : forall ts ts', Forall2 (fun t t' => map ev_view (t_events t') = map ev_view (t_events t) /\ Forall legal_header (t_events t) /\ Forall legal_header (t_events t') /\ t_tag t' = t_tag t) ts ts' ->
  encode_tracks ts' = encode_tracks ts.
Proof.
  intros ts ts' F. induction F as [|t t' ts ts' (V & L & L' & T) F IH]; [reflexivity|]. cbn [encode_tracks]. rewrite IH. unfold encode_mtrk. rewrite T, (marshal_events_view (t_events t') (t_events t)) by assumption. reflexivity.
Qed.

Lemma encode_view : forall h h' ts ts', h_tag h' = h_tag h -> h_length h' = h_length h -> h_format h' = h_format h -> h_tracks h' = h_tracks h -> h_division h' = h_division h ->
  Forall2 (fun t t' => map ev_view (t_events t') = map ev_view (t_events t) /\ Forall legal_header (t_events t) /\ Forall legal_header (t_events t') /\ t_tag t' = t_tag t) ts ts' ->
  encode (SMF (Some h') ts') = encode (SMF (Some h) ts).
Proof.
  intros h h' ts ts' E1 E2 E3 E4 E5 F. unfold encode. cbn [f_mthd f_tracks]. rewrite (encode_tracks_view ts ts' F).
  assert (N : zlen ts' = zlen ts) by (unfold zlen; rewrite (forall2_length _ _ _ _ _ F); reflexivity). rewrite N. unfold marshal_mthd. rewrite E1, E2, E3, E4, E5. reflexivity.
Qed.

Lemma nth_ext_views : forall es es', length es' = length es -> (forall i e e', nth_error es i = Some e -> nth_error es' i = Some e' -> ev_view e = ev_view e') -> map ev_view es = map ev_view es'.
Proof.
  induction es as [|e es IH]; intros [|e' es'] L H; try discriminate; [reflexivity|]. cbn [map]. rewrite (H 0%nat e e' eq_refl eq_refl). f_equal. apply IH; [cbn in L; lia|].
  intros i x y X Y. exact (H (S i) x y X Y).
Qed.

(** The same events from both *)
Lemma both_views : forall es es1 es2, settled es -> events_back es es1 -> events_from_json es es2 -> map ev_view es1 = map ev_view es2.
Proof.
  intros es es1 es2 SE (L1 & B1) (L2 & B2). apply nth_ext_views.
  - congruence.
  - intros i e1 e2 N1 N2. destruct (nth_error es i) as [e|] eqn:N; [|apply nth_error_None in N; assert (nth_error es1 i <> None) by congruence; apply nth_error_Some in H; lia].
    destruct (B1 i e e1 N N1) as (D1 & fin & E1 & F1). destruct (B2 i e e2 N N2) as (D2 & K). unfold ev_view. rewrite D1, D2. f_equal. rewrite E1. clear E1.
    destruct (e_body e) as [ | | | | | | | | | | | | | | | | |m d s|d s| ] eqn:Eb; cbn [back_with read_marked as_read] in *;
      try (destruct (values_view _ _ K) as [-> _]; reflexivity).
    + destruct K as (f2 & K & F2). destruct (values_view _ _ K) as [-> _]. cbn [view]. f_equal. destruct s.
      * assert (f2 = true) as -> by (apply F2; left; reflexivity). apply F1. exact (SE i e m d N Eb).
      * apply Bool.eq_true_iff_eq. rewrite F1, F2. split; [auto|]. intros [X|X]; [discriminate|exact X].
    + destruct K as (f2 & -> & F2). cbn [view]. f_equal. apply Bool.eq_true_iff_eq. rewrite F1, F2. reflexivity.
Qed.

Lemma forall2_both : forall (A B C : Type) (P : A -> B -> Prop) (Q : A -> C -> Prop) (R : C -> B -> Prop) (K : A -> Prop) xs ys zs, Forall K xs -> Forall2 P xs ys -> Forall2 Q xs zs ->
  (forall x y z, K x -> P x y -> Q x z -> R z y) -> Forall2 R zs ys.
Proof.
  intros A B C P Q R K xs ys zs F. revert ys zs. induction F as [|x xs X F IH]; intros ys zs H1 H2 I; inversion H1; inversion H2; subst; constructor; eauto.
Qed.

Theorem same_file : forall c4 conf l r s text tables, Forall (fun x => wire_id (fst (fst x))) conf -> load_manufacturers conf = Ok l ->
  let env := add_manufacturers (Env c4 manufacturers) l in is_bytes r -> decode env r = Ok s -> middle_octave env = 4 ->
  (forall h, f_mthd s = Some h -> h_smpte h = false) -> Forall (track_readable tables) (f_tracks s) ->
  Forall (fun t => Forall (fun e => valid_text (e_body e)) (t_events t) /\ ~ ends_in_message (t_events t)) (f_tracks s) ->
  disassemble s = Ok text -> ~ long_line text ->
  assemble_text tables text = assemble_json env (export_json s).
Proof.
  intros c4 conf l r s text tables W L env B H M4 NS TR SE D NL.
  assert (J : Forall json_ready (f_tracks s)).
  { apply Forall_forall. intros t I. rewrite Forall_forall in TR, SE. split; [apply (TR t I)|apply (SE t I)]. }
  destruct (reassembled env r s text tables B H M4 NS TR D NL) as (h & h1 & ts1 & E & E1 & A1 & A2 & A3 & A4 & A5 & F1).
  destruct (reassembled_json c4 conf l r s W L B H NS J) as (h0 & h2 & ts2 & E0 & E2 & B1 & B2 & B3 & B4 & B5 & F2).
  rewrite E in E0. injection E0 as <-. fold env in E2. rewrite E1, E2. destruct (decode_headers _ _ _ H) as [_ Hts].
  apply encode_view; try congruence.
  eapply (forall2_both _ _ _ _ _ _ (fun t => settled (t_events t) /\ t_tag t = str "MTrk")); [|exact F1|exact F2|].
  - pose proof (decoded_settled env r s B H) as DS. apply Forall_forall. intros t I. rewrite Forall_forall in SE, Hts, DS. split; [apply (DS t I), (SE t I)|apply (Hts t I)].
  - intros t t1 t2 (X1 & X2) (Y1 & Y2 & Y3) (Z1 & Z2 & Z3). split; [eapply both_views; eassumption|]. split; [exact Z2|]. split; [exact Y2|congruence].
Qed.

(** Without packets: nothing changes *)
Lemma views_kept : forall es es', settled es -> unsplit es -> events_back es es' -> map ev_view es' = map ev_view es.
Proof.
  intros es es' SE U (L & K). apply nth_ext_views; [congruence|]. intros i e' e N' N. destruct (K i e e' N N') as (D & fin & E & F). unfold ev_view. rewrite D, E. f_equal.
  unfold unsplit in U. rewrite Forall_forall in U. destruct (U e (nth_error_In _ _ N)) as (U1 & U2).
  destruct (e_body e) as [ | | | | | | | | | | | | | | | | |m d s|d s| ] eqn:Eb; cbn [read_marked as_read view]; try reflexivity.
  - destruct s; [|destruct (U2 m d eq_refl)]. f_equal. apply F. exact (SE i e m d N Eb).
  - destruct U1. exists d, s. exact Eb.
Qed.

Theorem written_again : forall env r s text tables, is_bytes r -> decode env r = Ok s -> middle_octave env = 4 ->
  (forall h, f_mthd s = Some h -> h_smpte h = false) -> Forall (track_readable tables) (f_tracks s) ->
  Forall (fun t => ~ ends_in_message (t_events t) /\ unsplit (t_events t)) (f_tracks s) ->
  disassemble s = Ok text -> ~ long_line text ->
  assemble_text tables text = encode s.
Proof.
  intros env r s text tables B H M4 NS TR SE D NL.
  destruct (reassembled env r s text tables B H M4 NS TR D NL) as (h & h1 & ts1 & E & E1 & A1 & A2 & A3 & A4 & A5 & F1).
  destruct (decode_headers _ _ _ H) as [_ Hts]. pose proof (decoded_settled env r s B H) as DS. rewrite E1. destruct s as [hd ts]. cbn [f_mthd f_tracks] in *. subst hd. apply encode_view; try assumption.
  assert (X : Forall2 (fun t t' => t' = t) ts ts) by (clear; induction ts; constructor; auto).
  eapply (forall2_both _ _ _ _ _ _ (fun t => (settled (t_events t) /\ unsplit (t_events t)) /\ Forall legal_header (t_events t))); [|exact F1|exact X|].
  - apply Forall_forall. intros t I. rewrite Forall_forall in SE, Hts, DS. split; [split; [apply (DS t I), (SE t I)|apply (SE t I)]|]. destruct (Hts t I) as [_ Q]. eapply Forall_impl; [|exact Q]. intros e Y. apply Y.
  - intros t t1 t2 ((Y1 & Y2) & Y3) (Z1 & Z2 & Z3) ->. split; [apply views_kept; assumption|]. split; [exact Y3|]. split; [exact Z2|exact Z3].
Qed.

(** From the document *)
Lemma views_kept_json : forall es es', unsplit es -> events_from_json es es' -> map ev_view es' = map ev_view es.
Proof.
  intros es es' U (L & K). apply nth_ext_views; [congruence|]. intros i e' e N' N. destruct (K i e e' N N') as (D & BW). unfold ev_view. rewrite D. f_equal.
  unfold unsplit in U. rewrite Forall_forall in U. destruct (U e (nth_error_In _ _ N)) as (U1 & U2).
  destruct (e_body e) as [ | | | | | | | | | | | | | | | | |m d s|d s| ] eqn:Eb; cbn [back_with] in BW; try (apply (values_view _ _ BW)).
  - destruct s; [|destruct (U2 m d eq_refl)]. destruct BW as (f & BW & F). assert (f = true) as -> by (apply F; left; reflexivity). apply (values_view _ _ BW).
  - destruct U1. exists d, s. exact Eb.
Qed.

Theorem exported_again : forall c4 conf l r s, Forall (fun x => wire_id (fst (fst x))) conf -> load_manufacturers conf = Ok l ->
  let env := add_manufacturers (Env c4 manufacturers) l in is_bytes r -> decode env r = Ok s ->
  (forall h, f_mthd s = Some h -> h_smpte h = false) -> Forall json_ready (f_tracks s) ->
  Forall (fun t => unsplit (t_events t)) (f_tracks s) ->
  assemble_json env (export_json s) = encode s.
Proof.
  intros c4 conf l r s W L env B H NS J SE.
  destruct (reassembled_json c4 conf l r s W L B H NS J) as (h & h1 & ts1 & E & E1 & A1 & A2 & A3 & A4 & A5 & F1). fold env in E1.
  destruct (decode_headers _ _ _ H) as [_ Hts]. rewrite E1. destruct s as [hd ts]. cbn [f_mthd f_tracks] in *. subst hd. apply encode_view; try assumption.
  assert (X : Forall2 (fun t t' => t' = t) ts ts) by (clear; induction ts; constructor; auto).
  eapply (forall2_both _ _ _ _ _ _ (fun t => unsplit (t_events t) /\ Forall legal_header (t_events t) /\ t_tag t = str "MTrk")); [|exact F1|exact X|].
  - apply Forall_forall. intros t I. rewrite Forall_forall in SE, Hts. split; [apply (SE t I)|]. destruct (Hts t I) as [T Q]. split; [|exact T]. eapply Forall_impl; [|exact Q]. intros e Y. apply Y.
  - intros t t1 t2 (Y1 & Y3 & Y4) (Z1 & Z2 & Z3) ->. split; [apply views_kept_json; assumption|]. split; [exact Y3|]. split; [exact Z2|congruence].
Qed.
