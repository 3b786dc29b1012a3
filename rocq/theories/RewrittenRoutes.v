(** * RewrittenRoutes: files that have gone through a listing or a document (C116). *)
From Verif Require Import Base Strings Tables Event SpecEvent Marshal Track File SpecTrack SpecTable SpecAssemble SpecSurvive SpecRead SpecText SpecJson Disassemble TextAssemble Json Manufacturer Assemble
  NoteProofs EventProofs Samples SampleProofs ReadSamples ReassembleSamples JsonProofs JsonFileProofs JsonSamples SpecRoutes SettledProofs RoutesProofs RoutesSamples SpecTranspose SpecSameSong SpecRewritten RewrittenProofs.

Lemma encoded_read : forall env r s r', is_bytes r -> writable env r -> decode env r = Ok s -> encode s = Ok r' -> zlen r' < 4294967296 ->
  exists s', decode env r' = Ok s' /\ same_gist s s'.
Proof.
  intros env r s r' B (w & D & L & F) E W Z.
  destruct (rewritten_read env r r' B) as (s0 & s' & E0 & D' & G).
  - exists w, s. auto 10.
  - rewrite E in E0. apply Ok_inj in E0. subst s0. exists s'. split; assumption.
Qed.

Theorem listing_read : forall env r s text tables r', is_bytes r -> writable env r -> decode env r = Ok s -> middle_octave env = 4 ->
  (forall h, f_mthd s = Some h -> h_smpte h = false) -> Forall (track_readable tables) (f_tracks s) ->
  Forall (fun t => ~ ends_in_message (t_events t) /\ unsplit (t_events t)) (f_tracks s) ->
  disassemble s = Ok text -> ~ long_line text -> assemble_text tables text = Ok r' -> zlen r' < 4294967296 ->
  exists s', decode env r' = Ok s' /\ same_gist s s'.
Proof.
  intros env r s text tables r' B WR E M NS TR SE D NL A Z. rewrite (written_again env r s text tables B E M NS TR SE D NL) in A.
  exact (encoded_read env r s r' B WR E A Z).
Qed.

Theorem document_read : forall c4 conf l r s r', Forall (fun x => wire_id (fst (fst x))) conf -> load_manufacturers conf = Ok l ->
  let env := add_manufacturers (Env c4 manufacturers) l in is_bytes r -> writable env r -> decode env r = Ok s ->
  (forall h, f_mthd s = Some h -> h_smpte h = false) -> Forall json_ready (f_tracks s) ->
  Forall (fun t => unsplit (t_events t)) (f_tracks s) -> assemble_json env (export_json s) = Ok r' -> zlen r' < 4294967296 ->
  exists s', decode env r' = Ok s' /\ same_gist s s'.
Proof.
  intros c4 conf l r s r' W L env B WR E NS J SE A Z. unfold env in A. rewrite (exported_again c4 conf l r s W L B E NS J SE) in A.
  exact (encoded_read env r s r' B WR E A Z).
Qed.

Definition sample_bare : smf := match decode (unnamed default_env) sample_file with Ok s => s | _ => SMF None [] end.

Lemma sample_writable : writable default_env sample_file.
Proof.
  assert (H : exists h t0 t1, f_mthd sample_bare = Some h /\ f_tracks sample_bare = [t0; t1] /\ legal_mthd h /\ h_tracks h = 2 /\
    t_tag t0 = str "MTrk" /\ legal_events (t_events t0) /\ faithful_events default_env (t_events t0) /\
    t_tag t1 = str "MTrk" /\ legal_events (t_events t1) /\ faithful_events default_env (t_events t1)).
  { eexists. eexists. eexists. split; [vm_compute; reflexivity|]. split; [vm_compute; reflexivity|]. cbv [t_events t_tag h_tracks].
    split; [repeat split; cbn; auto; try lia|]. split; [reflexivity|].
    split; [reflexivity|]. split; [split; [legal_tac|cbn; tauto]|]. split; [repeat constructor|].
    split; [reflexivity|]. split; [split; [legal_tac|cbn; tauto]|].
    repeat (apply Forall_cons; [cbn|]); try constructor. apply builtin_faithful; [apply wi_one; lia|discriminate]. }
  exists sample_bare. split; [vm_compute; reflexivity|]. destruct H as (h & t0 & t1 & E1 & E2 & L & N & T0 & L0 & F0 & T1 & L1 & F1).
  unfold legal_smf. rewrite E1, E2. split; [split; [split; [exact L|rewrite N; reflexivity]|]|]; repeat (constructor; auto).
Qed.
