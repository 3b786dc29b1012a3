(** * SampleProofs: the sample file meets the hypotheses of the theorems. *)
From Verif Require Import Base SpecVlq Tables Event SpecEvent Track File SpecTrack Samples EventProofs.

Ltac legal_tac := repeat (apply Forall_cons;
  [split; [cbv; auto|split; [cbv; split; discriminate|
     cbn; unfold is_bytes, is_byte, zlen; repeat split; cbn; repeat constructor; try discriminate; lia]]|]); constructor.

Lemma sample_tracks : exists h t0 t1, f_mthd sample_smf = Some h /\ f_tracks sample_smf = [t0; t1] /\
  legal_mthd h /\ h_tracks h = 2 /\
  t_tag t0 = str "MTrk" /\ legal_events (t_events t0) /\ faithful_events default_env (t_events t0) /\
  t_tag t1 = str "MTrk" /\ legal_events (t_events t1) /\ faithful_events default_env (t_events t1) /\
  length (t_events t0) = 3%nat /\ length (t_events t1) = 11%nat.
Proof.
  eexists. eexists. eexists. split; [vm_compute; reflexivity|]. split; [vm_compute; reflexivity|].
  cbv [t_events t_tag h_tracks].
  split; [repeat split; cbn; auto; try lia|]. split; [reflexivity|].
  split; [reflexivity|]. split; [split; [legal_tac|cbn; tauto]|]. split; [repeat constructor|].
  split; [reflexivity|]. split; [split; [legal_tac|cbn; tauto]|]. split; [|split; reflexivity].
  repeat (apply Forall_cons; [cbn|]); try constructor. apply builtin_faithful; [apply wi_one; lia|discriminate].
Qed.

Lemma sample_legal : legal_smf sample_smf /\
  Forall (fun t => faithful_events default_env (t_events t)) (f_tracks sample_smf).
Proof.
  destruct sample_tracks as (h & t0 & t1 & E1 & E2 & L & N & T0 & L0 & F0 & T1 & L1 & F1 & _).
  unfold legal_smf. rewrite E1, E2. split; [split; [split; [exact L|rewrite N; reflexivity]|]|].
  - apply Forall_cons; [split; assumption|]. apply Forall_cons; [split; assumption|constructor].
  - apply Forall_cons; [assumption|]. apply Forall_cons; [assumption|constructor].
Qed.
