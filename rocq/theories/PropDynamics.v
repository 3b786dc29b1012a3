(** * Velocities: C124.  Theorems only; proofs in DynamicsProofs.v. *)
From Coq Require Import Permutation.
From Verif Require Import Base Tables Event Track File Notes SpecNames SpecSlower SpecDynamics DynamicsProofs Samples.

(** C124: other velocities (but not 0) change the velocities of the notes and nothing else; whatever relates the velocities of the keys struck relates those of the notes. *)
Theorem C124_velocities : forall env r r' s s' R steps order order', is_bytes r -> is_bytes r' -> decode env r = Ok s -> decode env r' = Ok s' -> replayed_file R s s' ->
  (forall l, Permutation l (order l)) -> (forall l, Permutation l (order' l)) ->
  alike (matched (replayed_note R)) (extract env steps order s) (extract env steps order' s').
Proof. exact replayed_notes. Qed.
Print Assumptions C124_velocities.

(** C124: a note off and a note on with velocity 0 mean the same. *)
Theorem C124_release : forall env r r' s s' steps order order', is_bytes r -> is_bytes r' -> decode env r = Ok s -> decode env r' = Ok s' -> replayed_file eq s s' ->
  (forall l, Permutation l (order l)) -> (forall l, Permutation l (order' l)) ->
  alike (@Permutation note_out) (extract env steps order s) (extract env steps order' s').
Proof. exact released_notes. Qed.
Print Assumptions C124_release.

(** Three notes, struck with velocities [u], [v] and [w]; the third one is never released.  The keys are released by note offs or, with running status, by notes on of velocity 0. *)
Definition played_song (u v w : Z) (on : bool) : bytes :=
  sample_header ++ sample_track [0; 255; 81; 3; 7; 161; 32; 0; 255; 47; 0] ++
  sample_track (if on then [0; 145; 60; u; 131; 96; 60; 0; 10; 62; v; 131; 96; 62; 0; 0; 64; w; 60; 255; 47; 0]
                else [0; 145; 60; u; 131; 96; 129; 60; 33; 10; 145; 62; v; 131; 96; 129; 62; 64; 0; 145; 64; w; 60; 255; 47; 0]).

Example C124_example : exists s s' ns ns', is_bytes (played_song 1 64 100 false) /\ is_bytes (played_song 2 127 101 true) /\
  decode default_env (played_song 1 64 100 false) = Ok s /\ decode default_env (played_song 2 127 101 true) = Ok s' /\ replayed_file Z.lt s s' /\
  extract default_env 0 (fun l => l) s = Ok ns /\ extract default_env 0 (fun l => l) s' = Ok ns' /\
  map (fun o => (o_note o, o_vel o, o_start_tick o, o_end_tick o)) ns = [(60, 1, 0, 480); (62, 64, 490, 970); (64, 100, 970, 1030)] /\
  map (fun o => (o_note o, o_vel o, o_start_tick o, o_end_tick o)) ns' = [(60, 2, 0, 480); (62, 127, 490, 970); (64, 101, 970, 1030)].
Proof.
  do 4 eexists. split; [repeat constructor; lia|]. split; [repeat constructor; lia|]. split; [vm_compute; reflexivity|]. split; [vm_compute; reflexivity|].
  split.
  { split; [reflexivity|]. repeat match goal with |- Forall2 _ _ _ => constructor | |- replayed_event _ _ _ => split; [reflexivity|split; [reflexivity|]] end; cbn [e_body];
      first [eapply rp_release; reflexivity|apply rp_same; reflexivity|eapply rp_strike; [reflexivity|reflexivity|lia]]. }
  split; [vm_compute; reflexivity|]. split; [vm_compute; reflexivity|]. split; reflexivity.
Qed.

Example C124_release_example : exists s s' ns, decode default_env (played_song 1 64 100 false) = Ok s /\ decode default_env (played_song 1 64 100 true) = Ok s' /\
  s <> s' /\ replayed_file eq s s' /\ extract default_env 0 (fun l => l) s = Ok ns /\ extract default_env 0 (fun l => l) s' = Ok ns /\ length ns = 3%nat.
Proof.
  do 3 eexists. split; [vm_compute; reflexivity|]. split; [vm_compute; reflexivity|]. split; [discriminate|].
  split.
  { split; [reflexivity|]. repeat match goal with |- Forall2 _ _ _ => constructor | |- replayed_event _ _ _ => split; [reflexivity|split; [reflexivity|]] end; cbn [e_body];
      first [eapply rp_release; reflexivity|apply rp_same; reflexivity|eapply rp_strike; [reflexivity|reflexivity|reflexivity]]. }
  split; [vm_compute; reflexivity|]. split; [vm_compute; reflexivity|]. reflexivity.
Qed.

(** Velocity 0 is another matter: a key struck with it is not struck, and the relation excludes it. *)
Example C124_silent_example : exists s s' ns ns', decode default_env (played_song 1 64 100 false) = Ok s /\ decode default_env (played_song 0 64 100 false) = Ok s' /\
  ~ replayed_file (fun _ _ => True) s s' /\ extract default_env 0 (fun l => l) s = Ok ns /\ extract default_env 0 (fun l => l) s' = Ok ns' /\ length ns = 3%nat /\ length ns' = 2%nat.
Proof.
  do 4 eexists. split; [vm_compute; reflexivity|]. split; [vm_compute; reflexivity|]. split.
  { intros [_ K]. inversion K as [|? ? ? ? _ K1]; subst. inversion K1 as [|? ? ? ? K2 _]; subst. inversion K2 as [|? ? ? ? K3 _]; subst. destruct K3 as (_ & _ & K4). cbn in K4.
    inversion K4 as [|? ? ? Q|? ? ? ? ? ? _ Q]; [discriminate Q|discriminate Q]. }
  split; [vm_compute; reflexivity|]. split; [vm_compute; reflexivity|]. split; reflexivity.
Qed.
