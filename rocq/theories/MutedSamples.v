(** * A track with two channels, and the same with one of them taken out (C131). *)
From Coq Require Import Permutation.
From Verif Require Import Base Tables Event Track File Notes SpecSlower SpecDivided SpecMuted Samples DividedSamples.

(** [duet] (DividedSamples.v) without the note on channel 0 *)
Definition solo : bytes := (str "MThd" ++ [0; 0; 0; 6; 0; 1; 0; 2; 1; 224]) ++ sample_track faster ++
  sample_track [0; 255; 89; 2; 254; 0; 0; 193; 5; 135; 64; 145; 63; 90; 131; 96; 255; 47; 0].
Definition channel1 (c : Z) : bool := c =? 1.

Lemma muted_times_differ : exists r r' s s' ns ns', is_bytes r /\ is_bytes r' /\ decode default_env r = Ok s /\ decode default_env r' = Ok s' /\ muted_file channel1 s s' /\
  extract default_env 0 (fun l => l) s = Ok ns /\ extract default_env 0 (fun l => l) s' = Ok ns' /\ ~ matched same_note (heard channel1 ns) ns'.
Proof.
  exists duet, solo. do 4 eexists. split; [repeat constructor; lia|]. split; [repeat constructor; lia|]. split; [vm_compute; reflexivity|]. split; [vm_compute; reflexivity|].
  split.
  { split; [reflexivity|]. do 4 eexists. split; [reflexivity|]. split; [reflexivity|]. split; [reflexivity|]. constructor; [|constructor]. cbn [t_events].
    repeat first [apply mu_nil | apply mu_keep; [split; reflexivity|first [right; exact I|left; cbn [e_body partial_event]; reflexivity]|] | apply mu_drop; [cbn [e_body partial_event]; reflexivity|]]. }
  split; [vm_compute; reflexivity|]. split; [vm_compute; reflexivity|].
  intros (m & P & F). cbn in F. inversion F as [|? x ? m1 X F1]; subst. inversion F1; subst.
  assert (IX : In x [x]) by (left; reflexivity). apply (Permutation_in _ P) in IX.
  destruct X as [X1 X2]. destruct IX as [<-|[]]; cbn [o_ch o_note o_name o_vel o_start o_end o_start_tick o_end_tick] in X2; lia.
Qed.
