(** * A piece before and after a rest (C126). *)
From Coq Require Import Permutation.
From Verif Require Import Base Tables Event Track File Notes SpecNames SpecSlower SpecRest Samples.

(** Two tracks with a note each, the second one's at tick 480, all after a rest of [a] ticks ([b] is [a] + 480) *)
Definition late_song (a b : bytes) : bytes := (str "MThd" ++ [0; 0; 0; 6; 0; 1; 0; 3; 1; 224]) ++ sample_track (a ++ [255; 81; 3; 7; 161; 32; 0; 255; 47; 0]) ++
  sample_track (a ++ [144; 60; 100; 131; 96; 128; 60; 0; 0; 255; 47; 0]) ++ sample_track (b ++ [145; 62; 100; 131; 96; 129; 62; 0; 0; 255; 47; 0]).
Definition early : bytes := late_song [0] [131; 96].
Definition late : bytes := late_song [131; 96] [135; 64].

Lemma rest_uneven : exists r r' k s s' ns ns', is_bytes r /\ is_bytes r' /\ decode default_env r = Ok s /\ decode default_env r' = Ok s' /\ 0 <= k /\ rested_file k s s' /\ short_tracks s' /\
  extract default_env 0 (fun l => l) s = Ok ns /\ extract default_env 0 (fun l => l) s' = Ok ns' /\ ~ exists d, matched (delayed_note k d) ns ns'.
Proof.
  exists early, late, 480. do 4 eexists. split; [repeat constructor; lia|]. split; [repeat constructor; lia|]. split; [vm_compute; reflexivity|]. split; [vm_compute; reflexivity|]. split; [lia|].
  split; [split; [reflexivity|]; vm_compute; repeat match goal with |- Forall2 _ _ _ => constructor | |- _ /\ _ => split | _ => reflexivity end|].
  split; [repeat constructor|]. split; [vm_compute; reflexivity|]. split; [vm_compute; reflexivity|].
  intros (d & m & P & F). inversion F as [|? x ? m1 X F1]; subst. inversion F1 as [|? y ? m2 Y F2]; subst. inversion F2; subst.
  destruct X as [(X1 & _) X2], Y as [(Y1 & _) Y2]. cbn [o_ch o_note o_name o_vel o_start] in X1, Y1, X2, Y2.
  assert (IX : In x [x; y]) by (left; reflexivity). assert (IY : In y [x; y]) by (right; left; reflexivity).
  apply (Permutation_in _ P) in IX. apply (Permutation_in _ P) in IY.
  destruct IX as [<-|[<-|[]]], IY as [<-|[<-|[]]]; cbn [o_ch o_note o_name o_vel o_start] in X1, Y1, X2, Y2; try discriminate X1; try discriminate Y1; lia.
Qed.
