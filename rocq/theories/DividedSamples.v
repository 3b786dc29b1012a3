(** * A track with two channels, and the same as two tracks (C127). *)
From Coq Require Import Permutation.
From Verif Require Import Base Tables Event Track File Notes SpecSlower SpecDivided Samples.

(** A tempo, and a faster one after a quarter note *)
Definition faster : bytes := [0; 255; 81; 3; 7; 161; 32; 131; 96; 255; 81; 3; 3; 208; 144; 0; 255; 47; 0].
(** A key signature with flats, a note on channel 0, a program and a note on channel 1; in the same track or in two *)
Definition duet : bytes := (str "MThd" ++ [0; 0; 0; 6; 0; 1; 0; 2; 1; 224]) ++ sample_track faster ++
  sample_track [0; 255; 89; 2; 254; 0; 0; 193; 5; 0; 144; 61; 100; 131; 96; 128; 61; 0; 131; 96; 145; 63; 90; 131; 96; 255; 47; 0].
Definition solos : bytes := (str "MThd" ++ [0; 0; 0; 6; 0; 1; 0; 3; 1; 224]) ++ sample_track faster ++
  sample_track [0; 255; 89; 2; 254; 0; 0; 144; 61; 100; 131; 96; 128; 61; 0; 135; 64; 255; 47; 0] ++
  sample_track [0; 255; 89; 2; 254; 0; 0; 193; 5; 135; 64; 145; 63; 90; 131; 96; 255; 47; 0].
Definition channel0 (c : Z) : bool := c =? 0.

Lemma times_differ : exists r r' s s' ns ns', is_bytes r /\ is_bytes r' /\ decode default_env r = Ok s /\ decode default_env r' = Ok s' /\ divided_file channel0 s s' /\
  extract default_env 0 (fun l => l) s = Ok ns /\ extract default_env 0 (fun l => l) s' = Ok ns' /\ ~ matched same_note ns ns'.
Proof.
  exists duet, solos. do 4 eexists. split; [repeat constructor; lia|]. split; [repeat constructor; lia|]. split; [vm_compute; reflexivity|]. split; [vm_compute; reflexivity|].
  split.
  { split; [reflexivity|]. do 2 eexists. do 2 eexists. do 5 eexists. split; [apply (f_equal (cons _) (eq_refl ([] ++ _ :: [])))|]. split; [apply (f_equal (cons _) (eq_refl ([] ++ _ :: _ :: [])))|].
    split; [reflexivity|]. split; [reflexivity|]. split; [reflexivity|]. cbn [t_events].
    repeat first [apply dv_nil | apply dv_both; [split; reflexivity|split; reflexivity|exact I|] | apply dv_first; [split; reflexivity|cbn [e_body partial_event]; reflexivity|]
      | apply dv_second; [split; reflexivity|cbn [e_body partial_event]; first [exact I|reflexivity]|]]. }
  split; [vm_compute; reflexivity|]. split; [vm_compute; reflexivity|].
  intros (m & P & F). inversion F as [|? x ? m1 X F1]; subst. inversion F1 as [|? y ? m2 Y F2]; subst. inversion F2; subst.
  destruct X as [X1 X2], Y as [Y1 Y2]. unfold untimed in X1, Y1. cbn [o_ch o_note o_name o_vel o_start o_end o_start_tick o_end_tick] in X1, Y1, X2, Y2.
  assert (IX : In x [x; y]) by (left; reflexivity). assert (IY : In y [x; y]) by (right; left; reflexivity).
  apply (Permutation_in _ P) in IX. apply (Permutation_in _ P) in IY.
  destruct IX as [<-|[<-|[]]], IY as [<-|[<-|[]]]; cbn [o_ch o_note o_name o_vel o_start o_end o_start_tick o_end_tick] in X1, Y1, X2, Y2; try discriminate X1; try discriminate Y1; lia.
Qed.

(** Here the program of channel 1 changes together with the tempo. *)
Definition even_duet : bytes := (str "MThd" ++ [0; 0; 0; 6; 0; 1; 0; 2; 1; 224]) ++ sample_track faster ++
  sample_track [0; 255; 89; 2; 254; 0; 0; 144; 61; 100; 131; 96; 128; 61; 0; 0; 193; 5; 131; 96; 145; 63; 90; 131; 96; 255; 47; 0].
Definition even_solos : bytes := (str "MThd" ++ [0; 0; 0; 6; 0; 1; 0; 3; 1; 224]) ++ sample_track faster ++
  sample_track [0; 255; 89; 2; 254; 0; 0; 144; 61; 100; 131; 96; 128; 61; 0; 135; 64; 255; 47; 0] ++
  sample_track [0; 255; 89; 2; 254; 0; 131; 96; 193; 5; 131; 96; 145; 63; 90; 131; 96; 255; 47; 0].
