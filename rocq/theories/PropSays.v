(** * What accepted messages are reported as: C75.  Theorems only; proofs in SaysProofs.v. *)
From Verif Require Import Base Strings Tables SpecVlq Vlq Event SpecEvent SpecPacket SpecFile SpecSays Parse Track File
  SpecTrack FileProofs SaysProofs Samples.

(** C75.  [track_tells] and [file_tells] (SpecSays.v) give the reading of every message that is accepted, also
    where the standard knows no such message; both directions, for all bytes. *)
Theorem C75_tracks : forall env r evs, is_bytes r ->
  ((exists es c', decode_events env new_context r = Ok (es, c') /\ map ev_view es = evs) <-> track_tells (env_manufacturers env) r evs).
Proof. exact track_says. Qed.
Print Assumptions C75_tracks.

Theorem C75_files : forall env r hf ess, is_bytes r ->
  ((exists s h, decode env r = Ok s /\ f_mthd s = Some h /\ fields_of h = hf /\ map (fun t => map ev_view (t_events t)) (f_tracks s) = ess) <->
   file_tells (env_manufacturers env) r hf ess).
Proof. exact file_says. Qed.
Print Assumptions C75_files.

Theorem C75_once : forall table r hf ess hf' ess', is_bytes r ->
  file_tells table r hf ess -> file_tells table r hf' ess' -> hf' = hf /\ ess' = ess.
Proof. exact file_tells_once. Qed.
Print Assumptions C75_once.

(** A controller value of 200, a pitch bend of FF FF, a tempo with type byte D1, a time signature with
    exponent 9, an end of track with data, and the beginning of a note. *)
Example C75_example : track_tells (env_manufacturers default_env)
  [0; 176; 7; 200; 0; 224; 255; 255; 1; 255; 209; 3; 7; 161; 32; 2; 255; 88; 4; 4; 9; 24; 8; 0; 255; 47; 1; 5; 0; 144; 60]
  [(0, CControl 0 7 200); (0, CBend 0 32767); (1, CTempo 500000); (2, CTimeSig 4 0 24 8); (0, CEndOfTrack)].
Proof.
  apply C75_tracks; [repeat (constructor; [unfold is_byte; lia|]); constructor|].
  eexists. eexists. split; [vm_compute; reflexivity|]. vm_compute. reflexivity.
Qed.

(** Derived by the grammar: system exclusive messages of known and unknown manufacturers. *)
Example C75_grammar_example : tells [(str "43", Manufacturer [68] (str "x") (str "y"))] 0 false
  [(0, CSysEx [68; 1; 2] false); (0, CSysExCont [3] false); (5, CEscape [4]); (0, CSysEx [9; 1] true)]
  [0; 240; 3; 67; 1; 2; 0; 247; 2; 3; 247; 5; 247; 1; 4; 0; 240; 3; 9; 1; 247] 0 false.
Proof.
  assert (V : forall b, 0 <= b < 128 -> reads [b] b).
  { intros b Hb. split; [constructor; exact Hb|]. cbn [vlq_denotes length]. change (128 ^ Z.of_nat 0) with 1. lia. }
  apply (te_cons _ _ _ ([0] ++ 240 :: [3] ++ [67; 1; 2]) 0 (PSys 240 [67; 1; 2])).
  { apply sh_sys; [apply V; lia|auto|exact (V 3 ltac:(lia))]. }
  { apply (sy_sysex_first _ 67 [68] [1] 2); [|lia]. apply (fd_known _ _ [] (Manufacturer [68] (str "x") (str "y")) []); [reflexivity|intros []]. }
  apply (te_cons _ _ _ ([0] ++ 247 :: [2] ++ [3; 247]) 0 (PSys 247 [3; 247])).
  { apply sh_sys; [apply V; lia|auto|exact (V 2 ltac:(lia))]. }
  { apply (sy_cont_last _ [3]). }
  apply (te_cons _ _ _ ([5] ++ 247 :: [1] ++ [4]) 5 (PSys 247 [4])).
  { apply sh_sys; [apply V; lia|auto|exact (V 1 ltac:(lia))]. }
  { apply sy_escape. }
  apply (te_cons _ _ _ ([0] ++ 240 :: [3] ++ [9; 1; 247]) 0 (PSys 240 [9; 1; 247]) _ _ []).
  { apply sh_sys; [apply V; lia|auto|exact (V 3 ltac:(lia))]. }
  { apply (sy_sysex_single _ 9 [9] [1]). apply fd_unknown. intros [E|[]]. vm_compute in E. discriminate. }
  constructor.
Qed.

(** A whole file. *)
Example C75_file_example : file_tells (env_manufacturers default_env) (single_header ++ sample_track [0; 144; 60; 100; 16; 60; 0; 0; 255; 47; 0])
  (HF 0 1 480 480 None) [[(0, CNoteOn 0 60 100); (16, CNoteOn 0 60 0); (0, CEndOfTrack)]].
Proof.
  assert (B : is_bytes (single_header ++ sample_track [0; 144; 60; 100; 16; 60; 0; 0; 255; 47; 0])).
  { repeat (constructor; [split; vm_compute; congruence|]). constructor. }
  apply (proj1 (C75_files default_env _ _ _ B)). eexists. eexists. split; [vm_compute; reflexivity|]. split; [reflexivity|]. split; vm_compute; reflexivity.
Qed.
