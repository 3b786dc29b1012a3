(** * How a run ends: C106.  Theorems only; proofs in ExitProofs.v. *)
From Coq Require Import Permutation.
From Verif Require Import Base Strings Tables Event Track File SpecTranspose Notes SpecText SpecCsv Flags Cli SpecCli SpecRun SpecExit ExitProofs Samples CliSamples RunSamples ReassembleSamples.

(** C106: with a file that can be decoded a reading command crashes exactly for a file of format 1 without tracks and, if there is an output to write to, on what click and notes cannot
    take; it succeeds exactly if it neither crashes nor is refused and there is an output; otherwise it exits with 1.  It always ends. *)
Theorem C106_decoded : forall w d n args vs file c4 out k1 k2 delim tabular r s h, asked n args vs file -> In n readers ->
  bool_setting (str "C4") vs c4 -> string_setting (str "out") vs out -> string_setting (str "templates") vs [] -> bool_setting (str "split") vs false ->
  int_setting (str "transpose") vs k1 -> reasonable k1 -> int_setting (str "semitones") vs k2 -> reasonable k2 ->
  string_setting (str "delimiter") vs delim -> is_bytes delim -> bool_setting (str "tabular") vs tabular -> (forall l, Permutation l (w_order w l)) ->
  holds w d file r -> is_bytes r -> decode (Env c4 manufacturers) r = Ok s -> f_mthd s = Some h ->
  let e := r_ending (run w d (n :: args)) in
  (e = Crashed <-> hollow s h \/ (can_write w out /\ crashes n s h)) /\
  (e = Exit 0 <-> ~ hollow s h /\ can_write w out /\ ~ crashes n s h /\ ~ refused n out delim tabular) /\
  (e = Crashed \/ e = Exit 0 \/ e = Exit 1).
Proof. exact reader_ends. Qed.
Print Assumptions C106_decoded.

(** C106: disassemble with -split succeeds exactly if the directory can be made and all files can be created. *)
Theorem C106_split : forall w d args vs file c4 out r s h, asked (str "disassemble") args vs file -> bool_setting (str "C4") vs c4 -> string_setting (str "out") vs out ->
  string_setting (str "templates") vs [] -> bool_setting (str "split") vs true -> holds w d file r -> is_bytes r -> decode (Env c4 manufacturers) r = Ok s -> f_mthd s = Some h ->
  let e := r_ending (run w d (str "disassemble" :: args)) in
  (hollow s h -> e = Crashed) /\
  (~ hollow s h -> exists pre names, split_names pre 0 names /\ length names = length (f_tracks s) /\ (e = Exit 0 \/ e = Exit 1) /\
     (e = Exit 0 <-> (out <> [] -> w_mkdir w out = true) /\ Forall (fun p => w_creatable w p = true) ((pre ++ str ".MThd") :: names))).
Proof. exact split_ends. Qed.
Print Assumptions C106_split.

(** C106: with any other file a reading command changes nothing and exits with 1, or crashes if the decoder does (C20). *)
Theorem C106_undecodable : forall w d n args vs file c4 r, asked n args vs file -> In n readers -> bool_setting (str "C4") vs c4 -> holds w d file r -> is_bytes r ->
  (forall s, decode (Env c4 manufacturers) r <> Ok s) ->
  (untouched d (Exit 1) (run w d (n :: args)) \/ untouched d Crashed (run w d (n :: args))) /\
  (untouched d Crashed (run w d (n :: args)) <-> decode (Env c4 manufacturers) r = Panic).
Proof. exact undecodable_ends. Qed.
Print Assumptions C106_undecodable.

(** C106: any transposed file can be written, also of events that do not survive it. *)
Theorem C106_transposed : forall env n r s, is_bytes r -> decode env r = Ok s -> reasonable n -> exists bs, Transpose.transpose_execute env n s = Ok bs.
Proof. exact transposed_encodes. Qed.
Print Assumptions C106_transposed.

(** A song; files of format 0 and 1 without tracks; a file without pulses per quarter note; a file that is none. *)
Definition bare (format : Z) : bytes := [77; 84; 104; 100; 0; 0; 0; 6; 0; format; 0; 0; 1; 224].
Definition no_pulses : bytes := [77; 84; 104; 100; 0; 0; 0; 6; 0; 1; 0; 2; 0; 0] ++ sample_track sample_body0 ++ sample_track sample_body1.
Definition exit_disk : files := disk [("song.mid"%string, sample_file); ("bare0.mid"%string, bare 0); ("bare1.mid"%string, bare 1); ("zero.mid"%string, no_pulses); ("x.mid"%string, [1; 2; 3])].
Definition ending_of (l : list string) : ending := r_ending (run open_world exit_disk (argv l)).
Definition locked_world : world := World number (fun _ => false) (fun _ => true) (fun _ => None) [] (@rev nevent) in_order.

Example C106_example : exists vs s h,
  asked (str "notes") (argv ["--transpose=-12"; "--out"; "n.txt"; "zero.mid"]%string) vs (str "zero.mid") /\ bool_setting (str "C4") vs false /\ string_setting (str "out") vs (str "n.txt") /\
  string_setting (str "templates") vs [] /\ bool_setting (str "split") vs false /\ int_setting (str "transpose") vs (-12) /\ int_setting (str "semitones") vs 0 /\
  string_setting (str "delimiter") vs [] /\ bool_setting (str "tabular") vs false /\ (forall l, Permutation l (w_order open_world l)) /\
  holds open_world exit_disk (str "zero.mid") no_pulses /\ decode (Env false manufacturers) no_pulses = Ok s /\ f_mthd s = Some h /\ timeless s h /\ ~ hollow s h.
Proof.
  destruct (decode (Env false manufacturers) no_pulses) as [s| | | |] eqn:D; try (vm_compute in D; discriminate).
  destruct (f_mthd s) as [h|] eqn:H; [|vm_compute in D; apply Ok_inj in D; subst s; discriminate].
  exists [(str "transpose", VInt (-12)); (str "out", VString (str "n.txt"))], s, h.
  split; [line [(str "transpose", VInt (-12)); (str "out", VString (str "n.txt"))] Notes_|]. split; [right; split; reflexivity|]. split; [left; reflexivity|].
  split; [right; split; reflexivity|]. split; [right; split; reflexivity|]. split; [left; reflexivity|]. split; [right; split; reflexivity|]. split; [right; split; reflexivity|].
  split; [right; split; reflexivity|]. split; [intro l; apply Permutation_rev|]. split; [split; [discriminate|vm_compute; reflexivity]|]. split; [reflexivity|]. split; [exact H|].
  vm_compute in D. apply Ok_inj in D. subst s. cbn in H. injection H as <-. split.
  - split; [reflexivity|]. eexists. eexists. split; [reflexivity|]. split; [discriminate|]. right. eexists. eexists. split; [left; reflexivity|]. left. reflexivity.
  - intros [_ X]. discriminate.
Qed.

Example C106_endings :
  map ending_of [["export"; "song.mid"]; ["tsv"; "--out=t.tsv"; "song.mid"]; ["tsv"; "--delimiter=!"; "--out=t.tsv"; "bare0.mid"]; ["transpose"; "--semitones=3"; "--out"; "a.mid"; "bare0.mid"]; ["--split"; "song.mid"];
     ["notes"; "song.mid"]]%string = repeat (Exit 0) 6 /\
  map ending_of [["export"; "x.mid"]; ["tsv"; "--delimiter="""; "--out=t.tsv"; "song.mid"]; ["humanise"; "song.mid"]; ["notes"; "y.mid"]]%string = repeat (Exit 1) 4 /\
  map ending_of [["export"; "bare1.mid"]; ["humanise"; "bare1.mid"]; ["--split"; "bare1.mid"]; ["click"; "bare0.mid"]; ["notes"; "bare0.mid"]; ["notes"; "zero.mid"]]%string = repeat Crashed 6 /\
  map (fun l => r_ending (run locked_world exit_disk (argv l))) [["notes"; "--out=n.txt"; "zero.mid"]; ["transpose"; "--out=n.mid"; "song.mid"]; ["--split"; "song.mid"]]%string = repeat (Exit 1) 3.
Proof. vm_compute. repeat split; reflexivity. Qed.
