(** * ReassembleSamples: concrete files that do and do not survive as text, concrete texts that crash or hang the assembler. *)
From Verif Require Import Base Strings Tables Event Track File SpecEvent SpecTrack SpecTable SpecAssemble SpecNote SpecSurvive SpecRead Disassemble Regex TextEvent TextAssemble
  Assemble AssembleProofs EventProofs Samples SampleProofs ReadSamples ReassembleProofs.

(** Maps are searched in the order of the source. *)
Definition in_order (j i : nat) : list (bytes * manufacturer) := manufacturers.

Lemma safe_const : forall b, contains (free_text b) (str "MThd") = false -> contains (free_text b) (str "MTrk") = false ->
  match b with TextEvent _ s => match rev s with 13 :: _ => false | _ => true end | _ => true end = true -> line_safe b.
Proof.
  intros b H T E. split; [|split].
  - intros O. apply contains_spec in O. congruence.
  - intros O. apply contains_spec in O. congruence.
  - destruct b; try exact I. intros l ->. rewrite rev_app_distr in E. discriminate.
Qed.

Lemma sample_track_readable : Forall (track_readable in_order) (f_tracks sample_smf).
Proof.
  assert (N : Forall (fun t => t_events t <> []) (f_tracks sample_smf)) by (vm_compute; repeat constructor; discriminate).
  assert (S : Forall (fun t => Forall (fun e => line_safe (e_body e)) (t_events t)) (f_tracks sample_smf)).
  { let x := eval vm_compute in (f_tracks sample_smf) in assert (X : f_tracks sample_smf = x) by (vm_compute; reflexivity). rewrite X.
    repeat (apply Forall_cons; cbn [t_events e_body]); try apply Forall_nil; apply safe_const; reflexivity. }
  pose proof sample_readable as R. rewrite Forall_forall in *. intros t I. specialize (N t I). specialize (S t I). specialize (R t I). split; [exact N|].
  rewrite Forall_forall in *. intros e J. specialize (S e J). specialize (R e J). destruct R as [R1 R2]. split; [exact R1|]. split; [exact S|]. intros j i. exact R2.
Qed.

Lemma sample_chained : Forall (fun t => Forall legal_event (t_events t) /\ chained false (t_events t) /\ faithful_events default_env (t_events t)) (f_tracks sample_smf).
Proof.
  assert (C : Forall (fun t => chained false (t_events t)) (f_tracks sample_smf)).
  { let x := eval vm_compute in (f_tracks sample_smf) in assert (X : f_tracks sample_smf = x) by (vm_compute; reflexivity). rewrite X.
    repeat (apply Forall_cons; [cbn [t_events chained e_body]|]); try apply Forall_nil; repeat split; discriminate. }
  destruct sample_legal as [[_ L] F]. rewrite Forall_forall in *. intros t I. split; [apply (L t I)|]. split; [apply C, I|apply F, I].
Qed.

Definition sample_text : bytes := match disassemble sample_smf with Ok t => t | _ => [] end.

Lemma sample_short : disassemble sample_smf = Ok sample_text /\ ~ long_line sample_text.
Proof.
  split; [vm_compute; reflexivity|]. 
  assert (E : read_chunks sample_text = Ok (match read_chunks sample_text with Ok c => c | _ => [] end)) by (vm_compute; reflexivity).
  apply read_chunks_ok in E. apply E.
Qed.

(** A text event "MTrk" *)
Definition tag_in_text : bytes := file_of [0; 255; 1; 4; 77; 84; 114; 107].
(** A note between the packets of a message *)
Definition interleaved : bytes := file_of [0; 240; 3; 67; 1; 2; 0; 144; 60; 64; 0; 247; 3; 3; 4; 247].
(** A header with 25 frames per second and 40 subframes *)
Definition timecode : bytes := [77; 84; 104; 100; 0; 0; 0; 6; 0; 0; 0; 1; 231; 40] ++ sample_track [0; 255; 47; 0].

Definition through_text (file : bytes) : outcome bytes := do s <- decode default_env file; do t <- disassemble s; assemble_text in_order t.
Definition bodies (o : outcome smf) : list (list body) := match o with Ok s => map (fun t => map e_body (t_events t)) (f_tracks s) | _ => [] end.

Lemma text_crashes : exists file s, decode default_env file = Ok s /\ (forall h, f_mthd s = Some h -> h_smpte h = false) /\ through_text file = Panic.
Proof. exists tag_in_text. eexists. split; [vm_compute; reflexivity|]. split; [intros h [= <-]; reflexivity|vm_compute; reflexivity]. Qed.

Lemma packets_split : exists file bs, through_text file = Ok bs /\
  bodies (decode default_env file) =
    [[SysExMessage (Manufacturer [67] (str "Japanese") (str "Yamaha")) [1; 2] false; NoteOn 0 (Note 60 (str "C4") (str "C4")) 64; SysExContinuation [3; 4] false; EndOfTrack]] /\
  bodies (decode default_env bs) =
    [[SysExMessage (Manufacturer [67] (str "Japanese") (str "Yamaha")) [1; 2] true; NoteOn 0 (Note 60 (str "C4") (str "C4")) 64; SysExEscape [3; 4; 247]; EndOfTrack]].
Proof. exists interleaved. eexists. split; [vm_compute; reflexivity|]. split; vm_compute; reflexivity. Qed.

Lemma timecode_rejected : exists file s, decode default_env file = Ok s /\ map (fun t => map e_body (t_events t)) (f_tracks s) = [[EndOfTrack]] /\ through_text file = Err.
Proof. exists timecode. eexists. split; [vm_compute; reflexivity|]. split; vm_compute; reflexivity. Qed.

(** ** Texts *)

Definition line (s : bytes) : bytes := s ++ [10].
Definition good_header : bytes := line (str "MThd format:0, metrical time:480 ppqn").
Definition no_track_events : bytes := good_header ++ line (str "MTrk").
Definition hidden_header : bytes := line (str "%% MThd format:0, metrical time:480 ppqn") ++ line (str "MTrk") ++ line (str "delta:0 EndOfTrack").
Definition bad_frame : bytes := good_header ++ line (str "MTrk") ++ line (str "delta:0 SMPTEOffset 1 2 3 25 25 0") ++ line (str "delta:0 EndOfTrack").
Definition bad_denominator : bytes :=
  good_header ++ line (str "MTrk") ++ line (str "delta:0 TimeSignature 4/129, 24 ticks per click, 8/32 per quarter") ++ line (str "delta:0 EndOfTrack").
Definition good_text : bytes := good_header ++ line (str "MTrk") ++ line (str "delta:0 EndOfTrack").
