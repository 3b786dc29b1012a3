(** * JsonSamples: concrete files that do and do not survive as JSON, concrete documents that crash or hang the assembler. *)
From Verif Require Import Base Strings Tables Event Track File SpecText SpecEvent SpecTrack SpecAssemble SpecRead SpecJson Utf8 Json Manufacturer EventProofs Utf8Proofs Samples SampleProofs ReadSamples ReassembleSamples
  JsonProofs JsonFileProofs.

Definition through_json (file : bytes) : outcome bytes := do s <- decode default_env file; assemble_json default_env (export_json s).

Lemma sample_ready : Forall json_ready (f_tracks sample_smf).
Proof.
  let x := eval vm_compute in (f_tracks sample_smf) in assert (X : f_tracks sample_smf = x) by (vm_compute; reflexivity). rewrite X.
  assert (A : forall s, is_bytes s -> concat (runes s) = s -> well_formed s) by (intros s B E; apply (well_formed_iff s B), E).
  repeat (apply Forall_cons; [split; [discriminate|]; repeat (apply Forall_cons; [cbn [e_body valid_text]; first [exact I|apply A; [repeat constructor; unfold is_byte; lia|vm_compute; reflexivity]]|]); apply Forall_nil|]).
  apply Forall_nil.
Qed.

(** "Caf" and the Latin-1 letter e with acute *)
Definition latin1 : bytes := file_of [0; 255; 1; 4; 67; 97; 102; 233].
(** A track that ends inside its first event *)
Definition cut_short : bytes := [77; 84; 104; 100; 0; 0; 0; 6; 0; 0; 0; 1; 1; 224; 77; 84; 114; 107; 0; 0; 0; 1; 0].

Lemma latin1_changed : exists e e', unmarshal_json default_env (marshal_json e) = Ok e' /\ e_body e = TextEvent KText [67; 97; 102; 233] /\
  e_body e' = TextEvent KText [67; 97; 102; 239; 191; 189].
Proof. exists (make_text KText 0 0 [67; 97; 102; 233] []). eexists. split; [vm_compute; reflexivity|]. split; reflexivity. Qed.

Lemma latin1_file : exists file bs, through_json file = Ok bs /\ bodies (decode default_env file) = [[TextEvent KText [67; 97; 102; 233]; EndOfTrack]] /\
  bodies (decode default_env bs) = [[TextEvent KText [67; 97; 102; 239; 191; 189]; EndOfTrack]].
Proof. exists latin1. eexists. split; [vm_compute; reflexivity|]. split; vm_compute; reflexivity. Qed.

Lemma timecode_lost : exists file bs s s' h h', through_json file = Ok bs /\ decode default_env file = Ok s /\ decode default_env bs = Ok s' /\
  f_mthd s = Some h /\ f_mthd s' = Some h' /\ (h_smpte h = true /\ h_fps h = 25 /\ h_subframes h = 40) /\ (h_smpte h' = false /\ h_ppqn h' = 0).
Proof.
  exists timecode. do 5 eexists. split; [vm_compute; reflexivity|]. split; [vm_compute; reflexivity|]. split; [vm_compute; reflexivity|].
  split; [reflexivity|]. split; [reflexivity|]. split; repeat split.
Qed.

Lemma packets_split_json : exists file bs, through_json file = Ok bs /\
  bodies (decode default_env file) =
    [[SysExMessage (Manufacturer [67] (str "Japanese") (str "Yamaha")) [1; 2] false; NoteOn 0 (Note 60 (str "C4") (str "C4")) 64; SysExContinuation [3; 4] false; EndOfTrack]] /\
  bodies (decode default_env bs) =
    [[SysExMessage (Manufacturer [67] (str "Japanese") (str "Yamaha")) [1; 2] true; NoteOn 0 (Note 60 (str "C4") (str "C4")) 64; SysExEscape [3; 4; 247]; EndOfTrack]].
Proof. exists interleaved. eexists. split; [vm_compute; reflexivity|]. split; vm_compute; reflexivity. Qed.

Lemma empty_track_json : exists file s, decode default_env file = Ok s /\ map t_events (f_tracks s) = [[]] /\ through_json file = Panic.
Proof. exists cut_short. eexists. split; [vm_compute; reflexivity|]. split; vm_compute; reflexivity. Qed.

(** ** Documents *)

Definition doc (tracks : list json) : json :=
  JObj [(str "header", JObj [(str "tag", JStr (str "MThd")); (str "format", JNum 0); (str "PPQN", JNum 480)]); (str "tracks", JArr tracks)].
Definition track (events : list json) : json := JObj [(str "tag", JStr (str "MTrk")); (str "events", JArr events)].
Definition one (tag : bytes) (fields : list (bytes * json)) : json :=
  doc [track [JObj [(str "event", JObj ((str "tag", JStr tag) :: (str "delta", JNum 0) :: fields))];
              JObj [(str "event", JObj [(str "tag", JStr (str "EndOfTrack")); (str "delta", JNum 0)])]]].
