(** * RewrittenSamples: a file and what the program writes for it (C115, C116). *)
From Verif Require Import Base Strings Tables Vlq SpecVlq Event SpecEvent Track File SpecTrack Samples SampleProofs EventProofs CliSamples Cli Notes SpecTranspose SpecSameSong SpecRewritten SameSongSamples.

(** A note, on and off, with running status and longer numbers, a message for Yamaha, and half a message after the end of the track *)
Definition old_track : bytes := [128; 0; 145; 60; 64; 96; 60; 0; 0; 240; 4; 67; 1; 2; 247; 0; 255; 47; 128; 128; 0; 5; 255].
Definition old_file : bytes := str "MThd" ++ be32 6 ++ song_header ++ str "MTrk" ++ be32 11 ++ song_tempo ++ str "XFIH" ++ be32 2 ++ [77; 84] ++ str "MTrk" ++ be32 23 ++ old_track.
(** As it is written: shortest numbers, nothing but the tracks, and nothing after the end *)
Definition new_track : bytes := [0; 145; 60; 64; 96; 60; 0; 0; 240; 4; 67; 1; 2; 247; 0; 255; 47; 0].
Definition new_file : bytes := str "MThd" ++ be32 6 ++ song_header ++ str "MTrk" ++ be32 11 ++ song_tempo ++ str "MTrk" ++ be32 18 ++ new_track.
Definition old_smf (c4 : bool) : smf := match decode (unnamed (Env c4 manufacturers)) old_file with Ok s => s | _ => SMF None [] end.

Lemma old_legal : forall c4, legal_smf (old_smf c4) /\ Forall (fun t => faithful_events (Env c4 manufacturers) (t_events t)) (f_tracks (old_smf c4)).
Proof.
  assert (H : forall c4, exists h t0 t1, f_mthd (old_smf c4) = Some h /\ f_tracks (old_smf c4) = [t0; t1] /\ legal_mthd h /\ h_tracks h = 2 /\
    t_tag t0 = str "MTrk" /\ legal_events (t_events t0) /\ faithful_events (Env c4 manufacturers) (t_events t0) /\
    t_tag t1 = str "MTrk" /\ legal_events (t_events t1) /\ faithful_events (Env c4 manufacturers) (t_events t1)).
  { intros [|].
    all: eexists; eexists; eexists; split; [vm_compute; reflexivity|]; split; [vm_compute; reflexivity|]; cbv [t_events t_tag h_tracks].
    all: split; [repeat split; cbn; auto; try lia|]; split; [reflexivity|].
    all: split; [reflexivity|]; split; [split; [legal_tac|cbn; tauto]|]; split; [repeat constructor|].
    all: split; [reflexivity|]; split; [split; [legal_tac|cbn; tauto]|].
    all: repeat (apply Forall_cons; [cbn; auto|]); try constructor; apply builtin_faithful; [apply wi_one; lia|discriminate]. }
  intro c4. destruct (H c4) as (h & t0 & t1 & E1 & E2 & L & N & T0 & L0 & F0 & T1 & L1 & F1).
  unfold legal_smf. rewrite E1, E2. split; [split; [split; [exact L|rewrite N; reflexivity]|]|]; repeat (constructor; auto).
Qed.

Lemma old_bytes : is_bytes old_file.
Proof. apply Forall_forall. intros b I. vm_compute in I. unfold is_byte. repeat (destruct I as [<-|I]; [lia|]). destruct I. Qed.

Lemma old_rewritten : forall c4, rewritten (Env c4 manufacturers) old_file new_file.
Proof.
  intro c4. destruct (old_legal c4) as [L F].
  assert (D : decode (unnamed (Env c4 manufacturers)) old_file = Ok (old_smf c4)) by (destruct c4; vm_compute; reflexivity).
  exists (old_smf c4). assert (E : exists s, decode (Env c4 manufacturers) old_file = Ok s /\ encode s = Ok new_file) by (destruct c4; eexists; (split; [vm_compute; reflexivity|]); vm_compute; reflexivity).
  destruct E as (s & E & W). exists s. split; [exact D|]. split; [exact L|]. split; [exact F|]. split; [exact E|]. split; [exact W|vm_compute; reflexivity].
Qed.

(** The files differ, and their transpositions are the same file. *)
Lemma rewritten_example : is_bytes old_file /\ old_file <> new_file /\ rewritten default_env old_file new_file /\
  disks_rewritten (disk [("a.mid"%string, old_file)]) (disk [("a.mid"%string, new_file)]) /\
  (exists up, r_files (run open_world (disk [("a.mid"%string, old_file)]) (argv ["transpose"; "--semitones=3"; "--out=up.mid"; "a.mid"]%string)) (number (str "up.mid")) = Some up /\
    r_files (run open_world (disk [("a.mid"%string, new_file)]) (argv ["transpose"; "--semitones=3"; "--out=up.mid"; "a.mid"]%string)) (number (str "up.mid")) = Some up).
Proof.
  split; [exact old_bytes|]. split; [vm_compute; discriminate|]. split; [exact (old_rewritten false)|]. split.
  - intro i. unfold disk. cbn [find fst snd]. destruct (i =? number (str "a.mid")); [right|left; reflexivity].
    exists old_file, new_file. split; [reflexivity|]. split; [reflexivity|]. split; [exact old_bytes|exact old_rewritten].
  - eexists. split; vm_compute; reflexivity.
Qed.

(** The message is for manufacturer 43h, whom the built-in table calls Yamaha. *)
Lemma named_example : exists w s, is_bytes old_file /\ decode (unnamed default_env) old_file = Ok w /\ decode default_env old_file = Ok s /\ w <> s /\
  map (fun t => map e_body (t_events t)) (skipn 1 (f_tracks w)) = [[NoteOn 1 (Note 60 (str "C4") (str "C4")) 64; NoteOn 1 (Note 60 (str "C4") (str "C4")) 0; SysExMessage (Manufacturer [67] (str "<unknown>") (str "<unknown>")) [1; 2] true; EndOfTrack]] /\
  map (fun t => map e_body (t_events t)) (skipn 1 (f_tracks s)) = [[NoteOn 1 (Note 60 (str "C4") (str "C4")) 64; NoteOn 1 (Note 60 (str "C4") (str "C4")) 0; SysExMessage (Manufacturer [67] (str "Japanese") (str "Yamaha")) [1; 2] true; EndOfTrack]].
Proof.
  eexists. eexists. split; [exact old_bytes|]. split; [vm_compute; reflexivity|]. split; [vm_compute; reflexivity|]. split; [discriminate|]. split; reflexivity.
Qed.
