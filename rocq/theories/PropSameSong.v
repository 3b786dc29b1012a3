(** * Files with the same messages: C114.  Theorems only; proofs in SameSongProofs.v. *)
From Verif Require Import Base Strings Tables Event Parse Track File JsonText ValidateText Transpose Notes Tsv Cli CliSamples Samples SpecHistory SpecNames SpecSameSong SameSongProofs SameSongSamples.

(** C114, tracks: bodies with the same messages, written with or without running status, with numbers of whatever length, and the same bytes after them, are read
    alike: the same events, but for the bytes kept with each, the same context at the end, or the same failure. *)
Theorem C114_track : forall env b b', same_track b b' -> without_bytes (decode_events env new_context b) = without_bytes (decode_events env new_context b').
Proof. exact same_track_read. Qed.
Print Assumptions C114_track.

(** Files: in addition, chunks of other kinds and an unfinished chunk at the end may differ. *)
Theorem C114_file : forall env r r', same_song r r' -> alike same_reading (decode env r) (decode env r').
Proof. exact song_read. Qed.
Print Assumptions C114_file.

(** What the program makes of files read alike is the same, byte for byte. *)
Theorem C114_used : forall s s', same_reading s s' ->
  encode s = encode s' /\ export_text s = export_text s' /\ tsv_export s = tsv_export s' /\ click_lines s = click_lines s' /\ validation_warning s = validation_warning s' /\
  (forall env n, transpose_execute env n s = transpose_execute env n s') /\ (forall env n order, extract env n order s = extract env n order s').
Proof. exact song_used. Qed.
Print Assumptions C114_used.

(** Runs: every run of a command other than disassemble and assemble, whatever its arguments. *)
Theorem C114_runs : forall w d d' n args, same_disks d d' -> In n (map str ["transpose"; "notes"; "click"; "export"; "tsv"; "humanise"]%string) ->
  same_run (run w d (n :: args)) (run w d' (n :: args)).
Proof. exact song_runs. Qed.
Print Assumptions C114_runs.

Example C114_example : song <> song_short /\ same_song song song_short /\ (exists s, decode default_env song = Ok s) /\
  same_disks (disk [("a.mid"%string, song)]) (disk [("a.mid"%string, song_short)]) /\
  exists up, r_files (run open_world (disk [("a.mid"%string, song)]) (argv ["transpose"; "--semitones=3"; "--out=up.mid"; "a.mid"]%string)) (number (str "up.mid")) = Some up /\
    r_files (run open_world (disk [("a.mid"%string, song_short)]) (argv ["transpose"; "--semitones=3"; "--out=up.mid"; "a.mid"]%string)) (number (str "up.mid")) = Some up.
Proof. exact song_example. Qed.
