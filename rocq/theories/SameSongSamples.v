(** * SameSongSamples: one song in two files (C114). *)
From Verif Require Import Base Strings Tables Vlq SpecVlq Event SpecPacket SpecFile SpecHistory Track File Samples CliSamples Cli SpecSameSong.

Definition song_header : bytes := [0; 1; 0; 2; 0; 96].
Definition song_tempo : bytes := [0; 255; 81; 3; 7; 161; 32; 0; 255; 47; 0].
(** A note, on and off, with all status bytes ... *)
Definition song_notes : bytes := [0; 145; 60; 64; 96; 145; 60; 0; 0; 255; 47; 0].
(** ... and with running status and longer numbers *)
Definition song_notes_short : bytes := [128; 0; 145; 60; 64; 96; 60; 0; 0; 255; 47; 128; 128; 0].
(** Both files have half a message after the end of the track. *)
Definition song : bytes := str "MThd" ++ be32 6 ++ song_header ++ str "MTrk" ++ be32 11 ++ song_tempo ++ str "MTrk" ++ be32 14 ++ song_notes ++ [5; 255].
(** The second file has a chunk of another kind between the tracks. *)
Definition song_short : bytes := str "MThd" ++ be32 6 ++ song_header ++ str "MTrk" ++ be32 11 ++ song_tempo ++ str "XFIH" ++ be32 2 ++ [77; 84] ++ str "MTrk" ++ be32 16 ++ song_notes_short ++ [5; 255].

Definition song_packets : list (Z * packet) := [(0, PChan 145 [60; 64]); (96, PChan 145 [60; 0]); (0, PMeta 47 [])].

Lemma reads_one : forall b, 0 <= b < 128 -> reads [b] b.
Proof. intros b H. split; [apply vs_last, H|]. cbn. lia. Qed.

Lemma song_read_long : packets 0 song_packets song_notes.
Proof.
  apply (ps_cons 0 0 (PChan 145 [60; 64]) _ [0; 145; 60; 64] [96; 145; 60; 0; 0; 255; 47; 0]).
  { apply (sh_status 0 [0] 0 145 [60; 64]); try lia; [apply reads_one; lia|reflexivity]. }
  apply (ps_cons 145 96 (PChan 145 [60; 0]) _ [96; 145; 60; 0] [0; 255; 47; 0]).
  { apply (sh_status 145 [96] 96 145 [60; 0]); try lia; [apply reads_one; lia|reflexivity]. }
  apply (ps_cons 145 0 (PMeta 47 []) _ [0; 255; 47; 0] []); [|apply ps_nil].
  apply (sh_meta 145 [0] 0 47 [0] []); apply reads_one; cbn; lia.
Qed.

Lemma song_read_short : packets 0 song_packets song_notes_short.
Proof.
  apply (ps_cons 0 0 (PChan 145 [60; 64]) _ [128; 0; 145; 60; 64] [96; 60; 0; 0; 255; 47; 128; 128; 0]).
  { apply (sh_status 0 [128; 0] 0 145 [60; 64]); try lia; [split; [apply vs_more; [lia|]; apply vs_last; lia|reflexivity]|reflexivity]. }
  apply (ps_cons 145 96 (PChan 145 [60; 0]) _ [96; 60; 0] [0; 255; 47; 128; 128; 0]).
  { apply (sh_running 145 [96] 96 [60; 0]); try lia; [apply reads_one; lia|reflexivity|discriminate|cbn; lia]. }
  apply (ps_cons 145 0 (PMeta 47 []) _ [0; 255; 47; 128; 128; 0] []); [|apply ps_nil].
  apply (sh_meta 145 [0] 0 47 [128; 128; 0] []); [apply reads_one; lia|]. split; [apply vs_more; [lia|]; apply vs_more; [lia|]; apply vs_last; lia|reflexivity].
Qed.

Lemma song_same : same_song song song_short.
Proof.
  exists (str "MThd", song_header), [(tag_mtrk, song_tempo); (tag_mtrk, song_notes ++ [5; 255])], [(tag_mtrk, song_tempo); (str "XFIH", [77; 84]); (tag_mtrk, song_notes_short ++ [5; 255])].
  assert (C : forall tag l0 l1 l2 l3 p, length tag = 4%nat -> 0 <= l0 < 256 -> 0 <= l1 < 256 -> 0 <= l2 < 256 -> 0 <= l3 < 256 ->
    l0 * 16777216 + l1 * 65536 + l2 * 256 + l3 = zlen p -> chunk_bytes tag p (tag ++ [l0; l1; l2; l3] ++ p)).
  { intros [|a [|b [|c [|d [|? ?]]]]] l0 l1 l2 l3 p L; try discriminate L. intros. apply chunk_intro; assumption. }
  assert (H : forall tag l3 p items r, length tag = 4%nat -> 0 <= l3 < 256 -> l3 = zlen p -> file_bytes items r -> file_bytes ((tag, p) :: items) ((tag ++ [0; 0; 0; l3] ++ p) ++ r)).
  { intros tag l3 p items r L B E F. apply file_cons; [|exact F]. apply C; try lia; exact L. }
  split; [|split].
  - exists song, []. split; [symmetry; apply app_nil_r|]. split; [|left; reflexivity].
    change song with ((str "MThd" ++ [0; 0; 0; 6] ++ song_header) ++ (tag_mtrk ++ [0; 0; 0; 11] ++ song_tempo) ++ (tag_mtrk ++ [0; 0; 0; 14] ++ song_notes ++ [5; 255]) ++ []).
    apply (H (str "MThd") 6 song_header); [reflexivity|lia|reflexivity|]. apply (H tag_mtrk 11 song_tempo); [reflexivity|lia|reflexivity|].
    apply (H tag_mtrk 14 (song_notes ++ [5; 255])); [reflexivity|lia|reflexivity|apply file_nil].
  - exists song_short, []. split; [symmetry; apply app_nil_r|]. split; [|left; reflexivity].
    change song_short with ((str "MThd" ++ [0; 0; 0; 6] ++ song_header) ++ (tag_mtrk ++ [0; 0; 0; 11] ++ song_tempo) ++ (str "XFIH" ++ [0; 0; 0; 2] ++ [77; 84]) ++ (tag_mtrk ++ [0; 0; 0; 16] ++ song_notes_short ++ [5; 255]) ++ []).
    apply (H (str "MThd") 6 song_header); [reflexivity|lia|reflexivity|]. apply (H tag_mtrk 11 song_tempo); [reflexivity|lia|reflexivity|]. apply (H (str "XFIH") 2 [77; 84]); [reflexivity|lia|reflexivity|].
    apply (H tag_mtrk 16 (song_notes_short ++ [5; 255])); [reflexivity|lia|reflexivity|apply file_nil].
  - cbn [filter is_mtrk fst]. change (bytes_eqb tag_mtrk tag_mtrk) with true. change (bytes_eqb (str "XFIH") tag_mtrk) with false. cbn iota. constructor; [|constructor; [|constructor]]; cbn [snd].
    + exists [], [], [], song_tempo. repeat split; constructor.
    + exists song_packets, song_notes, song_notes_short, [5; 255]. repeat split; [exact song_read_long|exact song_read_short].
Qed.

(** Both files are read, they differ, and their transpositions are the same file. *)
Lemma song_example : song <> song_short /\ same_song song song_short /\ (exists s, decode default_env song = Ok s) /\
  same_disks (disk [("a.mid"%string, song)]) (disk [("a.mid"%string, song_short)]) /\
  exists up, r_files (run open_world (disk [("a.mid"%string, song)]) (argv ["transpose"; "--semitones=3"; "--out=up.mid"; "a.mid"]%string)) (number (str "up.mid")) = Some up /\
    r_files (run open_world (disk [("a.mid"%string, song_short)]) (argv ["transpose"; "--semitones=3"; "--out=up.mid"; "a.mid"]%string)) (number (str "up.mid")) = Some up.
Proof.
  split; [vm_compute; discriminate|]. split; [exact song_same|]. split; [eexists; vm_compute; reflexivity|]. split.
  - intro i. unfold disk. cbn [find fst snd]. destruct (i =? number (str "a.mid")); [right|left; reflexivity]. exists song, song_short. split; [reflexivity|]. split; [reflexivity|exact song_same].
  - eexists. split; vm_compute; reflexivity.
Qed.
