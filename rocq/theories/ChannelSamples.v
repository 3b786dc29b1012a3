(** * ChannelSamples: one song on channels 1 and 9, and with the two exchanged (C117). *)
From Coq Require Import Permutation.
From Verif Require Import Base Strings Tables Vlq SpecVlq Event SpecPacket SpecFile SpecHistory Track File Transpose Notes Samples CliSamples Cli SpecSameSong SameSongSamples SpecChannels.

Definition swap (c : Z) : Z := if c =? 1 then 9 else if c =? 9 then 1 else c.
Lemma swap_rearranges : rearranges swap.
Proof. split; [intros c C|intros c d C D]; unfold swap; repeat match goal with |- context [if ?b then _ else _] => destruct b eqn:? end; lia. Qed.

Definition duo_packets : list (Z * packet) :=
  [(0, PChan 177 [0; 3]); (0, PChan 193 [5]); (0, PChan 145 [60; 64]); (0, PChan 153 [60; 80]); (48, PChan 153 [60; 0]); (48, PChan 145 [60; 0]); (0, PMeta 47 [])].
(** A bank, a program and a note on channel 1, the same note on channel 9 meanwhile, all status bytes written *)
Definition duo_track : bytes := [0; 177; 0; 3] ++ [0; 193; 5] ++ [0; 145; 60; 64] ++ [0; 153; 60; 80] ++ [48; 153; 60; 0] ++ [48; 145; 60; 0] ++ [0; 255; 47; 0].
(** The channels exchanged, with running status *)
Definition other_track : bytes := [0; 185; 0; 3] ++ [0; 201; 5] ++ [0; 153; 60; 64] ++ [0; 145; 60; 80] ++ [48; 60; 0] ++ [48; 153; 60; 0] ++ [0; 255; 47; 0].
Definition duo : bytes := str "MThd" ++ be32 6 ++ song_header ++ str "MTrk" ++ be32 11 ++ song_tempo ++ str "MTrk" ++ be32 27 ++ duo_track.
Definition other : bytes := str "MThd" ++ be32 6 ++ song_header ++ str "MTrk" ++ be32 11 ++ song_tempo ++ str "MTrk" ++ be32 26 ++ other_track.

Lemma one : forall rs d st data l b, 0 <= d < 128 -> 128 <= st < 240 -> length data = message_length st -> packets st l b -> packets rs ((d, PChan st data) :: l) ((d :: st :: data) ++ b).
Proof.
  intros rs d st data l b D S L P. apply ps_cons; [apply (sh_status rs [d] d st data); try lia; apply reads_one, D|].
  cbn [status_after]. replace (st <? 240) with true by lia. exact P.
Qed.
Lemma again : forall rs d data l b, 0 <= d < 128 -> 128 <= rs < 240 -> length data = message_length rs -> data <> [] -> hd 0 data < 128 -> packets rs l b -> packets rs ((d, PChan rs data) :: l) ((d :: data) ++ b).
Proof.
  intros rs d data l b D S L N H P. apply ps_cons; [apply (sh_running rs [d] d data); try assumption; apply reads_one, D|].
  cbn [status_after]. replace (rs <? 240) with true by lia. exact P.
Qed.
Lemma the_end : forall rs, packets rs [(0, PMeta 47 [])] [0; 255; 47; 0].
Proof. intro rs. apply (ps_cons rs 0 (PMeta 47 []) _ [0; 255; 47; 0] []); [|apply ps_nil]. apply (sh_meta rs [0] 0 47 [0] []); apply reads_one; cbn; lia. Qed.

Lemma duo_moved : track_moved swap duo_track other_track.
Proof.
  exists duo_packets. split.
  - unfold duo_packets, duo_track. repeat (apply one; [lia|lia|reflexivity|]). apply the_end.
  - change (packets 0 [(0, PChan 185 [0; 3]); (0, PChan 201 [5]); (0, PChan 153 [60; 64]); (0, PChan 145 [60; 80]); (48, PChan 145 [60; 0]); (48, PChan 153 [60; 0]); (0, PMeta 47 [])] other_track).
    unfold other_track. do 4 (apply one; [lia|lia|reflexivity|]). apply again; [lia|lia|reflexivity|discriminate|cbn; lia|]. apply one; [lia|lia|reflexivity|]. apply the_end.
Qed.

Lemma tempo_moved : track_moved swap song_tempo song_tempo.
Proof.
  exists [(0, PMeta 81 [7; 161; 32]); (0, PMeta 47 [])].
  assert (P : packets 0 [(0, PMeta 81 [7; 161; 32]); (0, PMeta 47 [])] song_tempo).
  { apply (ps_cons 0 0 (PMeta 81 [7; 161; 32]) _ [0; 255; 81; 3; 7; 161; 32] [0; 255; 47; 0]); [|apply the_end]. apply (sh_meta 0 [0] 0 81 [3] [7; 161; 32]); apply reads_one; cbn; lia. }
  split; exact P.
Qed.

Lemma duo_song : song_moved swap duo other.
Proof.
  exists (str "MThd", song_header), [(tag_mtrk, song_tempo); (tag_mtrk, duo_track)], [(tag_mtrk, song_tempo); (tag_mtrk, other_track)].
  assert (C : forall tag l0 l1 l2 l3 p, length tag = 4%nat -> 0 <= l0 < 256 -> 0 <= l1 < 256 -> 0 <= l2 < 256 -> 0 <= l3 < 256 ->
    l0 * 16777216 + l1 * 65536 + l2 * 256 + l3 = zlen p -> chunk_bytes tag p (tag ++ [l0; l1; l2; l3] ++ p)).
  { intros [|a [|b [|c [|d [|? ?]]]]] l0 l1 l2 l3 p L; try discriminate L. intros. apply chunk_intro; assumption. }
  assert (H : forall tag l3 p items r, length tag = 4%nat -> 0 <= l3 < 256 -> l3 = zlen p -> file_bytes items r -> file_bytes ((tag, p) :: items) ((tag ++ [0; 0; 0; l3] ++ p) ++ r)).
  { intros tag l3 p items r L B E F. apply file_cons; [|exact F]. apply C; try lia; exact L. }
  split; [|split].
  - exists duo, []. split; [symmetry; apply app_nil_r|]. split; [|left; reflexivity].
    change duo with ((str "MThd" ++ [0; 0; 0; 6] ++ song_header) ++ (tag_mtrk ++ [0; 0; 0; 11] ++ song_tempo) ++ (tag_mtrk ++ [0; 0; 0; 27] ++ duo_track) ++ []).
    apply (H (str "MThd") 6 song_header); [reflexivity|lia|reflexivity|]. apply (H tag_mtrk 11 song_tempo); [reflexivity|lia|reflexivity|].
    apply (H tag_mtrk 27 duo_track); [reflexivity|lia|reflexivity|apply file_nil].
  - exists other, []. split; [symmetry; apply app_nil_r|]. split; [|left; reflexivity].
    change other with ((str "MThd" ++ [0; 0; 0; 6] ++ song_header) ++ (tag_mtrk ++ [0; 0; 0; 11] ++ song_tempo) ++ (tag_mtrk ++ [0; 0; 0; 26] ++ other_track) ++ []).
    apply (H (str "MThd") 6 song_header); [reflexivity|lia|reflexivity|]. apply (H tag_mtrk 11 song_tempo); [reflexivity|lia|reflexivity|].
    apply (H tag_mtrk 26 other_track); [reflexivity|lia|reflexivity|apply file_nil].
  - cbn [filter is_mtrk fst]. change (bytes_eqb tag_mtrk tag_mtrk) with true. cbn iota. constructor; [|constructor; [|constructor]]; cbn [snd]; [exact tempo_moved|exact duo_moved].
Qed.

Lemma duo_bytes : is_bytes duo.
Proof. apply Forall_forall. intros b I. vm_compute in I. unfold is_byte. repeat (destruct I as [<-|I]; [lia|]). destruct I. Qed.

(** The channel, number and velocity of a listed note, and its first and last tick *)
Definition brief (n : note_out) : list Z := [o_ch n; o_note n; o_vel n; o_start_tick n; o_end_tick n].

(** Both notes are listed with their own velocities and ends, and the program is given with the bank; transposed alike. *)
Lemma duo_example : rearranges swap /\ is_bytes duo /\ song_moved swap duo other /\
  exists s s', decode default_env duo = Ok s /\ decode default_env other = Ok s' /\
    (exists t t', nth_error (f_tracks s) 1%nat = Some t /\ nth_error (f_tracks s') 1%nat = Some t' /\ nth_error (map e_body (t_events t)) 1%nat = Some (ProgramChange 1 384 5) /\ nth_error (map e_body (t_events t')) 1%nat = Some (ProgramChange 9 384 5)) /\
    (exists u, transpose_smf default_env 3 s = Ok u) /\
    exists ns ns', extract default_env 0 (fun l => l) s = Ok ns /\ extract default_env 0 (fun l => l) s' = Ok ns' /\
      map brief ns = [[9; 60; 80; 0; 48]; [1; 60; 64; 0; 96]] /\
      map brief ns' = [[1; 60; 80; 0; 48]; [9; 60; 64; 0; 96]].
Proof.
  split; [exact swap_rearranges|]. split; [exact duo_bytes|]. split; [exact duo_song|].
  eexists; eexists. split; [vm_compute; reflexivity|]. split; [vm_compute; reflexivity|]. split.
  - eexists; eexists. split; [reflexivity|]. split; [reflexivity|]. split; vm_compute; reflexivity.
  - split; [eexists; vm_compute; reflexivity|]. eexists; eexists. split; [vm_compute; reflexivity|]. split; [vm_compute; reflexivity|]. split; vm_compute; reflexivity.
Qed.
