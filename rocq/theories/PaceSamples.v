(** * PaceSamples: one song at 96 and at 480 ticks per quarter note (C118). *)
From Coq Require Import Permutation.
From Verif Require Import Base Strings Tables Vlq SpecVlq Event SpecPacket SpecFile SpecHistory Track File ValidateText Transpose Notes Samples CliSamples Cli SpecNames SpecSameSong SameSongSamples ChannelSamples SpecPace.

Lemma two : forall a b, 128 <= a < 256 -> 0 <= b < 128 -> reads [a; b] ((a - 128) * 128 + b).
Proof. intros a b A B. split; [apply vs_more; [lia|]; apply vs_last; lia|]. cbn. lia. Qed.

Lemma chan : forall rs d delta st data l b, reads d delta -> 128 <= st < 240 -> length data = message_length st -> packets st l b -> packets rs ((delta, PChan st data) :: l) ((d ++ st :: data) ++ b).
Proof. intros rs d delta st data l b D S L P. apply ps_cons; [apply (sh_status rs d delta st data); try lia; exact D|exact P]. Qed.
Lemma tempo : forall rs d delta a b c l r, reads d delta -> packets 0 l r -> packets rs ((delta, PMeta 81 [a; b; c]) :: l) ((d ++ [255; 81; 3; a; b; c]) ++ r).
Proof. intros rs d delta a b c l r D P. apply ps_cons; [|exact P]. apply (sh_meta rs d delta 81 [3] [a; b; c]); [exact D|]. apply reads_one. cbn. lia. Qed.

(** The tempo is doubled after 60 ticks; a note of 48 ticks, another one 24 ticks later *)
Definition pace_tempos : list (Z * packet) := [(0, PMeta 81 [7; 161; 32]); (60, PMeta 81 [3; 208; 144]); (0, PMeta 47 [])].
Definition pace_notes : list (Z * packet) := [(0, PChan 145 [60; 64]); (48, PChan 145 [60; 0]); (24, PChan 145 [62; 64]); (48, PChan 145 [62; 0]); (0, PMeta 47 [])].
Definition coarse_tempos : bytes := ([0] ++ [255; 81; 3; 7; 161; 32]) ++ ([60] ++ [255; 81; 3; 3; 208; 144]) ++ [0; 255; 47; 0].
Definition fine_tempos : bytes := ([0] ++ [255; 81; 3; 7; 161; 32]) ++ ([130; 44] ++ [255; 81; 3; 3; 208; 144]) ++ [0; 255; 47; 0].
Definition coarse_notes : bytes := ([0] ++ [145; 60; 64]) ++ ([48] ++ [145; 60; 0]) ++ ([24] ++ [145; 62; 64]) ++ ([48] ++ [145; 62; 0]) ++ [0; 255; 47; 0].
Definition fine_notes : bytes := ([0] ++ [145; 60; 64]) ++ ([129; 112] ++ [145; 60; 0]) ++ ([120] ++ [145; 62; 64]) ++ ([129; 112] ++ [145; 62; 0]) ++ [0; 255; 47; 0].
Definition coarse_header : bytes := [0; 1; 0; 2; 0; 96].
Definition fine_header : bytes := [0; 1; 0; 2; 1; 224].
Definition coarse : bytes := str "MThd" ++ be32 6 ++ coarse_header ++ str "MTrk" ++ be32 18 ++ coarse_tempos ++ str "MTrk" ++ be32 20 ++ coarse_notes.
Definition finer_song : bytes := str "MThd" ++ be32 6 ++ fine_header ++ str "MTrk" ++ be32 19 ++ fine_tempos ++ str "MTrk" ++ be32 22 ++ fine_notes.

Lemma coarse_tempos_read : packets 0 pace_tempos coarse_tempos.
Proof. unfold pace_tempos, coarse_tempos. apply tempo; [apply reads_one; lia|]. apply tempo; [apply reads_one; lia|]. apply the_end. Qed.
Lemma fine_tempos_read : packets 0 (map (fun x => (5 * fst x, snd x)) pace_tempos) fine_tempos.
Proof.
  change (packets 0 [(0, PMeta 81 [7; 161; 32]); (300, PMeta 81 [3; 208; 144]); (0, PMeta 47 [])] fine_tempos). unfold fine_tempos.
  apply tempo; [apply reads_one; lia|]. apply tempo; [apply (two 130 44); lia|]. apply the_end.
Qed.
Lemma coarse_notes_read : packets 0 pace_notes coarse_notes.
Proof. unfold pace_notes, coarse_notes. repeat (apply chan; [apply reads_one; lia|lia|reflexivity|]). apply the_end. Qed.
Lemma fine_notes_read : packets 0 (map (fun x => (5 * fst x, snd x)) pace_notes) fine_notes.
Proof.
  change (packets 0 [(0, PChan 145 [60; 64]); (240, PChan 145 [60; 0]); (120, PChan 145 [62; 64]); (240, PChan 145 [62; 0]); (0, PMeta 47 [])] fine_notes). unfold fine_notes.
  apply chan; [apply reads_one; lia|lia|reflexivity|]. apply chan; [apply (two 129 112); lia|lia|reflexivity|]. apply chan; [apply reads_one; lia|lia|reflexivity|]. apply chan; [apply (two 129 112); lia|lia|reflexivity|].
  apply the_end.
Qed.

(** Files of two tracks *)
Lemma framed : forall h a b la lb, zlen h = 6 -> zlen a = la -> zlen b = lb -> 0 <= la < 256 -> 0 <= lb < 256 ->
  readable [(str "MThd", h); (tag_mtrk, a); (tag_mtrk, b)] ((str "MThd" ++ [0; 0; 0; 6] ++ h) ++ (tag_mtrk ++ [0; 0; 0; la] ++ a) ++ (tag_mtrk ++ [0; 0; 0; lb] ++ b) ++ []).
Proof.
  assert (C : forall tag l3 p, length tag = 4%nat -> 0 <= l3 < 256 -> zlen p = l3 -> chunk_bytes tag p (tag ++ [0; 0; 0; l3] ++ p)).
  { intros [|a [|b [|c [|d [|? ?]]]]] l3 p L; try discriminate L. intros B E. apply chunk_intro; lia. }
  intros h a b la lb H A B LA LB. eexists _, []. split; [symmetry; apply app_nil_r|]. split; [|left; reflexivity].
  apply file_cons; [apply C; [reflexivity|lia|exact H]|]. apply file_cons; [apply C; [reflexivity|lia|exact A]|]. apply file_cons; [apply C; [reflexivity|lia|exact B]|]. apply file_nil.
Qed.

Lemma song_at_480 : song_scaled 5 coarse finer_song.
Proof.
  exists (str "MThd"), coarse_header, fine_header, [(tag_mtrk, coarse_tempos); (tag_mtrk, coarse_notes)], [(tag_mtrk, fine_tempos); (tag_mtrk, fine_notes)].
  split; [exact (framed coarse_header coarse_tempos coarse_notes 18 20 eq_refl eq_refl eq_refl ltac:(lia) ltac:(lia))|].
  split; [exact (framed fine_header fine_tempos fine_notes 19 22 eq_refl eq_refl eq_refl ltac:(lia) ltac:(lia))|].
  split; [exists 0, 1, 0, 2, 0, 96, 1, 224; repeat split; lia|].
  cbn [filter is_mtrk fst]. change (bytes_eqb tag_mtrk tag_mtrk) with true. cbn iota. constructor; [|constructor; [|constructor]]; cbn [snd].
  - exists pace_tempos. split; [exact coarse_tempos_read|]. split; [exact fine_tempos_read|reflexivity].
  - exists pace_notes. split; [exact coarse_notes_read|]. split; [exact fine_notes_read|reflexivity].
Qed.

Lemma coarse_bytes : is_bytes coarse.
Proof. apply Forall_forall. intros b I. vm_compute in I. unfold is_byte. repeat (destruct I as [<-|I]; [lia|]). destruct I. Qed.

(** The same tempos and notes with the resolution left: everything at five times its time *)
Definition slow_song : bytes := str "MThd" ++ be32 6 ++ coarse_header ++ str "MTrk" ++ be32 19 ++ fine_tempos ++ str "MTrk" ++ be32 22 ++ fine_notes.
Lemma song_slow : song_retimed coarse slow_song.
Proof.
  exists (str "MThd", coarse_header), [(tag_mtrk, coarse_tempos); (tag_mtrk, coarse_notes)], [(tag_mtrk, fine_tempos); (tag_mtrk, fine_notes)].
  split; [exact (framed coarse_header coarse_tempos coarse_notes 18 20 eq_refl eq_refl eq_refl ltac:(lia) ltac:(lia))|].
  split; [exact (framed coarse_header fine_tempos fine_notes 19 22 eq_refl eq_refl eq_refl ltac:(lia) ltac:(lia))|].
  cbn [filter is_mtrk fst]. change (bytes_eqb tag_mtrk tag_mtrk) with true. cbn iota. constructor; [|constructor; [|constructor]]; cbn [snd].
  - eexists _, _. split; [exact coarse_tempos_read|]. split; [exact fine_tempos_read|reflexivity].
  - eexists _, _. split; [exact coarse_notes_read|]. split; [exact fine_notes_read|reflexivity].
Qed.

(** Pitch, ticks and times in nanoseconds of a listed note *)
Definition when (n : note_out) : list Z := [o_note n; o_start_tick n; o_end_tick n; o_start n; o_end n].

Lemma pace_example : is_bytes coarse /\ song_scaled 5 coarse finer_song /\
  exists ns ns', (do s <- decode default_env coarse; extract default_env 0 (fun l => l) s) = Ok ns /\ (do s <- decode default_env finer_song; extract default_env 0 (fun l => l) s) = Ok ns' /\
    map when ns = [[60; 0; 48; 0; 250000000]; [62; 72; 120; 313000000; 438000000]] /\
    map when ns' = [[60; 0; 240; 0; 250000000]; [62; 360; 600; 313000000; 438000000]].
Proof.
  split; [exact coarse_bytes|]. split; [exact song_at_480|]. eexists; eexists. split; [vm_compute; reflexivity|]. split; [vm_compute; reflexivity|]. split; vm_compute; reflexivity.
Qed.

Lemma slow_example : song_retimed coarse slow_song /\ exists s s', decode default_env coarse = Ok s /\ decode default_env slow_song = Ok s' /\
  map (fun t => map e_tick (t_events t)) (f_tracks s) = [[0; 60; 60]; [0; 48; 72; 120; 120]] /\ map (fun t => map e_tick (t_events t)) (f_tracks s') = [[0; 300; 300]; [0; 240; 360; 600; 600]].
Proof. split; [exact song_slow|]. eexists; eexists. split; [vm_compute; reflexivity|]. split; [vm_compute; reflexivity|]. split; vm_compute; reflexivity. Qed.
