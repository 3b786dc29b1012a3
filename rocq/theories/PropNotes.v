(** * Notes and click track: C39 to C42.  Theorems only; proofs in NotesProofs.v and NotesTimeProofs.v.

    The maps of pending notes are iterated in random order; [order] is any function that permutes a list. *)
From Coq Require Import Permutation.
From Verif Require Import Base Strings Tables Event SpecHistory Track File SpecTranspose SpecNote Notes SpecNotes NotesProofs NotesTimeProofs Samples.

(** A file for the examples: two notes on one channel, the second one ended by the end of the track. *)
Definition two_notes : bytes :=
  sample_header ++ sample_track [0; 255; 81; 3; 7; 161; 32;  131; 96; 255; 81; 3; 15; 66; 64;  0; 255; 47; 0] ++
  sample_track [0; 144; 60; 100;  0; 144; 60; 50;  131; 96; 144; 60; 0;  0; 144; 64; 70;  131; 96; 255; 47; 0].
(** The same notes in a file of format 0. *)
Definition single_notes : bytes :=
  single_header ++ sample_track [0; 144; 60; 100;  131; 96; 144; 60; 0;  0; 255; 47; 0].

(** C39: whatever the events, the notes listed are those that sound ([sounds]), each once. *)
Theorem C39_notes_paired : forall env steps order es,
  (forall l, Permutation l (order l)) -> notes_in_range es -> reasonable steps ->
  exists ns, note_list env steps order [] es = Ok ns /\ lists_notes env steps es ns.
Proof.
  exact (fun env steps order es Ho R S => match notes_paired env steps order es Ho R S with
    ex_intro _ ns (ex_intro _ ps (conj E (conj F (conj D P)))) => ex_intro _ ns (conj E (ex_intro _ ps (conj D (conj F P)))) end).
Qed.
Print Assumptions C39_notes_paired.

(** C39 for files: the listing has one part per track after the first one; each part lists the notes that
    sound among the note events of the track, in the order of the track.  (Without the bounds on the sums of
    the delta times the 32-bit ticks wrap, and the events are sorted by the wrapped ticks.) *)
Theorem C39_file_notes : forall env steps order r s notes,
  (forall l, Permutation l (order l)) -> reasonable steps -> is_bytes r -> decode env r = Ok s ->
  extract env steps order s = Ok notes ->
  exists nss, notes = concat nss /\
    Forall2 (fun t ns => exists es, lists_notes env steps es ns /\ ascending 0 (map ne_tick es) /\
       (total_delta (t_events t) < 4294967296 -> (forall t0, nth_error (f_tracks s) 0 = Some t0 -> total_delta (t_events t0) < 4294967296) ->
        map (fun e => (ne_tick e, ne_body e)) es = own_notes (t_events t))) (tl (f_tracks s)) nss.
Proof. exact extracted_notes. Qed.
Print Assumptions C39_file_notes.

(** C39: no note ends before it starts, in ticks and in time, and its duration is the difference. *)
Theorem C39_note_order : forall env steps order track tm ppqn M es ns,
  (forall l, Permutation l (order l)) -> reasonable steps ->
  0 < ppqn -> 50000 <= M -> tempos_within M (track ++ tm) -> Forall (fun e => 0 <= e_delta e) track -> Forall (fun e => 0 <= e_tick e) (track ++ tm) ->
  1000 * total_delta track * M < 9000000000000000000 -> notes_in_range es ->
  build_track_events track tm ppqn = Ok es -> note_list env steps order [] es = Ok ns ->
  Forall (fun o => 0 <= o_start_tick o <= o_end_tick o /\ 0 <= o_start o <= o_end o /\ o_duration o = o_end o - o_start o) ns.
Proof. exact note_order. Qed.
Print Assumptions C39_note_order.

Example C39_example : exists s notes, decode default_env two_notes = Ok s /\ extract default_env 12 (@rev nevent) s = Ok notes /\
  map (fun o => (o_ch o, o_note o, o_vel o, o_start_tick o, o_end_tick o)) notes = [(0, 72, 100, 0, 480); (0, 76, 70, 480, 960)].
Proof. witness. Qed.

Example C39_order_example : exists s t0 t1 es ns, decode default_env two_notes = Ok s /\ f_tracks s = [t0; t1] /\
  build_track_events (t_events t1) (tempo_events (t_events t0)) 480 = Ok es /\ note_list default_env 0 (@rev nevent) [] es = Ok ns /\
  total_delta (t_events t1) = 960 /\ map (fun o => (o_start o, o_end o)) ns = [(0, 500000000); (500000000, 1500000000)].
Proof. witness. Qed.

(** C40, full statement: for every decoded file and every note event of a track but the first,
      |ne_at e * ppqn - ideal_time (tempo_list track0) (ne_tick e)| <= 500000 * ppqn (half a millisecond)
    It is false in two ways (below).  Proved: it holds, up to a nanosecond per event of the track, if there is a
    tempo at the start, and each tempo change is at the start or at an event of the track. *)
Theorem C40_note_times_partial : forall track track0 ppqn es,
  0 < ppqn -> ticks_from 0 track -> no_tempo track ->
  ascending 0 (map fst (tempo_list track0)) -> Forall (fun x => 0 <= snd x) (tempo_list track0) ->
  (exists t, In (0, t) (tempo_list track0)) -> aligned (tempo_list track0) track ->
  (forall e, In e track -> ideal_time (tempo_list track0) (Z.to_nat (e_tick e)) < 9000000000000000000) ->
  build_track_events track (tempo_events track0) ppqn = Ok es ->
  Forall (fun e => Z.abs (ne_at e * ppqn - ideal_time (tempo_list track0) (Z.to_nat (ne_tick e))) <= (500000 + zlen track) * ppqn) es.
Proof. exact note_times. Qed.
Print Assumptions C40_note_times_partial.

Example C40_example : exists s t0 t1 es, decode default_env two_notes = Ok s /\ f_tracks s = [t0; t1] /\
  build_track_events (t_events t1) (tempo_events (t_events t0)) 480 = Ok es /\
  tempo_list (t_events t0) = [(0, 500000); (480, 1000000)] /\ map e_tick (t_events t1) = [0; 0; 480; 480; 960] /\
  map ne_at es = [0; 0; 500000000; 500000000; 1500000000].
Proof. witness. Qed.

(** Without a tempo event the file is played ten times too fast: 50000 instead of 500000 microseconds. *)
Theorem C40_default_tempo_refuted : exists r s t0 t1 es e, decode default_env r = Ok s /\ f_tracks s = [t0; t1] /\ tempo_list (t_events t0) = [] /\
  build_track_events (t_events t1) (tempo_events (t_events t0)) 480 = Ok es /\ nth_error es 1 = Some e /\
  ne_tick e = 480 /\ ideal_time [] 480%nat = 500000000 * 480 /\ ne_at e = 50000000.
Proof. exists (sample_header ++ sample_track [0; 255; 47; 0] ++ sample_track [0; 144; 60; 100;  131; 96; 144; 60; 0;  0; 255; 47; 0]). witness. Qed.
Print Assumptions C40_default_tempo_refuted.

(** A tempo change between two events of the track counts from the event before it on. *)
Theorem C40_tempo_change_refuted : exists r s t0 t1 es e, decode default_env r = Ok s /\ f_tracks s = [t0; t1] /\
  tempo_list (t_events t0) = [(0, 500000); (240, 1000000)] /\
  build_track_events (t_events t1) (tempo_events (t_events t0)) 480 = Ok es /\ nth_error es 1 = Some e /\
  ne_tick e = 480 /\ ideal_time (tempo_list (t_events t0)) 480%nat = 750000000 * 480 /\ ne_at e = 1000000000.
Proof.
  exists (sample_header ++ sample_track [0; 255; 81; 3; 7; 161; 32;  129; 112; 255; 81; 3; 15; 66; 64;  0; 255; 47; 0] ++
    sample_track [0; 144; 60; 100;  131; 96; 144; 60; 0;  0; 255; 47; 0]). witness.
Qed.
Print Assumptions C40_tempo_change_refuted.

(** C41, full statement:
      forall r s, decode env r = Ok s -> exists notes, extract env steps order s = Ok notes /\ (the notes of every track are listed)
    False: see the refutations.  Proved: the exact outcome for every decoded file. *)
Theorem C41_extract_outcome_partial : forall env steps order r s h,
  (forall l, Permutation l (order l)) -> reasonable steps -> is_bytes r -> decode env r = Ok s -> f_mthd s = Some h ->
  match f_tracks s with
  | [] => extract env steps order s = Panic
  | [_] => extract env steps order s = Ok []
  | t0 :: ts =>
      if (h_ppqn h =? 0) && (existsb (fun e => match e_body e with Tempo _ => true | _ => false end) (t_events t0) || existsb (fun t => negb (zlen (t_events t) =? 0)) ts)
      then extract env steps order s = Panic
      else exists notes, extract env steps order s = Ok notes
  end.
Proof. exact extract_outcome. Qed.
Print Assumptions C41_extract_outcome_partial.

Example C41_example : exists s h, decode default_env two_notes = Ok s /\ f_mthd s = Some h /\ h_ppqn h = 480 /\ length (f_tracks s) = 2%nat.
Proof. witness. Qed.

(** A file without tracks; a file with SMPTE timing (-25 frames, 40 subframes). *)
Theorem C41_panics_refuted :
  (exists r s, decode default_env r = Ok s /\ f_tracks s = [] /\ extract default_env 0 (fun l => l) s = Panic) /\
  (exists r s, decode default_env r = Ok s /\ length (f_tracks s) = 2%nat /\ extract default_env 0 (fun l => l) s = Panic).
Proof.
  split.
  - exists [77; 84; 104; 100; 0; 0; 0; 6; 0; 1; 0; 0; 1; 224]. witness.
  - exists ([77; 84; 104; 100; 0; 0; 0; 6; 0; 1; 0; 2; 231; 40] ++ sample_track sample_body0 ++ sample_track sample_body1). witness.
Qed.
Print Assumptions C41_panics_refuted.

(** The notes of a file of format 0 are never listed. *)
Theorem C41_format0_refuted : exists r s t, decode default_env r = Ok s /\ f_tracks s = [t] /\
  (exists ch k i j, sounds (map e_body (t_events t)) ch k i j) /\ extract default_env 0 (fun l => l) s = Ok [].
Proof.
  exists single_notes. eexists. eexists. split; [vm_compute; reflexivity|]. split; [reflexivity|]. split; [|reflexivity].
  exists 0, 60, 0%nat, 1%nat. split; [lia|]. split; [eexists; split; [reflexivity|]; cbn; lia|].
  split; [intros (i & L & _); lia|]. split; [eexists; split; [reflexivity|]; cbn; lia|]. intros m L. lia.
Qed.
Print Assumptions C41_format0_refuted.

(** C42, full statement: a file with tempo, time signature and notes has at least one beat.  It is false for every
    file: the click command writes nothing, or panics for a file without tracks. *)
Theorem C42_click_outcome_partial : forall env r s, decode env r = Ok s ->
  click_lines s = match f_tracks s with [] => Panic | _ => Ok 0%nat end.
Proof. exact click_empty. Qed.
Print Assumptions C42_click_outcome_partial.

Theorem C42_click_refuted : exists r s t0 t1, decode default_env r = Ok s /\ f_tracks s = [t0; t1] /\
  map e_body (t_events t0) = [Tempo 500000; TimeSignature 4 4 24 8; EndOfTrack] /\
  length (t_events t1) = 11%nat /\ click_lines s = Ok 0%nat.
Proof.
  exists (sample_header ++ sample_track [0; 255; 81; 3; 7; 161; 32;  0; 255; 88; 4; 4; 2; 24; 8;  0; 255; 47; 0] ++ sample_track sample_body1). witness.
Qed.
Print Assumptions C42_click_refuted.
