(** * What the notes command logs: C101 to C103.  Theorems only; proofs in NotesLogProofs.v and NotesLevelProofs.v.

    The maps of pending notes are iterated in random order; [order] is any function that permutes a list. *)
From Coq Require Import Permutation.
From Verif Require Import Base Strings Tables Event SpecHistory Track File SpecTranspose SpecNote Notes SpecNotes Log NotesLog SpecNotesLog NotesLogProofs NotesLevelProofs Samples NotesLogSamples.

(** C101: whatever the events, without --debug there is one line for each start of a note that sounds already, each end of a note that does not sound,
    each note that only the end of the track ends and each note that is never ended, in that order of events; and no other line. *)
Theorem C101_complaints : forall verbose order es, (forall l, Permutation l (order l)) -> notes_in_range es ->
  complaints es (notes_stderr (log_setting false verbose) (note_log order [] es)).
Proof. exact (fun verbose order es => complaints_due (log_setting false verbose) order es (match verbose with true => or_intror eq_refl | false => or_introl eq_refl end)). Qed.
Print Assumptions C101_complaints.

(** C101: nothing is written exactly if each start has an end of its own and each end a start. *)
Theorem C101_silent : forall verbose order es, (forall l, Permutation l (order l)) -> notes_in_range es ->
  (notes_stderr (log_setting false verbose) (note_log order [] es) = [] <-> well_paired (map ne_body es)).
Proof. exact (fun verbose order es => silent_paired (log_setting false verbose) order es (match verbose with true => or_intror eq_refl | false => or_introl eq_refl end)). Qed.
Print Assumptions C101_silent.

(** C101 for files: one part per track after the first one; lines about precision, then the complaints about the note events of the track, in the order of
    the track (unless the 32-bit ticks wrap). *)
Theorem C101_file : forall env steps order verbose r s notes, (forall l, Permutation l (order l)) -> is_bytes r -> decode env r = Ok s ->
  extract env steps order s = Ok notes ->
  exists texts, notes_stderr (log_setting false verbose) (extract_log order s) = concat (map (fun x => fst x ++ snd x) texts) /\
    Forall2 (fun t x => exists es lines, complaints es (snd x) /\
       fst x = concat lines /\ Forall (fun line => exists e, In e (concat (map t_events (f_tracks s))) /\ loss_line (e_tick e) line) lines /\
       (total_delta (t_events t) < 4294967296 -> (forall t0, nth_error (f_tracks s) 0 = Some t0 -> total_delta (t_events t0) < 4294967296) ->
        map (fun e => (ne_tick e, ne_body e)) es = own_notes (t_events t))) (tl (f_tracks s)) texts.
Proof.
  exact (fun env steps order verbose r s notes => file_complaints env steps order (log_setting false verbose) r s notes (match verbose with true => or_intror eq_refl | false => or_introl eq_refl end)).
Qed.
Print Assumptions C101_file.

Example C101_example : exists s notes, decode default_env odd_notes = Ok s /\ extract default_env 0 (@rev nevent) s = Ok notes /\
  notes_stderr (log_setting false true) (extract_log (@rev nevent) s) = odd_text.
Proof. witness. Qed.

Example C101_due_example : due [NoteOff 0 (Note 60 [] []) 0] (Alone 0) /\ due [NoteOn 3 (Note 60 [] []) 1; EndOfTrack] (Unended 0 1) /\ well_paired [NoteOn 3 (Note 60 [] []) 1; NoteOff 3 (Note 60 [] []) 0].
Proof.
  split; [|split].
  - exists (NoteOff 0 (Note 60 [] []) 0), 0, 60. split; [reflexivity|]. split; [discriminate|]. split; [cbn; lia|]. intros (i & L & _). lia.
  - exists 3, 60. split; [|reflexivity]. split; [lia|]. split; [eexists; split; [reflexivity|cbn; lia]|]. split; [intros (i & L & _); lia|].
    split; [eexists; split; [reflexivity|exact I]|]. intros m L. lia.
  - set (es := [NEvent 0 0 0 (NoteOn 3 (Note 60 [] []) 1) false; NEvent 0 0 0 (NoteOff 3 (Note 60 [] []) 0) false]).
    apply (proj1 (C101_silent false (fun l => l) es (fun l => Permutation_refl l) ltac:(repeat constructor; cbn; lia))). reflexivity.
Qed.

(** C102, full statement: a line "loss of precision" at an event exactly if its time is not a whole number of nanoseconds:
      forall r s, decode env r = Ok s -> for each track after the first, the ticks named are those of
        filter (time_lost ppqn) (in_force 50000 (the events of the track and the tempo changes, by tick))
    It is false both ways (below): the code looks at the time times the tempo.  Proved: no line and no loss if the ticks per quarter note divide the
    tempo wherever time passes, and nothing wraps. *)
Theorem C102_even_partial : forall ppqn l tempo, 0 < ppqn -> Forall (fun x => small x /\ (ne_delta (fst x) = 0 \/ (ppqn | snd x))) (in_force tempo l) ->
  timestamps_log tempo ppqn l = [] /\ filter (time_lost ppqn) (in_force tempo l) = [].
Proof. exact no_loss. Qed.
Print Assumptions C102_even_partial.

(** C102 for files: no line and no loss if the ticks per quarter note divide all tempos and 50000. *)
Theorem C102_even_file_partial : forall env order r s h M, is_bytes r -> decode env r = Ok s -> f_mthd s = Some h -> 0 < h_ppqn h -> 50000 <= M -> (h_ppqn h | 50000) ->
  Forall (fun t => Forall (fun e => match e_body e with Tempo t => t <= M /\ (h_ppqn h | t) | _ => True end) (t_events t)) (f_tracks s) ->
  Forall (fun t => Forall (fun e => 1000 * e_delta e * M * (M + 1) < 9223372036854775808) (t_events t)) (f_tracks s) ->
  Forall (fun x => match x with LPrecision _ _ => False | _ => True end) (extract_log order s) /\
  forall t0 t, nth_error (f_tracks s) 0 = Some t0 -> In t (tl (f_tracks s)) ->
    filter (time_lost (h_ppqn h)) (in_force 50000 (sort_ticks (unsorted (t_events t) (tempo_events (t_events t0))))) = [].
Proof. exact file_no_loss. Qed.
Print Assumptions C102_even_file_partial.

Example C102_example : exists s h t0 t1, decode default_env even_notes = Ok s /\ f_mthd s = Some h /\ h_ppqn h = 100 /\ f_tracks s = [t0; t1] /\
  map e_delta (t_events t1) = [0; 7; 0] /\ tempo_list (t_events t0) = [(0, 500000)] /\ notes_stderr Debug (extract_log (@rev nevent) s) = [].
Proof. witness. Qed.

(** Half a second exactly, and a loss of 160 microseconds is reported. *)
Theorem C102_false_alarm_refuted : exists r s t0 t1, decode default_env r = Ok s /\ f_tracks s = [t0; t1] /\
  filter (time_lost 480) (in_force 50000 (sort_ticks (unsorted (t_events t1) (tempo_events (t_events t0))))) = [] /\
  notes_stderr Warn (extract_log (@rev nevent) s) = str "WARN   notes      160  " ++ [194; 181] ++ str "s loss of precision converting from MIDI tick to physical time at tick 480" ++ [10].
Proof. exists exact_notes. witness. Qed.
Print Assumptions C102_false_alarm_refuted.

(** Two thirds of a nanosecond are lost, and nothing is reported. *)
Theorem C102_missed_refuted : exists r s t0 t1, decode default_env r = Ok s /\ f_tracks s = [t0; t1] /\
  map (fun x => (ne_tick (fst x), snd x)) (filter (time_lost 96) (in_force 50000 (sort_ticks (unsorted (t_events t1) (tempo_events (t_events t0)))))) = [(2, 50000)] /\
  notes_stderr Warn (extract_log (@rev nevent) s) = [].
Proof. exists inexact_notes. witness. Qed.
Print Assumptions C102_missed_refuted.

(** C103, full statement: --debug adds lines and changes none, and the lines added are one for each NoteOn and NoteOff event, with the channel in two
    hexadecimal digits ("%02X").  The second half is false (below).  Proved: the lines of warnings are the same with and without --debug and --verbose, and
    every line is one of WARN or of DEBUG. *)
Theorem C103_levels_partial : forall env order verbose verbose' r s, (forall l, Permutation l (order l)) -> is_bytes r -> decode env r = Ok s ->
  lines_with (str "WARN ") (notes_stderr (log_setting true verbose') (extract_log order s)) = text_lines (notes_stderr (log_setting false verbose) (extract_log order s)) /\
  Forall (fun t => begins (str "WARN ") t = true \/ begins (str "DEBUG ") t = true) (text_lines (notes_stderr (log_setting true verbose') (extract_log order s))).
Proof. exact file_levels. Qed.
Print Assumptions C103_levels_partial.

(** C103: the lines that --debug adds are those of the NoteOff events, in the order of the tracks after the first. *)
Theorem C103_note_offs_partial : forall env steps order verbose r s notes, (forall l, Permutation l (order l)) -> is_bytes r -> decode env r = Ok s ->
  extract env steps order s = Ok notes -> Forall (fun t => total_delta (t_events t) < 4294967296) (f_tracks s) ->
  Forall2 (fun e => off_line (e_tick e, e_body e)) (note_offs s) (lines_with (str "DEBUG ") (notes_stderr (log_setting true verbose) (extract_log order s))).
Proof. exact file_offs. Qed.
Print Assumptions C103_note_offs_partial.

Example C103_example : exists s notes, decode default_env odd_notes = Ok s /\ extract default_env 0 (@rev nevent) s = Ok notes /\
  length (note_offs s) = 2%nat /\ lines_with (str "DEBUG ") (notes_stderr (log_setting true false) (extract_log (@rev nevent) s)) = odd_debug /\
  length (text_lines (notes_stderr (log_setting true false) (extract_log (@rev nevent) s))) = 6%nat.
Proof. witness. Qed.

(** Notes are started and ended by NoteOn events only: --debug adds nothing. *)
Theorem C103_note_on_refuted : exists r s t0 t1, decode default_env r = Ok s /\ f_tracks s = [t0; t1] /\
  length (filter (fun e => match e_body e with NoteOn _ _ _ => true | _ => false end) (t_events t1)) = 2%nat /\
  notes_stderr (log_setting true true) (extract_log (@rev nevent) s) = [].
Proof. exists even_notes. witness. Qed.
Print Assumptions C103_note_on_refuted.

(** Channel 10 is written 3130, the hexadecimal codes of the digits 1 and 0. *)
Theorem C103_channel_refuted : exists r s t0 t1, decode default_env r = Ok s /\ f_tracks s = [t0; t1] /\
  map (fun e => match e_body e with NoteOff ch _ _ => ch | _ => -1 end) (note_offs s) = [10] /\
  notes_stderr (log_setting true false) (extract_log (@rev nevent) s) = str "DEBUG  notes      NOTE OFF 3130 3C C4  64  0      0s" ++ [10].
Proof. exists channel_ten. witness. Qed.
Print Assumptions C103_channel_refuted.
