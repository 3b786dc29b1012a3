(** * What transposing keeps: C91, C92.  Theorems only; proofs in SameNotesProofs.v and SameReportsProofs.v. *)
From Coq Require Import Permutation.
From Verif Require Import Base Strings Tables Event SpecEvent Track File SpecTrack Transpose SpecTranspose Notes Validate SpecSameNotes SpecSameReports SameNotesProofs SameReportsProofs Samples SampleProofs SameSamples.

(** C91, full statement: the notes of the file that transpose writes for n semitones, listed with --transpose m, are those of the original listed with --transpose n + m: the same channels,
    pitches, velocities, ticks and times.  False as shown below; missing: notes that leave 0..127 ([fits], SpecTranspose.v), the limits of C24. *)
Theorem C91_transposed_partial : forall env order order' n m r s bs s2 notes, (forall l, Permutation l (order l)) -> (forall l, Permutation l (order' l)) -> reasonable n -> reasonable m -> reasonable (n + m) ->
  is_bytes r -> decode env r = Ok s -> legal_smf s -> Forall (fun t => faithful_events env (t_events t)) (f_tracks s) -> Forall (Forall (fun x => fits n (snd x))) (smf_contents s) ->
  transpose_execute env n s = Ok bs -> zlen bs < 4294967296 -> decode env bs = Ok s2 -> extract env (n + m) order s = Ok notes ->
  exists notes', extract env m order' s2 = Ok notes' /\ same_notes notes notes'.
Proof. exact transposed_notes. Qed.
Print Assumptions C91_transposed_partial.

(** C91 for any two files with the same contents but for the pitch of notes and the keys. *)
Theorem C91_moved_partial : forall env order order' n m r r' s s' h h' notes, (forall l, Permutation l (order l)) -> (forall l, Permutation l (order' l)) -> reasonable m -> reasonable (n + m) ->
  is_bytes r -> is_bytes r' -> decode env r = Ok s -> decode env r' = Ok s' -> f_mthd s = Some h -> f_mthd s' = Some h' -> h_division h' = h_division h ->
  moved_contents n (smf_contents s) (smf_contents s') -> Forall (Forall (fun x => fits n (snd x))) (smf_contents s) ->
  extract env (n + m) order s = Ok notes -> exists notes', extract env m order' s' = Ok notes' /\ same_notes notes notes'.
Proof. exact notes_moved. Qed.
Print Assumptions C91_moved_partial.

(** Notes 60 and 64 up by 5. *)
Example C91_example : exists bs s2 notes, decode default_env sample_file = Ok sample_smf /\ legal_smf sample_smf /\
  Forall (fun t => faithful_events default_env (t_events t)) (f_tracks sample_smf) /\ Forall (Forall (fun x => fits 5 (snd x))) (smf_contents sample_smf) /\
  transpose_execute default_env 5 sample_smf = Ok bs /\ zlen bs < 4294967296 /\ decode default_env bs = Ok s2 /\ extract default_env (5 + 0) (fun l => l) sample_smf = Ok notes /\
  map unnamed notes = [(0, 65, 100, (0, 336), (0, 350000000, 350000000)); (0, 69, 90, (240, 816), (250000000, 850000000, 600000000))].
Proof. exact sample_moved. Qed.

(** Finding: notes limited to 127 by transpose fall together, so that one of them is lost to notes, which itself does not limit to 127. *)
Theorem C91_limited_refuted : exists r s bs s2 notes notes', decode default_env r = Ok s /\ transpose_execute default_env 5 s = Ok bs /\ decode default_env bs = Ok s2 /\
  extract default_env 5 (fun l => l) s = Ok notes /\ extract default_env 0 (fun l => l) s2 = Ok notes' /\
  map unnamed notes = [(0, 131, 64, (0, 96), (0, 100000000, 100000000)); (0, 132, 65, (0, 192), (0, 200000000, 200000000))] /\
  map unnamed notes' = [(0, 127, 64, (0, 96), (0, 100000000, 100000000))].
Proof. exists high_file. exact high. Qed.
Print Assumptions C91_limited_refuted.

(** C92, full statement: the validation reports the same for the file that transpose writes, at the same tracks and positions, as for the original ([report], SpecSameReports.v: a report without
    the event it quotes).  False as shown below; missing: files that are not written as they were read (C51), the limits of C24. *)
Theorem C92_transposed_partial : forall env n r s bs s2, is_bytes r -> decode env r = Ok s -> legal_smf s -> Forall (fun t => faithful_events env (t_events t)) (f_tracks s) -> reasonable n ->
  transpose_execute env n s = Ok bs -> zlen bs < 4294967296 -> decode env bs = Ok s2 ->
  match validate s with Ok errs => exists errs', validate s2 = Ok errs' /\ map report errs' = map report errs | o => validate s2 = o end.
Proof. exact transposed_reports. Qed.
Print Assumptions C92_transposed_partial.

(** The same for any two files with the same format and the same contents but for the pitch of notes and the keys, however they came about; in particular for the same file read with other
    manufacturers and another middle C. *)
Theorem C92_same_contents : forall env env' r r' s s' h h', decode env r = Ok s -> decode env' r' = Ok s' -> f_mthd s = Some h -> f_mthd s' = Some h' -> h_format h' = h_format h ->
  map (map (fun x => unpitched (snd x))) (smf_contents s') = map (map (fun x => unpitched (snd x))) (smf_contents s) ->
  match validate s with Ok errs => exists errs', validate s' = Ok errs' /\ map report errs' = map report errs | o => validate s' = o end.
Proof. exact same_reports. Qed.
Print Assumptions C92_same_contents.

(** A file with a tempo in the second track; up by 5, the note and the key change and the report stays. *)
Example C92_example : exists s bs s2 errs errs', decode default_env misplaced_file = Ok s /\ is_bytes misplaced_file /\ legal_smf s /\ Forall (fun t => faithful_events default_env (t_events t)) (f_tracks s) /\
  transpose_execute default_env 5 s = Ok bs /\ zlen bs < 4294967296 /\ decode default_env bs = Ok s2 /\ bs <> misplaced_file /\ validate s = Ok errs /\ validate s2 = Ok errs' /\
  map report errs = [RTrackUnexpected 1] /\ map report errs' = [RTrackUnexpected 1].
Proof. exact misplaced. Qed.

(** Finding: a valid file with a text of 300 bytes (the length of which is written modulo 256), transposed by 0, has a tempo in the second track. *)
Theorem C92_long_text_refuted : exists r s bs s2 errs, decode default_env r = Ok s /\ validate s = Ok [] /\ transpose_execute default_env 0 s = Ok bs /\ decode default_env bs = Ok s2 /\
  validate s2 = Ok errs /\ map report errs = [RTrackUnexpected 1].
Proof. exists long_text_file. exact long_text. Qed.
Print Assumptions C92_long_text_refuted.
