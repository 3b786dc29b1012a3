(** * SameSamples: files for C91 and C92. *)
From Coq Require Import Permutation.
From Verif Require Import Base Strings Tables Event SpecEvent Track File SpecTrack Transpose Notes Validate SpecTranspose SpecSameNotes SpecSameReports Samples SampleProofs.

(** Notes 126 and 127 sounding together. *)
Definition high_file : bytes :=
  sample_header ++ sample_track sample_body0 ++ sample_track [0; 144; 126; 64; 0; 144; 127; 65; 96; 128; 126; 0; 96; 128; 127; 0; 0; 255; 47; 0].

(** A text of 300 bytes, of which the last 256 read as a tempo and a text. *)
Definition long_text_file : bytes :=
  sample_header ++ sample_track sample_body0 ++
  sample_track ([0; 255; 1; 130; 44] ++ repeat 65 44 ++ [0; 255; 81; 3; 7; 161; 32; 0; 255; 1; 129; 116] ++ repeat 65 244 ++ [0; 255; 47; 0]).

(** A tempo, a key and a note in the second track. *)
Definition misplaced_file : bytes :=
  sample_header ++ sample_track sample_body0 ++ sample_track [0; 255; 81; 3; 7; 161; 32; 0; 255; 89; 2; 254; 0; 0; 144; 60; 64; 96; 128; 60; 0; 0; 255; 47; 0].
Definition misplaced_smf : smf := match decode default_env misplaced_file with Ok s => s | _ => SMF None [] end.
Definition misplaced_up : bytes := match transpose_execute default_env 5 misplaced_smf with Ok bs => bs | _ => [] end.
Definition misplaced_up_smf : smf := match decode default_env misplaced_up with Ok s => s | _ => SMF None [] end.

Lemma misplaced_legal : legal_smf misplaced_smf /\ Forall (fun t => faithful_events default_env (t_events t)) (f_tracks misplaced_smf).
Proof.
  assert (E : misplaced_smf = ltac:(let x := eval vm_compute in misplaced_smf in exact x)) by (vm_compute; reflexivity). rewrite E. clear E.
  split; [split|].
  - cbn [f_mthd]. split; [|reflexivity]. repeat split; cbn; try lia.
  - cbn [f_tracks]. repeat (apply Forall_cons || apply Forall_nil); (split; [reflexivity|]); (split; [|cbn; tauto]); cbn [t_events];
    repeat (apply Forall_cons || apply Forall_nil); repeat split; cbn; try lia; try (repeat constructor; discriminate).
  - cbn [f_tracks]. repeat (apply Forall_cons || apply Forall_nil); repeat (apply Forall_cons || apply Forall_nil); exact I.
Qed.

Lemma misplaced : exists s bs s2 errs errs', decode default_env misplaced_file = Ok s /\ is_bytes misplaced_file /\ legal_smf s /\ Forall (fun t => faithful_events default_env (t_events t)) (f_tracks s) /\
  transpose_execute default_env 5 s = Ok bs /\ zlen bs < 4294967296 /\ decode default_env bs = Ok s2 /\ bs <> misplaced_file /\ validate s = Ok errs /\ validate s2 = Ok errs' /\
  map report errs = [RTrackUnexpected 1] /\ map report errs' = [RTrackUnexpected 1].
Proof.
  exists misplaced_smf, misplaced_up, misplaced_up_smf, (match validate misplaced_smf with Ok e => e | _ => [] end), (match validate misplaced_up_smf with Ok e => e | _ => [] end).
  split; [vm_compute; reflexivity|]. split; [repeat constructor; discriminate|]. split; [apply misplaced_legal|]. split; [apply misplaced_legal|].
  split; [vm_compute; reflexivity|]. split; [vm_compute; reflexivity|]. split; [vm_compute; reflexivity|]. split; [vm_compute; discriminate|].
  split; [vm_compute; reflexivity|]. split; [vm_compute; reflexivity|]. split; vm_compute; reflexivity.
Qed.

Definition written_by (n : Z) (s : smf) : bytes := match transpose_execute default_env n s with Ok bs => bs | _ => [] end.
Definition read_from (r : bytes) : smf := match decode default_env r with Ok s => s | _ => SMF None [] end.
Definition notes_of (n : Z) (s : smf) : list note_out := match extract default_env n (fun l => l) s with Ok l => l | _ => [] end.
Definition reports_of (s : smf) : list verror := match validate s with Ok l => l | _ => [] end.

Lemma sample_fits : Forall (Forall (fun x => fits 5 (snd x))) (smf_contents sample_smf).
Proof.
  assert (E : smf_contents sample_smf = ltac:(let x := eval vm_compute in (smf_contents sample_smf) in exact x)) by (vm_compute; reflexivity). rewrite E. clear E.
  repeat (apply Forall_cons || apply Forall_nil); cbn [snd fits]; try exact I; try lia; intros; try lia.
Qed.

Lemma sample_moved : exists bs s2 notes, decode default_env sample_file = Ok sample_smf /\ legal_smf sample_smf /\
  Forall (fun t => faithful_events default_env (t_events t)) (f_tracks sample_smf) /\ Forall (Forall (fun x => fits 5 (snd x))) (smf_contents sample_smf) /\
  transpose_execute default_env 5 sample_smf = Ok bs /\ zlen bs < 4294967296 /\ decode default_env bs = Ok s2 /\ extract default_env (5 + 0) (fun l => l) sample_smf = Ok notes /\
  map unnamed notes = [(0, 65, 100, (0, 336), (0, 350000000, 350000000)); (0, 69, 90, (240, 816), (250000000, 850000000, 600000000))].
Proof.
  exists (written_by 5 sample_smf), (read_from (written_by 5 sample_smf)), (notes_of 5 sample_smf). split; [vm_compute; reflexivity|]. split; [apply sample_legal|]. split; [apply sample_legal|]. split; [exact sample_fits|].
  split; [vm_compute; reflexivity|]. split; [vm_compute; reflexivity|]. split; [vm_compute; reflexivity|]. split; vm_compute; reflexivity.
Qed.

Lemma high : exists s bs s2 notes notes', decode default_env high_file = Ok s /\ transpose_execute default_env 5 s = Ok bs /\ decode default_env bs = Ok s2 /\
  extract default_env 5 (fun l => l) s = Ok notes /\ extract default_env 0 (fun l => l) s2 = Ok notes' /\
  map unnamed notes = [(0, 131, 64, (0, 96), (0, 100000000, 100000000)); (0, 132, 65, (0, 192), (0, 200000000, 200000000))] /\
  map unnamed notes' = [(0, 127, 64, (0, 96), (0, 100000000, 100000000))].
Proof.
  pose (s := read_from high_file). pose (bs := written_by 5 s). exists s, bs, (read_from bs), (notes_of 5 s), (notes_of 0 (read_from bs)).
  do 5 (split; [vm_compute; reflexivity|]). split; vm_compute; reflexivity.
Qed.

Lemma long_text : exists s bs s2 errs, decode default_env long_text_file = Ok s /\ validate s = Ok [] /\ transpose_execute default_env 0 s = Ok bs /\ decode default_env bs = Ok s2 /\
  validate s2 = Ok errs /\ map report errs = [RTrackUnexpected 1].
Proof.
  pose (s := read_from long_text_file). pose (bs := written_by 0 s). exists s, bs, (read_from bs), (reports_of (read_from bs)).
  do 5 (split; [vm_compute; reflexivity|]). vm_compute; reflexivity.
Qed.
