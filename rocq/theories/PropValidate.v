(** * Validation: C22, C23.  Theorems only; proofs in ValidateProofs.v. *)
From Verif Require Import Base Strings Tables Event Track File Validate SpecValidate ValidateProofs Samples.

(** C22: nothing is reported exactly for the valid files. *)
Theorem C22_nothing_reported : forall s, validate s = Ok [] <-> valid_file s.
Proof. exact validate_exact. Qed.
Print Assumptions C22_nothing_reported.

(** C22: the reports are exactly the ones that are due, with track number and position. *)
Theorem C22_reports : forall s h errs, f_mthd s = Some h -> validate s = Ok errs ->
  forall v, In v errs <-> due h (f_tracks s) v.
Proof. exact reports_due. Qed.
Print Assumptions C22_reports.

(** The sample file has a bank select pair, a tempo map and two EndOfTrack events. *)
Example C22_example : valid_file sample_smf.
Proof. apply C22_nothing_reported. vm_compute. reflexivity. Qed.

(** A bank select MSB without LSB and a note after the end of the track. *)
Example C22_example_reports : exists h ev e errs,
  validate (SMF (Some h) [MTrk (str "MTrk") 5 0 [] [Event 0 0 [] 176 0 (Controller 1 (lookup_controller 0) 1); e; ev] None]) = Ok errs /\
  h_format h = 0 /\ e_body e = EndOfTrack /\ errs = [VEotNotLast 5 2 e; VMsbMissingLsb 5 1].
Proof.
  exists (MThd (str "MThd") 6 0 1 480 480 false 0 0 false []), (Event 0 0 [] 144 0 (NoteOn 0 (Note 60 [] []) 64)),
    (Event 0 0 [] 255 47 EndOfTrack), [VEotNotLast 5 2 (Event 0 0 [] 255 47 EndOfTrack); VMsbMissingLsb 5 1].
  repeat split.
Qed.

(** C23, full statement: forall env r s, decode env r = Ok s -> exists errs, validate s = Ok errs.
    False for format 1 files without tracks (below); proved for all others, and that those panic. *)
Theorem C23_validation_panics_partial : forall env r s, decode env r = Ok s ->
  exists h, f_mthd s = Some h /\
    (h_format h = 1 /\ h_tracks h = 0 /\ validate s = Panic \/
     ~ (h_format h = 1 /\ h_tracks h = 0) /\ exists errs, validate s = Ok errs).
Proof. exact decoded_validates. Qed.
Print Assumptions C23_validation_panics_partial.

Example C23_example : exists s h, decode default_env sample_file = Ok s /\ f_mthd s = Some h /\ h_format h = 1 /\ h_tracks h = 2.
Proof. witness. Qed.

(** C23, finding: the header of a format 1 file that announces no tracks. *)
Theorem C23_validation_panics_refuted : exists r s, decode default_env r = Ok s /\ validate s = Panic.
Proof. exists [77; 84; 104; 100; 0; 0; 0; 6; 0; 1; 0; 0; 1; 224]. witness. Qed.
Print Assumptions C23_validation_panics_refuted.
