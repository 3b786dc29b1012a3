(** * The report of the validation: C104.  Theorems only; proofs in ValidateTextProofs.v. *)
From Verif Require Import Base Strings Tables Event Track File Validate SpecValidate ValidateText SpecValidateText ValidateTextProofs Samples.

(** C104: the warning written for a file has a line for each thing that is wrong with it and no other line, in the order of sections, tracks
    and events. *)
Theorem C104_report : forall env r s h text, decode env r = Ok s -> f_mthd s = Some h -> validation_warning s = Ok text -> reports_file h (f_tracks s) text.
Proof. exact report_file. Qed.
Print Assumptions C104_report.

(** C104: nothing is written exactly for the valid files. *)
Theorem C104_silent : forall s, validation_warning s = Ok [] <-> valid_file s.
Proof. exact report_silent. Qed.
Print Assumptions C104_silent.

(** C104: a report can be read one way only. *)
Theorem C104_one_reading : forall fs fs' text, fact_report fs text -> fact_report fs' text -> fs = fs'.
Proof. exact report_one_reading. Qed.
Print Assumptions C104_one_reading.

(** A format 0 file with two tracks: halves of a bank select on two channels and a note behind the end; half a bank select and no end. *)
Definition faulty : bytes :=
  str "MThd" ++ [0; 0; 0; 6; 0; 0; 0; 2; 1; 224] ++ str "MTrk" ++ [0; 0; 0; 16; 0; 176; 0; 1; 0; 177; 32; 2; 0; 255; 47; 0; 0; 144; 60; 64]
  ++ str "MTrk" ++ [0; 0; 0; 8; 0; 176; 0; 1; 0; 144; 60; 64].

Definition faulty_report : bytes :=
  [10] ++ str "WARNING: there are validation errors:" ++ [10]
  ++ str "         ** File contains 2 tracks (expected 1 track for FORMAT 0)" ++ [10]
  ++ str "         ** Track 0: EndOfTrack @3 (EndOfTrack) is not last event" ++ [10]
  ++ str "         ** Track 1: missing EndOfTrack event" ++ [10]
  ++ str "         ** Track 0: 'Bank Select MSB' event @1 LSB on another channel (Controller)" ++ [10]
  ++ str "         ** Track 0: 'Bank Select LSB' event @2 MSB on another channel (Controller)" ++ [10]
  ++ str "         ** Track 1: 'Bank Select MSB' event @1 missing LSB (Controller)" ++ [10; 10].

Example C104_example : exists s h, decode default_env faulty = Ok s /\ f_mthd s = Some h /\ validation_warning s = Ok faulty_report.
Proof. witness. Qed.

(** A format 1 file with a note in the tempo map and a tempo behind it. *)
Definition misplaced : bytes :=
  str "MThd" ++ [0; 0; 0; 6; 0; 1; 0; 2; 1; 224] ++ str "MTrk" ++ [0; 0; 0; 12; 0; 144; 60; 64; 0; 247; 1; 247; 0; 255; 47; 0]
  ++ str "MTrk" ++ [0; 0; 0; 11; 0; 255; 81; 3; 7; 161; 32; 0; 255; 47; 0].

Example C104_example_kinds : exists s h, decode default_env misplaced = Ok s /\ f_mthd s = Some h /\ validation_warning s = Ok
  ([10] ++ str "WARNING: there are validation errors:" ++ [10]
  ++ str "         ** Track 0: unexpected event (NoteOn)" ++ [10]
  ++ str "         ** Track 0: unexpected event (SysExEscapeMessage)" ++ [10]
  ++ str "         ** Track 1: unexpected event (Tempo)" ++ [10; 10]).
Proof. witness. Qed.

Example C104_example_silent : valid_file sample_smf /\ validation_warning sample_smf = Ok [].
Proof. assert (H : validation_warning sample_smf = Ok []) by (vm_compute; reflexivity). split; [apply C104_silent; exact H|exact H]. Qed.

Example C104_example_reading : exists text, fact_report [Count 2; EarlyEnd 0 3; Bank 1 1 Msb Alone] text.
Proof.
  eexists. eexists. split; [|right; split; [discriminate|reflexivity]].
  repeat (constructor; [first [eexists; split; [apply DecimalProofs.dec_decimal|reflexivity]|do 2 eexists; repeat (split; [apply DecimalProofs.dec_decimal|]); reflexivity]|]). constructor.
Qed.
