(** * What JSON values say: C79, C80.  Theorems only; proofs in JsonEventProofs.v. *)
From Verif Require Import Base Strings Tables Event SpecTable SpecKey SpecNote SpecEvent SpecTrack SpecLine Json Marshal SpecJsonEvent NoteProofs JsonEventProofs JsonSamples Samples.

(** C79.  [json_says] (SpecJsonEvent.v); both directions, for all values. *)
Theorem C79_exact : forall env v e, unmarshal_json env v = Ok e <-> json_says (env_manufacturers env) (middle_octave env) v e.
Proof. exact json_reads. Qed.
Print Assumptions C79_exact.

(** Keys in other cases, a key given twice, nulls, other keys, missing keys; the name of the note is not what the object says. *)
Example C79_example : exists e, json_says (env_manufacturers default_env) (middle_octave default_env)
  (JObj [(str "event", JNull);
         (str "EVENT", JObj [(str "Tag", JStr (str "NoteOn")); (str "delta", JNum 480); (str "delta", JNull); (str "channel", JNum 7); (str "CHANNEL", JNum 3);
                             (str "note", JObj [(str "value", JNum 61); (str "name", JStr (str "H"))]); (str "colour", JReal)])]) e /\
  e = Event 0 480 [] 147 0 (NoteOn 3 (Note 61 (str "C♯4") (str "C♯4")) 0).
Proof. eexists. split; [|reflexivity]. apply C79_exact. vm_compute. reflexivity. Qed.

(** C80, full statement: values that the MIDI message cannot hold are refused.  False as shown below; this is what does hold. *)
Theorem C80_ranges_partial : forall env v e, unmarshal_json env v = Ok e -> 0 <= e_delta e < 4294967296 /\ json_range (e_body e).
Proof. exact json_ranges. Qed.
Print Assumptions C80_ranges_partial.

Example C80_example : exists e, unmarshal_json default_env (JObj [(str "event", JObj [(str "tag", JStr (str "ProgramChange")); (str "bank", JNum 40000); (str "program", JNum 12)])]) = Ok e /\
  e_body e = ProgramChange 0 40000 12.
Proof. eexists. split; vm_compute; reflexivity. Qed.

(** Finding: note 200 is accepted and written as the byte C8 hexadecimal, which is a status byte; so is the velocity 200 of a NoteOff. *)
Theorem C80_note_refuted :
  (exists e, unmarshal_json default_env (JObj [(str "event", JObj [(str "tag", JStr (str "NoteOn")); (str "note", JObj [(str "value", JNum 200)]); (str "velocity", JNum 64)])]) = Ok e /\
     marshal e = Ok [144; 200; 64]) /\
  (exists e, unmarshal_json default_env (JObj [(str "event", JObj [(str "tag", JStr (str "NoteOff")); (str "note", JObj [(str "value", JNum 60)]); (str "velocity", JNum 200)])]) = Ok e /\
     marshal e = Ok [128; 60; 200]).
Proof.
  split.
  - exists (Event 0 0 [] 144 0 (NoteOn 0 (Note 200 (str "G♯15") (str "G♯15")) 64)). split; vm_compute; reflexivity.
  - exists (Event 0 0 [] 128 0 (NoteOff 0 (Note 60 (str "C4") (str "C4")) 200)). split; vm_compute; reflexivity.
Qed.
Print Assumptions C80_note_refuted.

(** Finding: data and IDs are taken modulo 256: 300 is written as 44, and 323 is Yamaha, 67. *)
Theorem C80_data_refuted :
  exists e, unmarshal_json default_env (JObj [(str "event", JObj [(str "tag", JStr (str "SysExMessage")); (str "manufacturer", JObj [(str "id", JArr [JNum 323])]);
                                                                  (str "data", JArr [JNum 300])])]) = Ok e /\
    e_body e = SysExMessage (Manufacturer [67] (str "Japanese") (str "Yamaha")) [44] false.
Proof. eexists. split; vm_compute; reflexivity. Qed.
Print Assumptions C80_data_refuted.

(** Finding: a NoteOn without a note is one of note 0, an object with only a tag is an event. *)
Theorem C80_missing_refuted :
  exists e, unmarshal_json default_env (JObj [(str "event", JObj [(str "tag", JStr (str "NoteOn"))])]) = Ok e /\ e_body e = NoteOn 0 (Note 0 (str "C-1") (str "C-1")) 0.
Proof. eexists. split; vm_compute; reflexivity. Qed.
Print Assumptions C80_missing_refuted.
