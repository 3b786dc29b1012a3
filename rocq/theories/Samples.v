(** * Samples: concrete files used by the examples beside the theorems. *)
From Verif Require Import Base Strings Tables Event Track File.

(** Header: format 1, 2 tracks, 480 ticks per quarter note. *)
Definition sample_header : bytes := [77; 84; 104; 100; 0; 0; 0; 6; 0; 1; 0; 2; 1; 224].
(** Header: format 0, 1 track, 480 ticks per quarter note. *)
Definition single_header : bytes := [77; 84; 104; 100; 0; 0; 0; 6; 0; 0; 0; 1; 1; 224].
(** Track 0: track name "T", tempo 500000, end of track. *)
Definition sample_body0 : bytes :=
  [0; 255; 3; 1; 84;  0; 255; 81; 3; 7; 161; 32;  0; 255; 47; 0].
(** Track 1: key signature (2 flats), bank select, program change, note on 60 and (with running status) 64,
    note off 60, text, note off 64, sysex, end of track. *)
Definition sample_body1 : bytes :=
  [0; 255; 89; 2; 254; 0;  0; 176; 0; 1;  0; 176; 32; 2;  0; 192; 12;
   0; 144; 60; 100;  129; 112; 64; 90;  96; 128; 60; 64;
   0; 255; 1; 2; 72; 105;  131; 96; 128; 64; 0;
   0; 240; 5; 67; 1; 2; 3; 247;  0; 255; 47; 0].
Definition sample_track (body : bytes) : bytes :=
  [77; 84; 114; 107] ++ be32 (zlen body) ++ body.
Definition sample_file : bytes :=
  sample_header ++ sample_track sample_body0 ++ sample_track sample_body1.
Definition sample_smf : smf :=
  match decode default_env sample_file with Ok s => s | _ => SMF None [] end.

(** A junk chunk 'XYZw' with three bytes. *)
Definition sample_junk : bytes := [88; 89; 90; 119; 0; 0; 0; 3; 1; 2; 3].

(** Computes the members of an existential conjunction of equations in order. *)
Ltac witness := repeat match goal with |- exists _, _ => eexists | |- _ /\ _ => split end; try (vm_compute; reflexivity).
