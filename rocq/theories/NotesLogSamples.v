(** * NotesLogSamples: files for the examples and refutations of C101, C102 and C103. *)
From Verif Require Import Base Strings Tables Event Track File SpecNote Notes SpecNotes NotesLog Log SpecNotesLog Samples.

(** A note ended that does not sound; a note started twice; a note ended by the end of the track; a note started behind it. *)
Definition odd_notes : bytes :=
  sample_header ++ sample_track [0; 255; 81; 3; 7; 161; 32;  0; 255; 47; 0] ++
  sample_track [0; 128; 60; 64;  0; 144; 60; 100;  0; 144; 60; 50;  0; 128; 60; 0;  0; 149; 64; 70;  0; 255; 47; 0;  0; 144; 72; 1].
Definition odd_text : bytes :=
  str "WARN   notes      NoteOff without preceding NoteOn for 0:{3C 4334 4334}" ++ [10] ++
  str "WARN   notes      NoteOn without preceding NoteOff for 0:{3C 4334 4334}" ++ [10] ++
  str "WARN   notes      EndOfTrack automatically ending note (channel:5, note:40, tick:0, at:0s)" ++ [10] ++
  str "WARN   notes      Incomplete note (channel:0, note:48, tick:0, at:0s)" ++ [10].
Definition odd_debug : list bytes :=
  [str "DEBUG  notes      NOTE OFF 30 3C C4  64  0      0s" ++ [10]; str "DEBUG  notes      NOTE OFF 30 3C C4  0   0      0s" ++ [10]].

(** Quarter notes at 480 ticks, 500000 microseconds: half a second each. *)
Definition exact_notes : bytes :=
  sample_header ++ sample_track [0; 255; 81; 3; 7; 161; 32;  0; 255; 47; 0] ++
  sample_track [0; 144; 60; 100;  131; 96; 144; 60; 0;  0; 255; 47; 0].
(** 96 ticks per quarter note, two ticks at 50000 microseconds: 1041666 2/3 nanoseconds. *)
Definition inexact_notes : bytes :=
  [77; 84; 104; 100; 0; 0; 0; 6; 0; 1; 0; 2; 0; 96] ++ sample_track [0; 255; 81; 3; 0; 195; 80;  0; 255; 47; 0] ++
  sample_track [0; 144; 60; 100;  2; 144; 60; 0;  0; 255; 47; 0].
(** 100 ticks per quarter note. *)
Definition even_notes : bytes :=
  [77; 84; 104; 100; 0; 0; 0; 6; 0; 1; 0; 2; 0; 100] ++ sample_track [0; 255; 81; 3; 7; 161; 32;  0; 255; 47; 0] ++
  sample_track [0; 144; 60; 100;  7; 144; 60; 0;  0; 255; 47; 0].
(** A note on channel 10 with a NoteOff. *)
Definition channel_ten : bytes :=
  sample_header ++ sample_track [0; 255; 81; 3; 7; 161; 32;  0; 255; 47; 0] ++
  sample_track [0; 154; 60; 100;  0; 138; 60; 64;  0; 255; 47; 0].
