(** * LossSamples: events that do not survive being written, for the findings in PropTrack.v, PropFile.v, PropSource.v and PropRun.v. *)
From Verif Require Import Base Strings Tables Event Track File.

(** A text of 256 bytes that are 64 NoteOn events, and a file that holds it as text. *)
Definition loud_text : bytes := concat (repeat [0; 144; 60; 64] 64).
Definition loud_body : bytes := [0; 255; 1; 130; 0] ++ loud_text ++ [0; 255; 47; 0].
Definition loud_file : bytes := [77; 84; 104; 100; 0; 0; 0; 6; 0; 0; 0; 1; 1; 224; 77; 84; 114; 107; 0; 0; 1; 9] ++ loud_body.

(** A file with one pitch bend, in the middle position *)
Definition bend_file : bytes := [77; 84; 104; 100; 0; 0; 0; 6; 0; 0; 0; 1; 1; 224; 77; 84; 114; 107; 0; 0; 0; 8; 0; 224; 64; 0; 0; 255; 47; 0].
