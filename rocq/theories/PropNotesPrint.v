(** * The listing of the notes command: C65.  Theorems only; proofs in DurationProofs.v and NotesPrintProofs.v. *)
From Coq Require Import Permutation.
From Verif Require Import Base Strings Tables Event Track File Notes NotesPrint SpecDuration DurationProofs NotesPrintProofs Samples PropNotes.

(** C65: the text has one line for each note, in order, with its values: name, channel, note number, velocity
    and the times in whole milliseconds. *)
Theorem C65_notes_printed : forall env steps order s notes, (forall l, Permutation l (order l)) -> extract env steps order s = Ok notes ->
  listing (map shown notes) (print_notes notes).
Proof. exact notes_printed. Qed.
Print Assumptions C65_notes_printed.

(** C65: such a text has only one reading. *)
Theorem C65_listing_unambiguous : forall xs ys text, listing xs text -> listing ys text -> xs = ys.
Proof. exact listing_unambiguous. Qed.
Print Assumptions C65_listing_unambiguous.

(** C65: nothing is lost by printing milliseconds: the times of the list are whole milliseconds, short of the
    end of the 64-bit range. *)
Theorem C65_times_exact : forall env steps order s notes, (forall l, Permutation l (order l)) -> extract env steps order s = Ok notes ->
  Forall (fun n => 0 <= o_start n < 9223372036854775807 -> 0 <= o_end n < 9223372036854775807 ->
    l_start (shown n) = o_start n /\ l_end (shown n) = o_end n /\ l_dur (shown n) = o_end n - o_start n) notes.
Proof. exact times_exact. Qed.
Print Assumptions C65_times_exact.

(** C65: every length of time is printed exactly, by the nanosecond. *)
Theorem C65_duration_text : forall d, time_text d (duration_string d).
Proof. exact duration_text. Qed.
Print Assumptions C65_duration_text.

Example C65_example : exists s notes, decode default_env two_notes = Ok s /\ extract default_env 1 (@rev nevent) s = Ok notes /\
  print_notes notes =
    [67; 226; 153; 175; 52] ++ str "  channel:0   note:3D  velocity:100  start:0s         end:500ms      duration:500ms" ++ [10] ++
    str "F4   channel:0   note:41  velocity:70   start:500ms      end:1.5s       duration:1s" ++ [10].
Proof. witness. Qed.

Example C65_duration_example : duration_string 3723004000000 = str "1h2m3.004s" /\ duration_string (-1500) = [45; 49; 46; 53; 194; 181; 115].
Proof. split; vm_compute; reflexivity. Qed.
