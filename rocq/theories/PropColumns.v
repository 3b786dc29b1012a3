(** * The columns of the listing of the notes: C109.  Theorems only; proofs in ColumnsProofs.v. *)
From Coq Require Import Permutation.
From Verif Require Import Base Strings Tables Event Track File Notes NotesPrint SpecText SpecColumns SpecDuration ColumnsProofs Samples ColumnsSamples PropNotes.

(** C109, full statement: whatever the notes of a file, the lines of the listing have each label in the same place,
    counted in characters:
      forall env steps order r s notes, (forall l, Permutation l (order l)) -> is_bytes r -> decode env r = Ok s ->
      extract env steps order s = Ok notes -> in_columns note_labels (map print_note notes)
    It is false (below): from ten minutes and ten seconds on, the text of a time can be too long for its column.  Proved: it
    holds up to there, for every name, channel, velocity and transposition. *)
Theorem C109_columns_partial : forall env steps order r s notes, (forall l, Permutation l (order l)) -> is_bytes r -> decode env r = Ok s ->
  extract env steps order s = Ok notes -> Forall (fun n => 0 <= o_start n < 610000000000 /\ 0 <= o_end n < 610000000000) notes ->
  in_columns note_labels (map print_note notes).
Proof. exact columns. Qed.
Print Assumptions C109_columns_partial.

(** C109: the lines are those of the text that is printed. *)
Theorem C109_lines : forall env steps order s notes, (forall l, Permutation l (order l)) -> extract env steps order s = Ok notes ->
  print_notes notes = concat (map print_note notes) /\ Forall2 note_line (map shown notes) (map print_note notes).
Proof. exact printed_lines. Qed.
Print Assumptions C109_lines.

(** C109: a file whose second note ends after 610.125 seconds ([long_note]). *)
Theorem C109_columns_refuted : exists r s notes, is_bytes r /\ decode default_env r = Ok s /\ extract default_env 0 (@rev nevent) s = Ok notes /\
  Forall (fun n => 0 <= o_start n <= o_end n /\ o_end n < 611000000000) notes /\
  print_notes notes = (str "C4   channel:0   note:3C  velocity:100  start:0s         end:100ms      duration:100ms" ++ [10]) ++
                      (str "E4   channel:0   note:40  velocity:70   start:100ms      end:10m10.125s  duration:10m10.025s" ++ [10]) /\
  ~ in_columns note_labels (map print_note notes).
Proof. exact out_of_line. Qed.
Print Assumptions C109_columns_refuted.

Example C109_example : exists s notes, decode default_env two_notes = Ok s /\ extract default_env 1 (@rev nevent) s = Ok notes /\
  Forall (fun n => 0 <= o_start n < 610000000000 /\ 0 <= o_end n < 610000000000) notes /\ map print_note notes = [
    [67; 226; 153; 175; 52] ++ str "  channel:0   note:3D  velocity:100  start:0s         end:500ms      duration:500ms" ++ [10];
    str "F4   channel:0   note:41  velocity:70   start:500ms      end:1.5s       duration:1s" ++ [10]].
Proof. eexists. eexists. split; [vm_compute; reflexivity|]. split; [vm_compute; reflexivity|]. split; [repeat constructor; discriminate|vm_compute; reflexivity]. Qed.
