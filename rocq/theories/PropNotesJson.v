(** * The JSON form of the notes: C71.  Theorems only; proofs in FloatProofs.v and NotesJsonProofs.v. *)
From Coq Require Import Permutation.
From Verif Require Import Base Strings Tables Event Track File SpecDecimal Notes NotesPrint SpecDuration Json SpecJsonText Float SpecFloat FloatProofs NotesJson NotesJsonProofs
  Samples PropNotes.

(** C71: the file is a JSON text, an object for each note in order, with its name, channel, note number and velocity, and numbers for its times. *)
Theorem C71_json_text : forall env steps order s notes, (forall l, Permutation l (order l)) -> extract env steps order s = Ok notes ->
  exists vs, json_text (JObj [(str "notes", match notes with [] => JNull | _ => JArr vs end)]) (notes_json notes) /\ Forall2 note_tree (map shown notes) vs.
Proof. exact notes_json_text. Qed.
Print Assumptions C71_json_text.

(** C71: the file is laid out in lines, and the times in it are within ten microseconds of the times in whole milliseconds. *)
Theorem C71_document : forall env steps order s notes, (forall l, Permutation l (order l)) -> extract env steps order s = Ok notes ->
  notes_document (map shown notes) (notes_json notes).
Proof. exact notes_json_document. Qed.
Print Assumptions C71_document.

(** C71: such a file has only one reading, so nothing is lost. *)
Theorem C71_document_unambiguous : forall xs ys text, notes_document xs text -> notes_document ys text -> xs = ys.
Proof. exact document_unambiguous. Qed.
Print Assumptions C71_document_unambiguous.

(** C71, what holds of the times themselves: the number is near the time, and the time in whole milliseconds can be told from it.  Exactly:
      forall t, -2^63 <= t < 2^63 -> t mod 1000000 = 0 -> exists n p, decimal_fraction n p (seconds_text t) /\ n * 1000000000 = t * 10 ^ p
    fails, see [C71_seconds_exact_refuted]. *)
Theorem C71_seconds_partial : forall t, -9223372036854775808 <= t <= 9223372036854775807 -> t mod 1000000 = 0 ->
  seconds_near t (seconds_text t) /\ (forall t', t' mod 1000000 = 0 -> seconds_near t' (seconds_text t) -> t' = t).
Proof. exact seconds_only. Qed.
Print Assumptions C71_seconds_partial.

(** C71: 1.118 s is written as 1.1179999999999999: time.Duration.Seconds adds two numbers that have been rounded already. *)
Theorem C71_seconds_exact_refuted : exists t, -9223372036854775808 <= t <= 9223372036854775807 /\ t mod 1000000 = 0 /\
  forall n p, decimal_fraction n p (seconds_text t) -> n * 1000000000 <> t * 10 ^ p.
Proof. exists 1118000000. exact seconds_inexact. Qed.
Print Assumptions C71_seconds_exact_refuted.

Example C71_example : exists s notes, decode default_env two_notes = Ok s /\ extract default_env 1 (@rev nevent) s = Ok notes /\
  notes_json notes = unlines
    [str "{"; str "  ""notes"": ["; str "    {"; str "      ""channel"": 0,"; str "      ""midi-note"": 61,"; str "      ""note"": """ ++ [67; 226; 153; 175; 52] ++ str """,";
     str "      ""velocity"": 100,"; str "      ""start"": 0,"; str "      ""end"": 0.5,"; str "      ""duration"": 0.5"; str "    },";
     str "    {"; str "      ""channel"": 0,"; str "      ""midi-note"": 65,"; str "      ""note"": ""F4"","; str "      ""velocity"": 70,"; str "      ""start"": 0.5,";
     str "      ""end"": 1.5,"; str "      ""duration"": 1"; str "    }"; str "  ]"; str "}"].
Proof. witness. Qed.

Example C71_seconds_example : seconds_text 1117000000 = str "1.117" /\ seconds_text 1118000000 = str "1.1179999999999999" /\ seconds_text (-2000000) = str "-0.002".
Proof. repeat split; vm_compute; reflexivity. Qed.
