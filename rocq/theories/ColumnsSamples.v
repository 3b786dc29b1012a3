(** * ColumnsSamples: a listing that is out of line. *)
From Verif Require Import Base Strings Tables Event Track File Notes NotesPrint SpecText SpecColumns ColumnsProofs Samples.

(** A file whose second note ends after 610.125 seconds. *)
Definition long_note : bytes :=
  sample_header ++ sample_track [0; 255; 81; 3; 7; 161; 32;  0; 255; 47; 0] ++
  sample_track [0; 144; 60; 100;  96; 144; 60; 0;  0; 144; 64; 70;  163; 223; 24; 144; 64; 0;  0; 255; 47; 0].

Lemma bytes_by : forall s, forallb (fun c => (0 <=? c) && (c <? 256)) s = true -> is_bytes s.
Proof. intros s H. rewrite forallb_forall in H. apply Forall_forall. intros c Hc. apply H in Hc. unfold is_byte. lia. Qed.

Definition line1 : bytes := str "C4   channel:0   note:3C  velocity:100  start:0s         end:100ms      duration:100ms" ++ [10].
Definition line2 : bytes := str "E4   channel:0   note:40  velocity:70   start:100ms      end:10m10.125s  duration:10m10.025s" ++ [10].

Lemma out_of_line : exists r s notes, is_bytes r /\ decode default_env r = Ok s /\ extract default_env 0 (@rev nevent) s = Ok notes /\
  Forall (fun n => 0 <= o_start n <= o_end n /\ o_end n < 611000000000) notes /\ print_notes notes = line1 ++ line2 /\
  ~ in_columns note_labels (map print_note notes).
Proof.
  exists long_note. eexists. eexists. split; [apply bytes_by; vm_compute; reflexivity|]. split; [vm_compute; reflexivity|]. split; [vm_compute; reflexivity|].
  split; [repeat constructor; discriminate|]. split; [vm_compute; reflexivity|].
  apply (out_of_columns note_labels _ (str "  duration:") line1 line2); [right; right; right; right; right; left; reflexivity|left; vm_compute; reflexivity|right; left; vm_compute; reflexivity
    |apply bytes_by; vm_compute; reflexivity|apply bytes_by; vm_compute; reflexivity|vm_compute; reflexivity].
Qed.
