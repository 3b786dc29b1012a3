(** * Silent events and notes: C120.  Theorems only; proofs in SilentProofs.v. *)
From Verif Require Import Base Tables Event Track File Manufacturer Notes SpecNotes SpecSilent SilentProofs Samples.

(** C120, full statement: forall s s', same_voices voiced s s' -> extract env steps order s = extract env steps order s'
    (events that are no notes, tempo changes, key signatures or ends of tracks make no difference to the notes).  False, see below.  Proved for silent events at the tick of
    the event before. *)
Theorem C120_notes_partial : forall env steps order s s' h, same_voices paced s s' -> f_mthd s = Some h -> h_ppqn h <> 0 -> extract env steps order s = extract env steps order s'.
Proof. exact silent_notes. Qed.
Print Assumptions C120_notes_partial.

(** A note with texts, controllers and pressure around it *)
Definition with_texts : bytes := sample_header ++ sample_track [0; 255; 1; 1; 65; 0; 255; 81; 3; 7; 161; 32; 131; 96; 255; 47; 0] ++
  sample_track [0; 255; 3; 1; 66; 0; 144; 60; 100; 0; 176; 7; 90; 0; 255; 5; 1; 67; 131; 96; 128; 60; 0; 0; 208; 5; 0; 255; 47; 0].
Definition without_texts : bytes := sample_header ++ sample_track [0; 255; 81; 3; 7; 161; 32; 0; 255; 47; 0] ++ sample_track [0; 144; 60; 100; 131; 96; 128; 60; 0; 0; 255; 47; 0].

Example C120_example : exists s s' h notes, decode default_env with_texts = Ok s /\ decode default_env without_texts = Ok s' /\ same_voices paced s s' /\ f_mthd s = Some h /\ h_ppqn h = 480 /\
  map (fun t => length (t_events t)) (f_tracks s) = [3%nat; 7%nat] /\ map (fun t => length (t_events t)) (f_tracks s') = [2%nat; 3%nat] /\
  extract default_env 0 (fun l => l) s = Ok notes /\ map (fun o => (o_note o, o_start o, o_end o)) notes = [(60, 0, 500000000)].
Proof. witness. vm_compute. repeat split. Qed.

(** A text event between a tempo change and the end of a note moves the end of the note. *)
Theorem C120_text_refuted : exists r r' s s' notes notes', decode default_env r = Ok s /\ decode default_env r' = Ok s' /\ same_voices voiced s s' /\
  extract default_env 0 (fun l => l) s = Ok notes /\ extract default_env 0 (fun l => l) s' = Ok notes' /\
  map (fun o => (o_note o, o_start o, o_end o)) notes = [(60, 0, 1000000000)] /\ map (fun o => (o_note o, o_start o, o_end o)) notes' = [(60, 0, 750000000)].
Proof.
  exists (sample_header ++ sample_track [0; 255; 81; 3; 7; 161; 32; 129; 112; 255; 81; 3; 15; 66; 64; 0; 255; 47; 0] ++ sample_track [0; 144; 60; 100; 131; 96; 144; 60; 0; 0; 255; 47; 0]),
    (sample_header ++ sample_track [0; 255; 81; 3; 7; 161; 32; 129; 112; 255; 81; 3; 15; 66; 64; 0; 255; 47; 0] ++
     sample_track [0; 144; 60; 100; 129; 112; 255; 1; 1; 65; 129; 112; 144; 60; 0; 0; 255; 47; 0]).
  witness. vm_compute. repeat split.
Qed.
Print Assumptions C120_text_refuted.
