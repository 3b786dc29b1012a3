(** * The two ways to end a note: C132.  Theorems only; proofs in ReleasedProofs.v. *)
From Verif Require Import Base Strings Tables Event Track File Notes SpecReleased ReleasedProofs Samples.

(** C132: it does not matter whether notes are ended by NoteOff, with whatever velocity, or by NoteOn with velocity 0. *)
Theorem C132_released : forall env s s' steps order, released_file s s' -> extract env steps order s' = extract env steps order s.
Proof. exact released_notes. Qed.
Print Assumptions C132_released.

(** Two notes on the same key, ended by messages with the status bytes [a] and velocities [v] *)
Definition ended_song (a v : Z) : bytes := sample_header ++ sample_track [0; 255; 81; 3; 7; 161; 32; 0; 255; 47; 0] ++
  sample_track [0; 144; 61; 100; 131; 96; a; 61; v; 0; 144; 61; 90; 131; 96; a; 61; v; 0; 255; 47; 0].

Example C132_example : exists s s' ns, decode default_env (ended_song 128 64) = Ok s /\ decode default_env (ended_song 144 0) = Ok s' /\ released_file s s' /\
  extract default_env 0 (fun l => l) s = Ok ns /\ extract default_env 0 (fun l => l) s' = Ok ns /\
  map (fun o => (o_note o, o_vel o, o_start o, o_end o)) ns = [(61, 100, 0, 500000000); (61, 90, 500000000, 1000000000)].
Proof.
  do 3 eexists. split; [vm_compute; reflexivity|]. split; [vm_compute; reflexivity|].
  split; [split; [reflexivity|]; cbn [f_tracks]; repeat match goal with |- Forall2 _ _ _ => constructor | |- released_event _ _ => split; [reflexivity|split; [reflexivity|]] end;
    first [left; reflexivity|right; exists 0, 61; split; cbn [releases]; repeat split]|].
  split; [vm_compute; reflexivity|]. split; [vm_compute; reflexivity|]. vm_compute; reflexivity.
Qed.
