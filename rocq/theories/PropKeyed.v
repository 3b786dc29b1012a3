(** * Other key signatures: C130.  Theorems only; proofs in KeyedProofs.v. *)
From Coq Require Import Permutation.
From Verif Require Import Base Strings Tables Event Track File Notes SpecNames SpecSlower SpecKeyed KeyedProofs Samples.

(** C130: with other key signatures the same notes are found at exactly the same times; only their names can be others. *)
Theorem C130_keys : forall env s s' steps order order', keyed_file keyed_body s s' -> (forall l, Permutation l (order l)) -> (forall l, Permutation l (order' l)) ->
  alike (matched keyed_note) (extract env steps order s) (extract env steps order' s').
Proof. exact keyed_notes. Qed.
Print Assumptions C130_keys.

(** C130: of a key signature only counts whether it has flats. *)
Theorem C130_signs : forall env s s' steps order, keyed_file same_sign s s' -> extract env steps order s' = extract env steps order s.
Proof. exact signed_notes. Qed.
Print Assumptions C130_signs.

(** A note in a key with [a] accidentals (as a byte), and in mode [m], then one in C major *)
Definition key_song (a m : Z) : bytes := sample_header ++ sample_track [0; 255; 81; 3; 7; 161; 32; 0; 255; 47; 0] ++
  sample_track [0; 255; 89; 2; a; m; 0; 144; 61; 100; 131; 96; 128; 61; 0; 0; 255; 89; 2; 0; 0; 0; 144; 61; 90; 131; 96; 128; 61; 0; 0; 255; 47; 0].

(** F minor and E major *)
Example C130_example : exists s s' ns ns', decode default_env (key_song 252 1) = Ok s /\ decode default_env (key_song 4 0) = Ok s' /\ keyed_file keyed_body s s' /\
  extract default_env 0 (fun l => l) s = Ok ns /\ extract default_env 0 (fun l => l) s' = Ok ns' /\
  map (fun o => (o_note o, o_name o, o_start o, o_end o)) ns = [(61, [68; 226; 153; 173; 52], 0, 500000000); (61, [67; 226; 153; 175; 52], 500000000, 1000000000)] /\
  map (fun o => (o_note o, o_name o, o_start o, o_end o)) ns' = [(61, [67; 226; 153; 175; 52], 0, 500000000); (61, [67; 226; 153; 175; 52], 500000000, 1000000000)].
Proof.
  do 4 eexists. split; [vm_compute; reflexivity|]. split; [vm_compute; reflexivity|].
  split; [split; [reflexivity|]; vm_compute; repeat match goal with |- Forall2 _ _ _ => constructor | |- _ /\ _ => split | _ => first [reflexivity|exact I] end|].
  split; [vm_compute; reflexivity|]. split; [vm_compute; reflexivity|]. split; vm_compute; reflexivity.
Qed.

(** F minor and F major *)
Example C130_signs_example : exists s s' ns, decode default_env (key_song 252 1) = Ok s /\ decode default_env (key_song 255 0) = Ok s' /\ keyed_file same_sign s s' /\ s <> s' /\
  extract default_env 0 (fun l => l) s = Ok ns /\ length ns = 2%nat.
Proof.
  do 3 eexists. split; [vm_compute; reflexivity|]. split; [vm_compute; reflexivity|].
  split; [split; [reflexivity|]; vm_compute; repeat match goal with |- Forall2 _ _ _ => constructor | |- _ /\ _ => split | |- _ -> _ => let Q := fresh in intros Q; first [exact Q|discriminate Q] | _ => reflexivity end|].
  split; [vm_compute; discriminate|]. split; vm_compute; reflexivity.
Qed.
