(** * A tempo set again: C128.  Theorems only; proofs in RepeatProofs.v. *)
From Verif Require Import Base Tables Event Track File Notes SpecNotes SpecDivided SpecHistory SpecRepeat RepeatProofs Samples.

(** C128: a tempo event that sets the tempo already set changes nothing about the notes, not even a nanosecond. *)
Theorem C128_repeated : forall env r r' s s' steps order, is_bytes r -> is_bytes r' -> decode env r = Ok s -> decode env r' = Ok s' -> repeated_file s s' -> ticks_fit s -> ticks_fit s' ->
  extract env steps order s' = extract env steps order s.
Proof. exact repeat_notes. Qed.
Print Assumptions C128_repeated.

(** A tempo, perhaps the same one again in the middle of a note, and a slower one a quarter note after the first ([t]: what is between them); the other track begins with [own] *)
Definition tempi_song (t : bytes) (own : bytes) : bytes := sample_header ++ sample_track ([0; 255; 81; 3; 7; 161; 32] ++ t ++ [255; 81; 3; 15; 66; 64; 0; 255; 47; 0]) ++
  sample_track (own ++ [0; 144; 60; 100; 131; 96; 128; 60; 0; 131; 96; 144; 62; 90; 131; 96; 128; 62; 0; 0; 255; 47; 0]).
Definition once : bytes := tempi_song [131; 96] [].
Definition twice : bytes := tempi_song [129; 112; 255; 81; 3; 7; 161; 32; 129; 112] [].

Example C128_example : exists s s' ns, is_bytes once /\ is_bytes twice /\ decode default_env once = Ok s /\ decode default_env twice = Ok s' /\ s <> s' /\ repeated_file s s' /\ ticks_fit s /\ ticks_fit s' /\
  extract default_env 0 (fun l => l) s = Ok ns /\ extract default_env 0 (fun l => l) s' = Ok ns /\ map (fun o => (o_start o, o_end o)) ns = [(0, 500000000); (1500000000, 2500000000)].
Proof.
  do 3 eexists. split; [repeat constructor; lia|]. split; [repeat constructor; lia|]. split; [vm_compute; reflexivity|]. split; [vm_compute; reflexivity|]. split; [discriminate|].
  split.
  { split; [reflexivity|]. do 4 eexists. split; [reflexivity|]. split; [reflexivity|]. split; [|split; [reflexivity|constructor; [repeat constructor|constructor]]].
    eexists [_], _, [_; _], [_; _], _. split; [reflexivity|]. split; [reflexivity|]. split; [constructor; [split; reflexivity|constructor; [split; reflexivity|constructor]]|]. split; reflexivity. }
  split; [repeat constructor|]. split; [repeat constructor|]. split; [vm_compute; reflexivity|]. split; [vm_compute; reflexivity|]. reflexivity.
Qed.

(** With a tempo in the other track the repeated one is another one there: the conditions exclude it.  (Before any tempo is set there is nothing to repeat, the tempo of 500000 the standard
    assumes is not the one in force: C40_default_tempo_refuted.) *)
Definition own_tempo : bytes := [10; 255; 81; 3; 15; 66; 64; 130; 44; 176; 7; 1].

Example C128_own_example : exists s s' ns ns', decode default_env (tempi_song [131; 96] own_tempo) = Ok s /\ decode default_env (tempi_song [129; 112; 255; 81; 3; 7; 161; 32; 129; 112] own_tempo) = Ok s' /\
  ~ repeated_file s s' /\ extract default_env 0 (fun l => l) s = Ok ns /\ extract default_env 0 (fun l => l) s' = Ok ns' /\ map o_start ns = [635000000; 2635000000] /\ map o_start ns' = [323000000; 2323000000].
Proof.
  do 4 eexists. split; [vm_compute; reflexivity|]. split; [vm_compute; reflexivity|]. split.
  { intros (_ & t0 & ts & t0' & ts' & E & _ & _ & _ & N). cbn [f_tracks] in E. injection E as <- <-. inversion N as [|? ? K _]. cbn [t_events] in K. inversion K as [|? ? Q _]. discriminate Q. }
  split; [vm_compute; reflexivity|]. split; [vm_compute; reflexivity|]. split; reflexivity.
Qed.
