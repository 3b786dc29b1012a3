(** * Tracks put together: C125.  Theorems only; proofs in JoinedProofs.v. *)
From Coq Require Import Permutation.
From Verif Require Import Base Tables Event SpecFile Track File Notes Transpose Validate SpecTrack SpecTrackOrder SpecJoined JoinedProofs Samples.

(** C125: a file with the tracks of two files is read as the tracks of both, ... *)
Theorem C125_read : forall env r u r' s v, files_joined r u r' -> decode env r = Ok s -> decode env u = Ok v -> exists s', decode env r' = Ok s' /\ joined s v s'.
Proof. exact joined_read. Qed.
Print Assumptions C125_read.

(** ... its notes are those of both, ... *)
Theorem C125_notes : forall env steps order s u s' h, joined s u s' -> f_mthd s = Some h ->
  extract env steps order s' = (do a <- extract env steps order s; do b <- extract env steps order u; Ok (a ++ b)).
Proof. exact joined_notes. Qed.
Print Assumptions C125_notes.

(** ... it breaks the rules both break (those of the first track, which both have, once) ... *)
Theorem C125_validated : forall s u s' h, joined s u s' -> f_mthd s = Some h -> h_format h <> 0 ->
  exists es eu es' e0, validate s = Ok es /\ validate u = Ok eu /\ validate s' = Ok es' /\ validate (first_track s) = Ok e0 /\
    Permutation (map unnumbered (es' ++ e0)) (map unnumbered (es ++ eu)).
Proof. exact joined_validated. Qed.
Print Assumptions C125_validated.

(** ... and transposed it is the two transposed files put together. *)
Theorem C125_transposed : forall env n s u s' x y, joined s u s' -> transpose_smf env n s = Ok x -> transpose_smf env n u = Ok y ->
  exists x', transpose_smf env n s' = Ok x' /\ joined x y x'.
Proof. exact joined_transposed. Qed.
Print Assumptions C125_transposed.

(** A track with tempi and a text it should not have, one with a note and a bank controller that lacks its counterpart, and one with another note and a tempo change *)
Definition lead : bytes := [0; 255; 1; 1; 65; 0; 255; 81; 3; 7; 161; 32; 0; 255; 47; 0].
Definition flute : bytes := [0; 176; 0; 5; 0; 144; 60; 100; 131; 96; 128; 60; 0; 0; 255; 47; 0].
Definition horn : bytes := [0; 255; 81; 3; 15; 66; 64; 0; 145; 48; 100; 131; 96; 129; 48; 0; 0; 255; 47; 0].
Definition head (n : Z) : bytes := [0; 1; 0; n; 1; 224].
Definition with_head (n : Z) (tracks : bytes) : bytes := (str "MThd" ++ [0; 0; 0; 6] ++ head n) ++ sample_track lead ++ tracks.

Example C125_example : files_joined (with_head 2 (sample_track flute)) (with_head 2 (sample_track horn)) (with_head 3 (sample_track flute ++ sample_track horn)) /\
  exists s u s' h a b es eu es' e0 x y, decode default_env (with_head 2 (sample_track flute)) = Ok s /\ decode default_env (with_head 2 (sample_track horn)) = Ok u /\
    decode default_env (with_head 3 (sample_track flute ++ sample_track horn)) = Ok s' /\ f_mthd s = Some h /\ h_format h = 1 /\
    extract default_env 0 (fun l => l) s = Ok a /\ extract default_env 0 (fun l => l) u = Ok b /\ extract default_env 0 (fun l => l) s' = Ok (a ++ b) /\
    map (fun o => (o_ch o, o_note o, o_start o, o_end o)) (a ++ b) = [(0, 60, 0, 500000000); (1, 48, 0, 500000000)] /\
    validate s = Ok es /\ validate u = Ok eu /\ validate s' = Ok es' /\ validate (first_track s) = Ok e0 /\ length es = 2%nat /\ length eu = 2%nat /\ length es' = 3%nat /\ length e0 = 1%nat /\
    transpose_smf default_env 1 s = Ok x /\ transpose_smf default_env 1 u = Ok y.
Proof.
  split.
  - exists 0, 1, 1, 224, 0, 2, 0, 2, 0, 3, (str "MTrk", lead), [(str "MTrk", flute)], [(str "MTrk", horn)], [(str "MTrk", lead); (str "MTrk", flute)],
      [(str "MTrk", lead); (str "MTrk", horn)], [(str "MTrk", lead); (str "MTrk", flute); (str "MTrk", horn)].
    split; [|split; [|split; [|split; [reflexivity|split; [reflexivity|split; [reflexivity|split; [lia|reflexivity]]]]]]].
    + apply (file_cons _ _ (str "MThd" ++ [0; 0; 0; 6] ++ head 2)); [apply (chunk_intro 77 84 104 100 0 0 0 6); try lia; reflexivity|].
      apply (file_cons _ _ (sample_track lead)); [apply (chunk_intro 77 84 114 107 0 0 0 16); try lia; reflexivity|].
      rewrite <- (app_nil_r (sample_track flute)). apply (file_cons _ _ (sample_track flute)); [apply (chunk_intro 77 84 114 107 0 0 0 17); try lia; reflexivity|constructor].
    + apply (file_cons _ _ (str "MThd" ++ [0; 0; 0; 6] ++ head 2)); [apply (chunk_intro 77 84 104 100 0 0 0 6); try lia; reflexivity|].
      apply (file_cons _ _ (sample_track lead)); [apply (chunk_intro 77 84 114 107 0 0 0 16); try lia; reflexivity|].
      rewrite <- (app_nil_r (sample_track horn)). apply (file_cons _ _ (sample_track horn)); [apply (chunk_intro 77 84 114 107 0 0 0 20); try lia; reflexivity|constructor].
    + apply (file_cons _ _ (str "MThd" ++ [0; 0; 0; 6] ++ head 3)); [apply (chunk_intro 77 84 104 100 0 0 0 6); try lia; reflexivity|].
      apply (file_cons _ _ (sample_track lead)); [apply (chunk_intro 77 84 114 107 0 0 0 16); try lia; reflexivity|].
      apply (file_cons _ _ (sample_track flute)); [apply (chunk_intro 77 84 114 107 0 0 0 17); try lia; reflexivity|].
      rewrite <- (app_nil_r (sample_track horn)). apply (file_cons _ _ (sample_track horn)); [apply (chunk_intro 77 84 114 107 0 0 0 20); try lia; reflexivity|constructor].
  - do 12 eexists. repeat (split; [vm_compute; reflexivity|]). vm_compute. reflexivity.
Qed.
