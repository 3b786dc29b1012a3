(** * The order of tracks: C123.  Theorems only; proofs in TrackOrderProofs.v. *)
From Coq Require Import Permutation.
From Verif Require Import Base Tables Event SpecFile Track File Notes Transpose Validate SpecTrack SpecSlower SpecTrackOrder TrackOrderProofs Samples.

(** C123: files whose tracks after the first one are in another order are read alike ... *)
Theorem C123_read : forall env r r' s, tracks_reordered r r' -> decode env r = Ok s -> exists s', decode env r' = Ok s' /\ file_reordered s s'.
Proof. exact reordered_read. Qed.
Print Assumptions C123_read.

(** ... have the same notes ... *)
Theorem C123_notes : forall env s s' steps order order' ns, file_reordered s s' -> (forall l, Permutation l (order l)) -> (forall l, Permutation l (order' l)) ->
  extract env steps order s = Ok ns -> exists ns', extract env steps order' s' = Ok ns' /\ Permutation ns ns'.
Proof. exact reordered_notes. Qed.
Print Assumptions C123_notes.

(** ... break the same rules ... *)
Theorem C123_validated : forall s s' es, file_reordered s s' -> validate s = Ok es -> exists es', validate s' = Ok es' /\ Permutation (map unnumbered es) (map unnumbered es').
Proof. exact reordered_validated. Qed.
Print Assumptions C123_validated.

(** ... and are transposed alike. *)
Theorem C123_transposed : forall env steps s s' x, file_reordered s s' -> transpose_smf env steps s = Ok x ->
  exists x', transpose_smf env steps s' = Ok x' /\ file_reordered x x'.
Proof. exact reordered_transposed. Qed.
Print Assumptions C123_transposed.

(** A track with tempi, one with a note and one with another note and a tempo change *)
Definition conductor : bytes := [0; 255; 81; 3; 7; 161; 32; 0; 255; 47; 0].
Definition violin : bytes := [0; 144; 60; 100; 131; 96; 128; 60; 0; 0; 255; 47; 0].
Definition cello : bytes := [0; 255; 81; 3; 15; 66; 64; 0; 145; 48; 100; 131; 96; 129; 48; 0; 0; 255; 47; 0].
Definition trio_header : bytes := [0; 1; 0; 3; 1; 224].
Definition trio (a b : bytes) : bytes := (str "MThd" ++ [0; 0; 0; 6] ++ trio_header) ++ sample_track conductor ++ sample_track a ++ sample_track b.

Example C123_example : tracks_reordered (trio violin cello) (trio cello violin) /\
  exists s s' ns ns' es es' x x', decode default_env (trio violin cello) = Ok s /\ decode default_env (trio cello violin) = Ok s' /\
    extract default_env 0 (fun l => l) s = Ok ns /\ extract default_env 0 (fun l => l) s' = Ok ns' /\
    map (fun o => (o_ch o, o_note o, o_start o, o_end o)) ns = [(0, 60, 0, 500000000); (1, 48, 0, 500000000)] /\
    map (fun o => (o_ch o, o_note o, o_start o, o_end o)) ns' = [(1, 48, 0, 500000000); (0, 60, 0, 500000000)] /\
    validate s = Ok es /\ validate s' = Ok es' /\ length es = 1%nat /\ es <> es' /\ map unnumbered es = map unnumbered es' /\
    transpose_smf default_env 1 s = Ok x /\ transpose_smf default_env 1 s' = Ok x' /\ map t_number (f_tracks x) = map t_number (f_tracks x').
Proof.
  split.
  - exists (str "MThd", trio_header), (str "MTrk", conductor), [(str "MTrk", violin); (str "MTrk", cello)], [(str "MTrk", cello); (str "MTrk", violin)],
      [(str "MTrk", conductor); (str "MTrk", violin); (str "MTrk", cello)], [(str "MTrk", conductor); (str "MTrk", cello); (str "MTrk", violin)].
    split; [|split; [|split; [reflexivity|split; [reflexivity|apply perm_swap]]]].
    + apply (file_cons _ _ (str "MThd" ++ [0; 0; 0; 6] ++ trio_header)); [apply (chunk_intro 77 84 104 100 0 0 0 6); try lia; reflexivity|].
      apply (file_cons _ _ (sample_track conductor)); [apply (chunk_intro 77 84 114 107 0 0 0 11); try lia; reflexivity|].
      apply (file_cons _ _ (sample_track violin)); [apply (chunk_intro 77 84 114 107 0 0 0 13); try lia; reflexivity|].
      rewrite <- (app_nil_r (sample_track cello)).
      apply (file_cons _ _ (sample_track cello)); [apply (chunk_intro 77 84 114 107 0 0 0 20); try lia; reflexivity|constructor].
    + apply (file_cons _ _ (str "MThd" ++ [0; 0; 0; 6] ++ trio_header)); [apply (chunk_intro 77 84 104 100 0 0 0 6); try lia; reflexivity|].
      apply (file_cons _ _ (sample_track conductor)); [apply (chunk_intro 77 84 114 107 0 0 0 11); try lia; reflexivity|].
      apply (file_cons _ _ (sample_track cello)); [apply (chunk_intro 77 84 114 107 0 0 0 20); try lia; reflexivity|].
      rewrite <- (app_nil_r (sample_track violin)).
      apply (file_cons _ _ (sample_track violin)); [apply (chunk_intro 77 84 114 107 0 0 0 13); try lia; reflexivity|constructor].
  - do 8 eexists. repeat (split; [vm_compute; reflexivity|]). split; [vm_compute; discriminate|]. repeat (split; [vm_compute; reflexivity|]). vm_compute. reflexivity.
Qed.
