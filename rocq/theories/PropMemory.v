(** * Memory: C76.  Theorems only; proofs in MemoryProofs.v. *)
From Coq Require Import Permutation.
From Verif Require Import Base Strings Tables Event SpecEvent SpecPacket SpecFile SpecSays SpecMemory Parse Track File Memory
  SaysProofs MemoryProofs Samples.

(** C76, full statement: the buffers that decoding asks for are in proportion to the file.
      forall env r, is_bytes r -> sum (decode_requests env r) <= 2 * zlen r
    That is false (below).  Proved: for files in which nothing is missing it holds, and for all others apart
    from one request of the file and one for each of its tracks. *)
Theorem C76_requests_partial : forall env r, is_bytes r ->
  (exists k, 8 * k <= 8 + zlen r /\ within (decode_requests env r) (2 * zlen r) k) /\
  (complete (env_manufacturers env) r -> within (decode_requests env r) (2 * zlen r) 0).
Proof. exact decode_within. Qed.
Print Assumptions C76_requests_partial.

(** A complete file: a text, a note and the end of the track. *)
Example C76_example : complete (env_manufacturers default_env)
    (single_header ++ sample_track [0; 255; 1; 2; 72; 105; 0; 144; 60; 100; 0; 255; 47; 0]) /\
  decode_requests default_env (single_header ++ sample_track [0; 255; 1; 2; 72; 105; 0; 144; 60; 100; 0; 255; 47; 0]) = [6; 14; 2; 0].
Proof.
  split; [|vm_compute; reflexivity].
  exists [([77; 84; 104; 100], [0; 0; 0; 1; 1; 224]); (tag_mtrk, [0; 255; 1; 2; 72; 105; 0; 144; 60; 100; 0; 255; 47; 0])]. split.
  - apply (file_cons [77; 84; 104; 100] [0; 0; 0; 1; 1; 224] single_header); [apply (chunk_intro 77 84 104 100 0 0 0 6 [0; 0; 0; 1; 1; 224]); try lia; reflexivity|].
    change (sample_track [0; 255; 1; 2; 72; 105; 0; 144; 60; 100; 0; 255; 47; 0])
      with (([77; 84; 114; 107; 0; 0; 0; 14] ++ [0; 255; 1; 2; 72; 105; 0; 144; 60; 100; 0; 255; 47; 0]) ++ []).
    apply file_cons; [|constructor]. apply (chunk_intro 77 84 114 107 0 0 0 14); try lia. reflexivity.
  - constructor; [discriminate|]. constructor; [|constructor]. intros _. cbn [snd].
    exists [(0, CText KText [72; 105]); (0, CNoteOn 0 60 100); (0, CEndOfTrack)], 0, false.
    assert (V : forall b, 0 <= b < 128 -> reads [b] b).
    { intros b Hb. split; [constructor; exact Hb|]. cbn [SpecVlq.vlq_denotes length]. change (128 ^ Z.of_nat 0) with 1. lia. }
    apply (te_cons _ _ _ ([0] ++ 255 :: 1 :: [2] ++ [72; 105]) 0 (PMeta 1 [72; 105])).
    { apply sh_meta; [apply V; lia|exact (V 2 ltac:(lia))]. }
    { apply sy_text. reflexivity. }
    apply (te_cons _ _ _ ([0] ++ 144 :: [60; 100]) 0 (PChan 144 [60; 100])).
    { apply sh_status; [apply V; lia|lia|lia|lia|lia|reflexivity]. }
    { apply (sy_on _ _ 0 60 100); lia. }
    apply (te_cons _ _ _ ([0] ++ 255 :: 47 :: [0] ++ []) 0 (PMeta 47 []) _ _ []).
    { apply sh_meta; [apply V; lia|exact (V 0 ltac:(lia))]. }
    { apply sy_eot. reflexivity. }
    constructor.
Qed.

(** C76, finding: eight bytes make the program ask for 4 GiB, and so does each track of a small file that is
    accepted. *)
Theorem C76_proportional_refuted : exists r, zlen r = 8 /\ sum (decode_requests default_env r) = 4294967295 /\ decode default_env r = Err.
Proof. exists [77; 84; 104; 100; 255; 255; 255; 255]. repeat split; vm_compute; reflexivity. Qed.
Print Assumptions C76_proportional_refuted.

Theorem C76_accepted_refuted : exists r s, zlen r = 30 /\ decode default_env r = Ok s /\ decode_requests default_env r = [6; 8; 4294967295].
Proof.
  exists (single_header ++ sample_track [0; 255; 1; 143; 255; 255; 255; 127]).
  destruct (decode default_env (single_header ++ sample_track [0; 255; 1; 143; 255; 255; 255; 127])) as [s| | | |] eqn:E;
    [exists s|exfalso; vm_compute in E; discriminate..].
  split; [vm_compute; reflexivity|]. split; [reflexivity|]. vm_compute. reflexivity.
Qed.
Print Assumptions C76_accepted_refuted.
