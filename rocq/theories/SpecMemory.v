(** * SpecMemory: memory in proportion to the input. *)
From Coq Require Import Permutation.
From Verif Require Import Base Tables Event SpecEvent SpecFile SpecSays.

Definition sum (l : list Z) : Z := fold_right Z.add 0 l.

(** Apart from at most [k] of them, the requests do not exceed [n] bytes together. *)
Definition within (requests : list Z) (n k : Z) : Prop :=
  exists fulfilled others, Permutation requests (fulfilled ++ others) /\ sum fulfilled <= n /\ zlen others <= k.

(** Nothing is missing in the file: its chunks are complete, and so are the messages in its tracks. *)
Definition complete (table : list (bytes * manufacturer)) (r : bytes) : Prop :=
  exists items, file_bytes items r /\
    Forall (fun it => is_mtrk it = true -> exists evs rs op, tells table 0 false evs (snd it) rs op) items.
