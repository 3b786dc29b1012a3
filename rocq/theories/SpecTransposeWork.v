(** * SpecTransposeWork: what the work of transposing is measured against. *)
From Verif Require Import Base Event Track File.

(** The number of key signatures of a file. *)
Definition is_key (e : event) : bool := match e_body e with KeySignature _ _ _ => true | _ => false end.
Definition key_count (s : smf) : Z := zlen (filter is_key (concat (map t_events (f_tracks s)))).

(** [n] is the least number of twelves that takes [x] to zero or above. *)
Definition twelves (x n : Z) : Prop := 0 <= n /\ 0 <= x + 12 * n /\ (0 < n -> x + 12 * (n - 1) < 0).
