(** * SpecTrackOrder: files with the same tracks after the first one in another order. *)
From Coq Require Import Permutation.
From Verif Require Import Base Tables Event SpecFile Track File SpecTrack Validate SpecSlower.

(** The same header and first track; the other track chunks in any order, with any other chunks between them *)
Definition tracks_reordered (r r' : bytes) : Prop :=
  exists header first rest rest' items items', file_bytes (header :: items) r /\ file_bytes (header :: items') r' /\
    filter is_mtrk items = first :: rest /\ filter is_mtrk items' = first :: rest' /\ Permutation rest rest'.

(** The file in memory: the later tracks are the same one to one but for their numbers. *)
Definition file_reordered (s s' : smf) : Prop :=
  f_mthd s' = f_mthd s /\
  exists t0 t0' ts ts', f_tracks s = t0 :: ts /\ f_tracks s' = t0' :: ts' /\ same_track t0 t0' /\ t_number t0 = 0 /\ t_number t0' = 0 /\
    Forall (fun t => t_number t <> 0) ts /\ Forall (fun t => t_number t <> 0) ts' /\ matched same_track ts ts'.

(** A violation without the number of the track if it is not the first one *)
Definition later_track (n : Z) : Z := if n =? 0 then 0 else 1.
Definition unnumbered (v : verror) : verror :=
  match v with
  | VTrackCount n => VTrackCount n
  | VTrack0Unexpected e => VTrack0Unexpected e
  | VTrackUnexpected t e => VTrackUnexpected (later_track t) e
  | VEotNotLast t i e => VEotNotLast (later_track t) i e
  | VEotMissing t => VEotMissing (later_track t)
  | VMsbMissingLsb t i => VMsbMissingLsb (later_track t) i
  | VLsbMissingMsb t i => VLsbMissingMsb (later_track t) i
  | VMsbOtherChannel t i => VMsbOtherChannel (later_track t) i
  | VLsbOtherChannel t i => VLsbOtherChannel (later_track t) i
  end.
