(** * SpecJoined: the tracks of two files put into one. *)
From Verif Require Import Base Tables Event SpecFile Track File SpecTrack.

(** Three files with the same format and division in the header and the same first track.  The other tracks of the third one are those of the first one followed by those of
    the second one, and its header tells their number.  (Chunks that are no tracks may lie anywhere.) *)
Definition files_joined (r u r' : bytes) : Prop :=
  exists f0 f1 d0 d1 a b a1 b1 a2 b2 first rest rest1 items items1 items2,
    file_bytes ((str "MThd", [f0; f1; a; b; d0; d1]) :: items) r /\ file_bytes ((str "MThd", [f0; f1; a1; b1; d0; d1]) :: items1) u /\
    file_bytes ((str "MThd", [f0; f1; a2; b2; d0; d1]) :: items2) r' /\
    filter is_mtrk items = first :: rest /\ filter is_mtrk items1 = first :: rest1 /\ filter is_mtrk items2 = first :: rest ++ rest1 /\
    0 <= b2 < 256 /\ a2 * 256 + b2 = 1 + zlen rest + zlen rest1.

(** What a header says besides the number of tracks *)
Definition timing (h : mthd) : Z * Z * Z * bool * Z * Z * bool := (h_format h, h_division h, h_ppqn h, h_smpte h, h_subframes h, h_fps h, h_drop h).

(** The files in memory: tracks are the same but for the numbers of those of the second file. *)
Definition joined (s u s' : smf) : Prop :=
  option_map timing (f_mthd s) = option_map timing (f_mthd s') /\ option_map timing (f_mthd u) = option_map timing (f_mthd s') /\
  exists t0 u0 ts us us', f_tracks s = t0 :: ts /\ f_tracks u = u0 :: us /\ f_tracks s' = t0 :: ts ++ us' /\
    same_track t0 u0 /\ t_number t0 = 0 /\ t_number u0 = 0 /\ Forall2 same_track us us' /\
    Forall (fun t => t_number t <> 0) us /\ Forall (fun t => t_number t <> 0) us'.

(** A file with the first track of [s] only *)
Definition first_track (s : smf) : smf := SMF (f_mthd s) (firstn 1 (f_tracks s)).
