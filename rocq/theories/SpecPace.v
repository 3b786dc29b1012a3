(** * SpecPace: files with the same messages at other times.

    Independent of how the program reads them: chunks (SpecFile) and messages on the wire (SpecPacket) only. *)
From Verif Require Import Base Strings Tables Event SpecPacket SpecFile SpecHistory Track File Notes SpecSameSong.

(** ** Other delta times *)

(** Track bodies with the same messages, each at any time *)
Definition track_retimed (b b' : bytes) : Prop := exists l l', packets 0 l b /\ packets 0 l' b' /\ map snd l = map snd l'.
(** Files with the same header and such tracks *)
Definition song_retimed (r r' : bytes) : Prop :=
  exists header items items', readable (header :: items) r /\ readable (header :: items') r' /\
    Forall2 (fun it it' => track_retimed (snd it) (snd it')) (filter is_mtrk items) (filter is_mtrk items').

(** What is left of an event without its times and bytes *)
Definition no_times (e : event) : event := Event 0 0 [] (e_status e) (e_type e) (e_body e).
Definition track_but_times (t t' : mtrk) : Prop :=
  t_tag t' = t_tag t /\ t_number t' = t_number t /\ map no_times (t_events t') = map no_times (t_events t) /\ t_ctx t' = t_ctx t.
Definition file_but_times (s s' : smf) : Prop := f_mthd s' = f_mthd s /\ Forall2 track_but_times (f_tracks s) (f_tracks s').

(** ** Another resolution *)

(** All delta times multiplied; the track lasts less than 2^30 ticks even then *)
Definition total (l : list (Z * packet)) : Z := fold_right Z.add 0 (map fst l).
Definition track_scaled (k : Z) (b b' : bytes) : Prop :=
  exists l, packets 0 l b /\ packets 0 (map (fun x => (k * fst x, snd x)) l) b' /\ k * total l < 1073741824.
(** The ticks per quarter note multiplied *)
Definition header_scaled (k : Z) (h h' : bytes) : Prop :=
  exists a b c d e f e' f', h = [a; b; c; d; e; f] /\ h' = [a; b; c; d; e'; f'] /\ 0 <= e /\ 0 <= f < 256 /\ 0 <= e' /\ 0 <= f' < 256 /\
    e' * 256 + f' = k * (e * 256 + f) /\ e' * 256 + f' < 32768.
Definition song_scaled (k : Z) (r r' : bytes) : Prop :=
  exists tag h h' items items', readable ((tag, h) :: items) r /\ readable ((tag, h') :: items') r' /\ header_scaled k h h' /\
    Forall2 (fun it it' => track_scaled k (snd it) (snd it')) (filter is_mtrk items) (filter is_mtrk items').

(** The event at the new resolution *)
Definition finer (k : Z) (e : event) : event := Event (k * e_tick e) (k * e_delta e) [] (e_status e) (e_type e) (e_body e).
Definition header_finer (k : Z) (h h' : mthd) : Prop :=
  h_tag h' = h_tag h /\ h_length h' = h_length h /\ h_format h' = h_format h /\ h_tracks h' = h_tracks h /\ h_division h' = k * h_division h /\ h_ppqn h' = k * h_ppqn h /\
  h_smpte h = false /\ h_smpte h' = false.
Definition track_finer (k : Z) (t t' : mtrk) : Prop :=
  t_tag t' = t_tag t /\ t_number t' = t_number t /\ map no_bytes (t_events t') = map (finer k) (t_events t) /\ t_ctx t' = t_ctx t.
Definition file_finer (k : Z) (s s' : smf) : Prop :=
  (exists h h', f_mthd s = Some h /\ f_mthd s' = Some h' /\ header_finer k h h') /\ Forall2 (track_finer k) (f_tracks s) (f_tracks s').

(** A listed note at the new resolution: at the same times *)
Definition note_finer (k : Z) (n : note_out) : note_out :=
  NoteOut (o_ch n) (o_note n) (o_name n) (o_vel n) (k * o_start_tick n) (k * o_end_tick n) (o_start n) (o_end n) (o_duration n).
