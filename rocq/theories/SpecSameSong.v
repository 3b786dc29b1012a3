(** * SpecSameSong: files that hold the same messages, each written in its own way.

    Independent of how the program reads them: chunks (SpecFile) and messages on the wire (SpecPacket) only. *)
From Verif Require Import Base Tables Event SpecPacket SpecFile SpecHistory Track File Cli.

(** The running status after a message: the status byte of a channel message, none (0) after any other. *)
Definition status_after (k : packet) : Z := match k with PChan st _ => st | PMeta _ _ | PSys _ _ => 0 end.

(** The bytes are these messages with these delta times, when the running status is [rs]: each with or without its status byte where that is allowed, and
    with numbers of whatever length. *)
Inductive packets : Z -> list (Z * packet) -> bytes -> Prop :=
| ps_nil : forall rs, packets rs [] []
| ps_cons : forall rs delta k l p r, shape rs p delta k -> packets (status_after k) l r -> packets rs ((delta, k) :: l) (p ++ r).

(** Track bodies with the same messages and, after these, the same bytes *)
Definition same_track (b b' : bytes) : Prop :=
  exists l x y rest, packets 0 l x /\ packets 0 l y /\ b = x ++ rest /\ b' = y ++ rest.

(** Files with the same first chunk (the header) and the same tracks in the same order; other chunks may be anywhere after the first. *)
Definition same_song (r r' : bytes) : Prop :=
  exists header items items', readable (header :: items) r /\ readable (header :: items') r' /\
    Forall2 (fun it it' => same_track (snd it) (snd it')) (filter is_mtrk items) (filter is_mtrk items').

(** What the program has read, without the bytes of the file: they are kept with every event and every track, and the length with the track. *)
Definition track_read (t : mtrk) : mtrk := MTrk (t_tag t) (t_number t) 0 [] (map no_bytes (t_events t)) (t_ctx t).
Definition same_reading (s s' : smf) : Prop := f_mthd s = f_mthd s' /\ map track_read (f_tracks s) = map track_read (f_tracks s').

(** In addition without the state of the reader at the end of the track; only that there is one is kept *)
Definition track_gist (t : mtrk) : mtrk := MTrk (t_tag t) (t_number t) 0 [] (map no_bytes (t_events t)) (option_map (fun _ => new_context) (t_ctx t)).
Definition same_gist (s s' : smf) : Prop := f_mthd s = f_mthd s' /\ map track_gist (f_tracks s) = map track_gist (f_tracks s').

(** Disks with the same files, but for how a MIDI file is written *)
Definition same_disks (d d' : files) : Prop :=
  forall i, d i = d' i \/ exists r r', d i = Some r /\ d' i = Some r' /\ same_song r r'.

(** Runs that end the same way, print the same and leave the same files *)
Definition same_run (x y : result) : Prop :=
  r_ending x = r_ending y /\ r_stdout x = r_stdout y /\ same_disks (r_files x) (r_files y).
