(** * SpecRewritten: files as they are read without a manufacturer table, and files written anew. *)
From Verif Require Import Base Strings Tables Event SpecEvent Track File SpecTrack SpecTranspose SpecSameSong Cli.

(** The settings with an empty manufacturer table: manufacturers are the IDs in the file and have no names. *)
Definition unnamed (env : env) : Event.env := Env (env_c4 env) [].

(** The first entry under the key of [id], or else an unknown manufacturer with that ID *)
Definition filed (env : env) (id : bytes) : manufacturer :=
  match find (fun entry => bytes_eqb (fst entry) (id_key id)) (env_manufacturers env) with
  | Some (_, m) => m
  | None => Manufacturer id (str "<unknown>") (str "<unknown>")
  end.

(** The same event, track and file with the entry for each manufacturer ID *)
Definition named_body (env : env) (b : body) : body :=
  match b with
  | SequencerSpecific m d => SequencerSpecific (filed env (m_id m)) d
  | SysExMessage m d single => SysExMessage (filed env (m_id m)) d single
  | _ => b
  end.
Definition named_event (env : env) (e : event) : event :=
  Event (e_tick e) (e_delta e) (e_bytes e) (e_status e) (e_type e) (named_body env (e_body e)).
Definition named_track (env : env) (t : mtrk) : mtrk :=
  MTrk (t_tag t) (t_number t) (t_length t) (t_bytes t) (map (named_event env) (t_events t)) (t_ctx t).
Definition named_file (env : env) (s : smf) : smf := SMF (f_mthd s) (map (named_track env) (f_tracks s)).

(** Two files with the same header fields and, track by track, the same delta times and contents, the manufacturer IDs being those in the file *)
Definition same_contents (env : env) (r r' : bytes) : Prop :=
  exists w w' h h', decode (unnamed env) r = Ok w /\ decode (unnamed env) r' = Ok w' /\ f_mthd w = Some h /\ f_mthd w' = Some h' /\ same_header h h' /\
    smf_contents w = smf_contents w'.

(** [r'] is what the program writes for what it has read from [r]: a file that can be written, whose manufacturers are filed under their own IDs. *)
Definition rewritten (env : env) (r r' : bytes) : Prop :=
  exists w s, decode (unnamed env) r = Ok w /\ legal_smf w /\ Forall (fun t => faithful_events env (t_events t)) (f_tracks w) /\
    decode env r = Ok s /\ encode s = Ok r' /\ zlen r' < 4294967296.

(** Disks with the same files, but that some are written anew (with the built-in table, and whatever middle C is called) *)
Definition disks_rewritten (d d' : files) : Prop :=
  forall i, d i = d' i \/ exists r r', d i = Some r /\ d' i = Some r' /\ is_bytes r /\ forall c4, rewritten (Env c4 manufacturers) r r'.
(** Runs that end the same way, print the same and leave such disks *)
Definition run_rewritten (x y : result) : Prop :=
  r_ending x = r_ending y /\ r_stdout x = r_stdout y /\ disks_rewritten (r_files x) (r_files y).

(** A file that can be read and written, whose manufacturers are filed under their own IDs *)
Definition writable (env : env) (r : bytes) : Prop :=
  exists w, decode (unnamed env) r = Ok w /\ legal_smf w /\ Forall (fun t => faithful_events env (t_events t)) (f_tracks w).
