(** * Settings and names: C97, C98.  Theorems only; proofs in NamesProofs.v, NamesNotesProofs.v, NamesRunsProofs.v, NamesConfProofs.v. *)
From Coq Require Import Permutation.
From Verif Require Import Base Strings Tables Event SpecEvent Parse Track File Marshal Manufacturer Assemble Json JsonText Validate Transpose Notes Cli CliSamples Conf SpecConf ConfSamples Samples SpecSameNotes SpecNames NamesProofs NamesNotesProofs NamesRunsProofs NamesConfProofs NamesSamples.

(** C97: the option for middle C changes the names of notes and nothing else.  A file is read as the same events ... *)
Theorem C97_read : forall a b r, env_manufacturers a = env_manufacturers b -> is_bytes r -> alike same_but_names (decode a r) (decode b r).
Proof. exact middle_c_read. Qed.
Print Assumptions C97_read.

(** ... from which the same file is written, the same faults are found, the same file is made by transposing, the same notes are listed, and the
    same lines of a click track are made. *)
Theorem C97_written : forall s s', same_but_names s s' -> encode s = encode s'.
Proof. exact encode_same. Qed.
Print Assumptions C97_written.
Theorem C97_validated : forall s s', same_but_names s s' -> alike (fun x y => map bare_report x = map bare_report y) (validate s) (validate s').
Proof. exact validate_same. Qed.
Print Assumptions C97_validated.
Theorem C97_transposed : forall a b n s s', same_but_names s s' -> transpose_execute a n s = transpose_execute b n s'.
Proof. exact transpose_same. Qed.
Print Assumptions C97_transposed.
Theorem C97_notes : forall a b steps order order' s s', (forall l, Permutation l (order l)) -> (forall l, Permutation l (order' l)) -> same_but_names s s' ->
  alike same_notes (extract a steps order s) (extract b steps order' s').
Proof. exact extract_same. Qed.
Print Assumptions C97_notes.
Theorem C97_click : forall s s', same_but_names s s' -> click_lines s = click_lines s'.
Proof. exact click_same. Qed.
Print Assumptions C97_click.

(** A JSON document is assembled to the same file. *)
Theorem C97_assembled : forall a b v, env_manufacturers a = env_manufacturers b -> assemble_json a v = assemble_json b v.
Proof. exact middle_c_assembled. Qed.
Print Assumptions C97_assembled.

(** On the command line: with the option these commands end in the same way, print the same and leave the same files. *)
Theorem C97_runs : forall w d n args, (forall i r, d i = Some r -> is_bytes r) -> In n [str "transpose"; str "assemble"; str "click"; str "humanise"] ->
  run w d (n :: str "--C4" :: args) = run w d (n :: args).
Proof. exact c4_runs. Qed.
Print Assumptions C97_runs.

Example C97_example : let a := Env false manufacturers in let b := Env true manufacturers in
  env_manufacturers a = env_manufacturers b /\ is_bytes settings_file /\ (exists s s', decode a settings_file = Ok s /\ decode b settings_file = Ok s' /\ s <> s') /\
  let d := disk [("song.mid"%string, settings_file)] in let r := run open_world d (argv ["transpose"; "--C4"; "--semitones"; "2"; "-out=up.mid"; "song.mid"]%string) in
  (forall i r, d i = Some r -> is_bytes r) /\ r_ending r = Exit 0 /\ r_files r (number (str "up.mid")) <> d (number (str "up.mid")).
Proof. exact names_example. Qed.

(** C98, full statement: another configuration of manufacturers changes the names of manufacturers and nothing else.  Proved: for configurations of the
    documented form that list IDs as files have them (one byte other than 00, or 00 and two more), a file is read as the same
    events, and the commands leave the same files; by C97_written to C97_click above the rest is the same, too. *)
Theorem C98_read_partial : forall c4 c4' ms ms' s s' l l' r, configuration ms s -> configuration ms' s' ->
  Forall (fun m => wire_id (fst (fst m))) ms -> Forall (fun m => wire_id (fst (fst m))) ms' ->
  load_text (Env c4 manufacturers) s = Ok l -> load_text (Env c4' manufacturers) s' = Ok l' -> is_bytes r ->
  alike same_but_names (decode (add_manufacturers (Env c4 manufacturers) l) r) (decode (add_manufacturers (Env c4' manufacturers) l') r).
Proof. exact conf_read. Qed.
Print Assumptions C98_read_partial.
Theorem C98_runs_partial : forall c4 c4' ms ms' s s' l l' w d out file n, configuration ms s -> configuration ms' s' ->
  Forall (fun m => wire_id (fst (fst m))) ms -> Forall (fun m => wire_id (fst (fst m))) ms' ->
  load_text (Env c4 manufacturers) s = Ok l -> load_text (Env c4' manufacturers) s' = Ok l' -> (forall i r, d i = Some r -> is_bytes r) ->
  let a := add_manufacturers (Env c4 manufacturers) l in let b := add_manufacturers (Env c4' manufacturers) l' in
  run_transpose w d a out file n = run_transpose w d b out file n /\ run_click w d a out file = run_click w d b out file /\ run_humanise w d a file = run_humanise w d b file.
Proof. exact conf_runs. Qed.
Print Assumptions C98_runs_partial.

Example C98_example : exists l l', configuration realtime (conf_file realtime) /\ configuration acme (conf_file acme) /\
  Forall (fun m => wire_id (fst (fst m))) realtime /\ Forall (fun m => wire_id (fst (fst m))) acme /\
  load_text default_env (conf_file realtime) = Ok l /\ load_text default_env (conf_file acme) = Ok l' /\
  exists s s', decode (add_manufacturers default_env l) settings_file = Ok s /\ decode (add_manufacturers default_env l') settings_file = Ok s' /\ s <> s'.
Proof. exact conf_example. Qed.

(** An ID that no file has: with a manufacturer 09 7F 01 in the configuration, data of the manufacturer 00 7F 01 is written as that of 09 7F 01 (lookup
    goes by the last two bytes), and a file that is read and written becomes another one. *)
Theorem C98_read_refuted : exists ms s l r x y, configuration ms s /\ load_text default_env s = Ok l /\ is_bytes r /\
  (do f <- decode default_env r; encode f) = Ok x /\ (do f <- decode (add_manufacturers default_env l) r; encode f) = Ok y /\ x = r /\ y <> r /\
  ~ alike same_but_names (decode default_env r) (decode (add_manufacturers default_env l) r).
Proof. exact conf_refuted. Qed.
Print Assumptions C98_read_refuted.
