(** * NamesSamples: a file under different settings. *)
From Verif Require Import Base Strings Tables Event SpecEvent Parse ParseProofs Track File Marshal Manufacturer Json JsonText JsonExportProofs JsonWriteProofs SpecText Validate Transpose Notes Conf SpecConf ConfSamples Cli CliSamples Samples SpecNames.

(** A note, a SysEx message of the manufacturer 7E, sequencer specific data of the manufacturer 00 7F 01. *)
Definition settings_file : bytes :=
  sample_header ++ sample_track sample_body0 ++
  sample_track [0; 144; 60; 64; 96; 128; 60; 0; 0; 240; 4; 126; 1; 2; 247; 0; 255; 127; 5; 0; 127; 1; 8; 9; 0; 255; 47; 0].

(** A configuration that gives the manufacturer 00 7F 01 the ID 09 7F 01 *)
Definition nine : list (bytes * bytes * bytes) := [([9; 127; 1], str "Here", str "Nine")].
Lemma nine_ok : configuration nine (conf_file nine).
Proof. apply conf_file_ok. repeat constructor; apply check_ascii; vm_compute; reflexivity. Qed.

Lemma settings_bytes : is_bytes settings_file.
Proof. apply check_bytes. vm_compute. reflexivity. Qed.

Lemma names_example : let a := Env false manufacturers in let b := Env true manufacturers in
  env_manufacturers a = env_manufacturers b /\ is_bytes settings_file /\ (exists s s', decode a settings_file = Ok s /\ decode b settings_file = Ok s' /\ s <> s') /\
  let d := disk [("song.mid"%string, settings_file)] in let r := run open_world d (argv ["transpose"; "--C4"; "--semitones"; "2"; "-out=up.mid"; "song.mid"]%string) in
  (forall i r, d i = Some r -> is_bytes r) /\ r_ending r = Exit 0 /\ r_files r (number (str "up.mid")) <> d (number (str "up.mid")).
Proof.
  cbv zeta. split; [reflexivity|]. split; [exact settings_bytes|]. split.
  - let x := eval vm_compute in (decode (Env false manufacturers) settings_file) in let y := eval vm_compute in (decode (Env true manufacturers) settings_file) in
    match x with Ok ?s => match y with Ok ?s' => exists s, s' end end. split; [vm_compute; reflexivity|]. split; [vm_compute; reflexivity|discriminate].
  - split.
    + intros i r. unfold disk. cbn [find]. destruct (i =? _); [|discriminate]. cbn [snd]. intro E. injection E as <-. exact settings_bytes.
    + split; [vm_compute; reflexivity|vm_compute; discriminate].
Qed.

Lemma conf_example : exists l l', configuration realtime (conf_file realtime) /\ configuration acme (conf_file acme) /\
  Forall (fun m => wire_id (fst (fst m))) realtime /\ Forall (fun m => wire_id (fst (fst m))) acme /\
  load_text default_env (conf_file realtime) = Ok l /\ load_text default_env (conf_file acme) = Ok l' /\
  exists s s', decode (add_manufacturers default_env l) settings_file = Ok s /\ decode (add_manufacturers default_env l') settings_file = Ok s' /\ s <> s'.
Proof.
  let x := eval vm_compute in (load_text default_env (conf_file realtime)) in let y := eval vm_compute in (load_text default_env (conf_file acme)) in
  match x with Ok ?s => match y with Ok ?s' => exists s, s' end end.
  split; [exact realtime_ok|]. split; [exact acme_ok|].
  split; [repeat constructor; lia|]. split; [constructor; [apply wi_one; lia|]; constructor; [apply wi_three; lia|]; constructor; [apply wi_one; lia|constructor]|].
  split; [vm_compute; reflexivity|]. split; [vm_compute; reflexivity|].
  match goal with |- exists s s', ?X = Ok s /\ ?Y = Ok s' /\ _ => let x := eval vm_compute in X in let y := eval vm_compute in Y in match x with Ok ?s => match y with Ok ?s' => exists s, s' end end end.
  split; [vm_compute; reflexivity|]. split; [vm_compute; reflexivity|discriminate].
Qed.

Lemma conf_refuted : exists ms s l r x y, configuration ms s /\ load_text default_env s = Ok l /\ is_bytes r /\
  (do f <- decode default_env r; encode f) = Ok x /\ (do f <- decode (add_manufacturers default_env l) r; encode f) = Ok y /\ x = r /\ y <> r /\
  ~ alike same_but_names (decode default_env r) (decode (add_manufacturers default_env l) r).
Proof.
  exists nine, (conf_file nine). let x := eval vm_compute in (load_text default_env (conf_file nine)) in match x with Ok ?s => exists s end.
  exists settings_file, settings_file.
  match goal with |- exists y, _ /\ _ /\ _ /\ _ /\ ?Y = Ok y /\ _ => let y := eval vm_compute in Y in match y with Ok ?s => exists s end end.
  split; [exact nine_ok|]. split; [vm_compute; reflexivity|]. split; [exact settings_bytes|]. split; [vm_compute; reflexivity|]. split; [vm_compute; reflexivity|]. split; [reflexivity|].
  split; [vm_compute; discriminate|]. vm_compute. discriminate.
Qed.
