(** * RunSamples: command lines and worlds for the examples in PropRun.v. *)
From Coq Require Import Permutation.
From Verif Require Import Base Strings Tables Event Track File SpecTrack SpecSurvive Notes Manufacturer TextAssemble Template SpecTemplate TemplateProofs TemplateLoad TemplateLoadProofs TemplateSamples
  Flags Paths Cli SpecCli SpecRun SpecRunTemplate FlagProofs FlagConverse CliProofs Samples SampleProofs ReassembleSamples CliSamples.

(** A command line is what the parser makes of it. *)
Lemma asked_parsed : forall n c args vs rest, In (n, c) cli -> In (n, flagset c) documented -> parse_flags (flagset c) args = Parsed vs rest -> asked n args vs (hd [] rest).
Proof.
  intros n c args vs rest Ic Id P. exists (flagset c), rest. split; [exact Id|]. split; [|reflexivity].
  pose proof (parsed_only (flagset c) args) as H. rewrite P in H. exact H.
Qed.

(** The world of CliSamples.v with the templates that Template.v gives *)
Definition template_print (ts : trees) (name : bytes) (v : data) : outcome bytes := match print ts name v with (text, Done) => Ok text | _ => Err end.
Definition template_world : world :=
  World number (fun _ => true) (fun _ => true)
    (fun b => match read_templates b with
              | Ok us => match load_templates builtin us with
                         | Some ts => Some (Templates (fun s => template_print ts (str "document") (smf_data s)) (fun h => template_print ts (str "MThd") (header_data h))
                                                      (fun t => template_print ts (str "MTrk") (mtrk_data t)))
                         | None => None
                         end
              | _ => None
              end) [] (@rev nevent) in_order.

Lemma template_world_knows : knows_templates template_world.
Proof.
  exists (fun l => l). split; [intro us; apply Permutation_refl|]. intro b. cbn [w_templates template_world]. destruct (read_templates b) as [us| | | |] eqn:R; try (left; split; [discriminate|reflexivity]).
  right. exists us. split; [reflexivity|]. intros s text L. unfold listing in L. rewrite new_builtin, R in L. destruct (load_templates builtin us) as [ts|]; [|discriminate].
  injection L as L. eexists. split; [reflexivity|]. cbn [t_document]. unfold template_print. rewrite L. reflexivity.
Qed.

Ltac line vs c := refine (asked_parsed _ c _ vs [_] _ _ _); [cbn [cli In]; auto 12|cbn [documented flagset common app In]; tauto|vm_compute; reflexivity].

Lemma sample_lines : exists vs1 vs2 vs3,
  asked (str "disassemble") (argv ["-C4"; "--templates=t.json"; "--out"; "a.txt"; "song.mid"]%string) vs1 (str "song.mid") /\
  bool_setting (str "C4") vs1 true /\ string_setting (str "out") vs1 (str "a.txt") /\ string_setting (str "templates") vs1 (str "t.json") /\ bool_setting (str "split") vs1 false /\
  asked (str "notes") (argv ["--transpose"; "-0x0c"; "--json"; "song.mid"]%string) vs2 (str "song.mid") /\
  int_setting (str "transpose") vs2 (-12) /\ bool_setting (str "json") vs2 true /\ string_setting (str "out") vs2 [] /\
  asked (str "tsv") (argv ["--delimiter=;"; "--out=t.tsv"; "song.mid"]%string) vs3 (str "song.mid") /\
  string_setting (str "delimiter") vs3 (str ";") /\ bool_setting (str "tabular") vs3 false.
Proof.
  exists [(str "C4", VBool true); (str "templates", VString (str "t.json")); (str "out", VString (str "a.txt"))], [(str "transpose", VInt (-12)); (str "json", VBool true)],
    [(str "delimiter", VString (str ";")); (str "out", VString (str "t.tsv"))].
  split; [line [(str "C4", VBool true); (str "templates", VString (str "t.json")); (str "out", VString (str "a.txt"))] Disassemble_|].
  split; [left; reflexivity|]. split; [left; reflexivity|]. split; [left; reflexivity|]. split; [right; split; reflexivity|].
  split; [line [(str "transpose", VInt (-12)); (str "json", VBool true)] Notes_|].
  split; [left; reflexivity|]. split; [left; reflexivity|]. split; [right; split; reflexivity|].
  split; [line [(str "delimiter", VString (str ";")); (str "out", VString (str "t.tsv"))] Tsv_|].
  split; [left; reflexivity|right; split; reflexivity].
Qed.

(** What a run has left in a file *)
Definition left_in (r : result) (name : string) : bytes := match r_files r (number (str name)) with Some b => b | None => [] end.

Lemma sample_runs : let d := disk [("song.mid"%string, sample_file); ("t.json"%string, loaded_template)] in knows_templates template_world /\
  holds template_world d (str "song.mid") sample_file /\ decode (Env false manufacturers) sample_file = Ok sample_smf /\ f_tracks sample_smf <> [] /\
  (exists h, f_mthd sample_smf = Some h /\ h_ppqn h = 480) /\ holds template_world d (str "t.json") loaded_template /\
  exists text, r_ending (run template_world d (argv ["--templates=t.json"; "--out"; "a.txt"; "song.mid"]%string)) = Exit 0 /\
    r_files (run template_world d (argv ["--templates=t.json"; "--out"; "a.txt"; "song.mid"]%string)) (number (str "a.txt")) = Some text /\ contains text (str ">>> T") = true.
Proof.
  cbv zeta. split; [exact template_world_knows|]. split; [split; [discriminate|vm_compute; reflexivity]|]. split; [vm_compute; reflexivity|]. split; [discriminate|].
  split; [exists (match f_mthd sample_smf with Some h => h | None => MThd [] 0 0 0 0 0 false 0 0 false [] end); split; vm_compute; reflexivity|].
  split; [split; [discriminate|vm_compute; reflexivity]|].
  exists (left_in (run template_world (disk [("song.mid"%string, sample_file); ("t.json"%string, loaded_template)]) (argv ["--templates=t.json"; "--out"; "a.txt"; "song.mid"]%string)) "a.txt").
  split; [vm_compute; reflexivity|]. split; vm_compute; reflexivity.
Qed.

Lemma sample_writers : exists vs1 vs2,
  asked (str "transpose") (argv ["--semitones=-3"; "-out"; "a.mid"; "song.mid"]%string) vs1 (str "song.mid") /\ int_setting (str "semitones") vs1 (-3) /\ string_setting (str "out") vs1 (str "a.mid") /\
  asked (str "assemble") (argv ["--out"; "a.mid"; "song.json"]%string) vs2 (str "song.json") /\ ends_with (str "song.json") (str ".json") /\
  legal_smf sample_smf /\ Forall (fun t => faithful_events (Env false manufacturers) (t_events t)) (f_tracks sample_smf).
Proof.
  exists [(str "semitones", VInt (-3)); (str "out", VString (str "a.mid"))], [(str "out", VString (str "a.mid"))].
  split; [line [(str "semitones", VInt (-3)); (str "out", VString (str "a.mid"))] Transpose_|]. split; [left; reflexivity|]. split; [left; reflexivity|].
  split; [line [(str "out", VString (str "a.mid"))] Assemble_|]. split; [exists (str "song"); reflexivity|]. split; apply sample_legal.
Qed.

Lemma sample_written : let d := disk [("song.mid"%string, sample_file)] in
  let r1 := run open_world d (argv ["transpose"; "--semitones=-3"; "-out"; "a.mid"; "song.mid"]%string) in
  let r2 := run open_world d (argv ["export"; "--out"; "song.json"; "song.mid"]%string) in
  let r3 := run open_world (r_files r2) (argv ["assemble"; "--out"; "b.mid"; "song.json"]%string) in
  (exists bs s, r_files r1 (number (str "a.mid")) = Some bs /\ decode default_env bs = Ok s /\ note_values sample_smf = map (Z.add 3) (note_values s)) /\
  (exists bs s, r_ending r3 = Exit 0 /\ r_files r3 (number (str "b.mid")) = Some bs /\ decode default_env bs = Ok s /\ note_values s = note_values sample_smf).
Proof.
  cbv zeta. pose (d := disk [("song.mid"%string, sample_file)]). pose (r1 := run open_world d (argv ["transpose"; "--semitones=-3"; "-out"; "a.mid"; "song.mid"]%string)).
  pose (r2 := run open_world d (argv ["export"; "--out"; "song.json"; "song.mid"]%string)). pose (r3 := run open_world (r_files r2) (argv ["assemble"; "--out"; "b.mid"; "song.json"]%string)).
  pose (dec := fun b => match decode default_env b with Ok s => s | _ => SMF None [] end).
  split.
  - exists (left_in r1 "a.mid"), (dec (left_in r1 "a.mid")). split; [vm_compute; reflexivity|]. split; vm_compute; reflexivity.
  - exists (left_in r3 "b.mid"), (dec (left_in r3 "b.mid")). split; [vm_compute; reflexivity|]. split; [vm_compute; reflexivity|]. split; vm_compute; reflexivity.
Qed.
