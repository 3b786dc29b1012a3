(** * How the assembly of a JSON document ends: C110.  Theorems only; proofs in JsonEndProofs.v and JsonEndRunProofs.v. *)
From Verif Require Import Base Strings Tables Event Track File SpecTable NoteProofs Manufacturer Json JsonText SpecJsonText SpecJsonEvent SpecSource SpecJsonEnd JsonEndProofs JsonEndRunProofs
  Flags Cli SpecCli SpecRun SpecExit Samples CliSamples RunSamples.

(** C110: a JSON value crashes the reading of an event, or makes it hang, exactly if all its fields can be read and have such values. *)
Theorem C110_event : forall env v,
  (unmarshal_json env v = Panic <-> event_with crash_values v) /\ (unmarshal_json env v = Loop <-> event_with hang_values v) /\
  ((exists e, unmarshal_json env v = Ok e) <-> well (env_manufacturers env) (middle_octave env) v) /\ unmarshal_json env v <> Eof.
Proof. exact event_ends. Qed.
Print Assumptions C110_event.

(** A document is assembled exactly if nothing is wrong with it, and crashes the program or makes it hang exactly if that is the first thing wrong; else it is refused. *)
Theorem C110_document : forall env v,
  ((exists bs, assemble_json env v = Ok bs) <-> document_well (env_manufacturers env) (middle_octave env) v) /\
  (assemble_json env v = Panic <-> document_crashes (env_manufacturers env) (middle_octave env) v) /\
  (assemble_json env v = Loop <-> document_hangs (env_manufacturers env) (middle_octave env) v) /\ assemble_json env v <> Eof.
Proof. exact document_ends. Qed.
Print Assumptions C110_document.

(** From the command line on *)
Theorem C110_run : forall w d args vs file c4 out src, asked (str "assemble") args vs file -> bool_setting (str "C4") vs c4 -> string_setting (str "out") vs out ->
  let middle := middle_octave (Env c4 manufacturers) in
  holds w d file src -> is_bytes src -> ends_with file (str ".json") ->
  let e := r_ending (run w d (str "assemble" :: args)) in
  (e = Exit 0 <-> can_write w out /\ exists v, starts_with_json src v /\ document_well manufacturers middle v) /\
  (e = Crashed <-> exists v, starts_with_json src v /\ document_crashes manufacturers middle v) /\
  (e = Hung <-> exists v, starts_with_json src v /\ document_hangs manufacturers middle v) /\
  In e [Exit 0; Exit 1; Crashed; Hung].
Proof. exact json_run_ends. Qed.
Print Assumptions C110_run.

(** Documents with one track of these events *)
Definition header_text : bytes := str "{""header"":{""tag"":""MThd"",""format"":0,""PPQN"":480},".
Definition document (events : bytes) : bytes := header_text ++ str """tracks"":[{""tag"":""MTrk"",""events"":[" ++ events ++ str "]}]}".
Definition note_text (velocity : Z) : bytes := str "{""event"":{""tag"":""NoteOn"",""velocity"":" ++ dec velocity ++ str "}}".
Definition time_text (denominator : Z) : bytes := str "{""event"":{""tag"":""TimeSignature"",""denominator"":" ++ dec denominator ++ str "}}".
Definition odd_text : bytes := str "{""event"":{""tag"":""Strange""}}".
Definition json_disk : files := disk [("good.json"%string, document (note_text 127 ++ [44] ++ time_text 128)); ("loud.json"%string, document (note_text 128 ++ [44] ++ odd_text));
  ("odd.json"%string, document (odd_text ++ [44] ++ note_text 128)); ("time.json"%string, document (note_text 0 ++ [44] ++ time_text 129)); ("empty.json"%string, document []);
  ("first.json"%string, document (note_text 128 ++ [44] ++ time_text 129)); ("none.json"%string, header_text ++ str """tracks"":[]} and more"); ("half.json"%string, header_text)].
Definition assembled (file : string) : ending := r_ending (run open_world json_disk (argv ["assemble"; "--out"; "a.mid"; file]%string)).

Example C110_endings : map assembled ["good.json"; "none.json"; "loud.json"; "first.json"; "empty.json"; "time.json"; "odd.json"; "half.json"]%string =
  [Exit 0; Exit 0; Crashed; Crashed; Crashed; Hung; Exit 1; Exit 1].
Proof. vm_compute. reflexivity. Qed.

Definition tree (s : bytes) : json := match read_text s with Ok (v, _) => v | _ => JNull end.

Example C110_example : exists vs,
  asked (str "assemble") (argv ["--out"; "a.mid"; "loud.json"]%string) vs (str "loud.json") /\ bool_setting (str "C4") vs false /\ string_setting (str "out") vs (str "a.mid") /\
  holds open_world json_disk (str "loud.json") (document (note_text 128 ++ [44] ++ odd_text)) /\ ends_with (str "loud.json") (str ".json") /\
  document_well manufacturers 4 (tree (document (note_text 127 ++ [44] ++ time_text 128))) /\ document_crashes manufacturers 4 (tree (document (note_text 128 ++ [44] ++ odd_text))) /\
  document_hangs manufacturers 4 (tree (document (note_text 0 ++ [44] ++ time_text 129))).
Proof.
  exists [(str "out", VString (str "a.mid"))]. split; [line [(str "out", VString (str "a.mid"))] Assemble_|]. split; [right; split; reflexivity|]. split; [left; reflexivity|].
  split; [split; [discriminate|vm_compute; reflexivity]|]. split; [exists (str "loud"); reflexivity|].
  split; [apply (proj1 (document_ends (Env false manufacturers) _)); eexists; vm_compute; reflexivity|].
  split; [apply (proj1 (proj2 (document_ends (Env false manufacturers) _))); vm_compute; reflexivity|].
  apply (proj1 (proj2 (proj2 (document_ends (Env false manufacturers) _)))). vm_compute. reflexivity.
Qed.

(** The value of the first event, without the reader *)
Example C110_loud : event_with crash_values (JObj [(str "event", JObj [(str "tag", JStr (str "NoteOn")); (str "velocity", JNum 128)])]).
Proof. apply (proj1 (event_ends (Env false manufacturers) _)). vm_compute. reflexivity. Qed.
