(** * TemplateSamples: template files for the examples in PropTemplate.v. *)
From Verif Require Import Base Strings Tables Event Track File Disassemble Template TemplateLoad Reference.

(** The template file of TestDisassembleWithLoadedTemplate (ops/disassemble/disassemble_test.go:131-135) *)
Definition loaded_template : bytes :=
  text_lines ["{"; "  ""templates"": {"; "    ""trackname"": ""{{.Type}} {{pad 22 .Tag}} >>> {{.Name}}"""; "  }"]%string ++ str "}".

(** A template that is one blank *)
Definition blank_template : bytes := str "{ ""templates"": { ""endoftrack"": "" "" } }".

(** Two templates, one of which also defines the other *)
Definition twice_defined : bytes :=
  str "{ ""templates"": { ""text"": ""A"", ""lyric"": ""{{define \""text\""}}B{{end}}{{.Lyric}}"" } }".

(** A file with a text event, a note and the end of the track *)
Definition small_file : bytes :=
  [77; 84; 104; 100; 0; 0; 0; 6; 0; 0; 0; 1; 1; 224; 77; 84; 114; 107; 0; 0; 0; 17; 0; 255; 1; 1; 88; 0; 144; 60; 64; 96; 128; 60; 64; 0; 255; 47; 0].
Definition small_smf : smf := match decode default_env small_file with Ok s => s | _ => SMF None [] end.

From Verif Require Import SpecTemplate TemplateProofs TemplateLoadProofs DisassembleProofs.
From Coq Require Import Permutation.

(** ** What happens with them *)

Lemma decoded_listing : forall env b s, is_bytes b -> decode env b = Ok s -> exists ts text, new_disassemble = Some ts /\
  print ts (str "document") (smf_data s) = (text, Done) /\ disassemble s = Ok text.
Proof.
  intros env b s B D. destruct (decoded_disassembles env b s B D) as (text & E). destruct embedded_listing as (ts & N & H & _).
  exists ts, text. specialize (H s). rewrite E in H. cbn [agrees] in H. split; [exact N|]. split; [exact H|exact E].
Qed.

Definition fresh (us : list (bytes * bytes)) : trees := match load_templates builtin us with Some t => t | None => [] end.

Lemma blank_ignored : exists templates name text ts0 ts s, read_templates templates = Ok [(name, text)] /\ text <> [] /\ contains text (str "{{") = false /\
  new_disassemble = Some ts0 /\ load_templates ts0 [(name, text)] = Some ts /\
  (exists t e, In t (f_tracks s) /\ In e (t_events t) /\ kind_template (e_body e) = name /\ event_text e <> text) /\
  print ts (str "document") (smf_data s) = print ts0 (str "document") (smf_data s).
Proof.
  exists blank_template, (str "endoftrack"), (str " "), builtin, (fresh [(str "endoftrack", str " ")]), small_smf.
  split; [vm_compute; reflexivity|]. split; [discriminate|]. split; [reflexivity|]. split; [exact new_builtin|]. split; [vm_compute; reflexivity|]. split.
  - exists (hd (MTrk [] 0 0 [] [] None) (f_tracks small_smf)), (nth 3 (t_events (hd (MTrk [] 0 0 [] [] None) (f_tracks small_smf))) (Event 0 0 [] 0 0 EndOfTrack)).
    split; [left; vm_compute; reflexivity|]. split; [do 3 right; left; vm_compute; reflexivity|]. split; [vm_compute; reflexivity|]. vm_compute. discriminate.
  - vm_compute. reflexivity.
Qed.

Lemma test_file : exists us ts, read_templates loaded_template = Ok us /\ map fst us = [str "trackname"] /\ plain_templates us /\
  load_templates builtin us = Some ts /\
  exists text, shown_for us ts (Event 0 0 [0; 255; 3; 1; 88] 255 3 (TextEvent KTrackName (str "X"))) = writes text /\ text = str "03 TrackName              >>> X".
Proof.
  pose (us := [(str "trackname", str "{{.Type}} {{pad 22 .Tag}} >>> {{.Name}}")]).
  exists us, (fresh us). split; [vm_compute; reflexivity|]. split; [reflexivity|]. split.
  - intros name text [I|[]]. injection I as <- <-. split; [vm_compute; reflexivity|]. cbn. intuition discriminate.
  - split; [vm_compute; reflexivity|]. exists (str "03 TrackName              >>> X"). split; [vm_compute; reflexivity|reflexivity].
Qed.

Lemma order_matters : exists templates us s a b, read_templates templates = Ok us /\ decode default_env small_file = Ok s /\
  listing (fun l => l) templates (str "document") (smf_data s) = Some (a, Done) /\
  listing (@rev (bytes * bytes)) templates (str "document") (smf_data s) = Some (b, Done) /\ a <> b.
Proof.
  pose (out := fun o : list (bytes * bytes) -> list (bytes * bytes) => match listing o twice_defined (str "document") (smf_data small_smf) with Some (a, _) => a | None => [] end).
  exists twice_defined, (match read_templates twice_defined with Ok us => us | _ => [] end), small_smf, (out (fun l => l)), (out (@rev (bytes * bytes))).
  split; [vm_compute; reflexivity|]. split; [vm_compute; reflexivity|]. split; [vm_compute; reflexivity|]. split; [vm_compute; reflexivity|]. vm_compute. discriminate.
Qed.

Lemma test_file_order : exists us, read_templates loaded_template = Ok us /\ no_defines us /\ Permutation (rev us) us.
Proof.
  exists [(str "trackname", str "{{.Type}} {{pad 22 .Tag}} >>> {{.Name}}")]. split; [vm_compute; reflexivity|]. split; [|reflexivity].
  intros name text [I|[]]. injection I as <- <-. vm_compute. reflexivity.
Qed.

(** The listing of ops/assemble/test-files/reference.mid *)
Definition reference_smf : smf := match decode default_env assembled_reference with Ok s => s | _ => SMF None [] end.
Lemma reference_listing : exists ts s text, new_disassemble = Some ts /\ decode default_env assembled_reference = Ok s /\ disassemble s = Ok text /\
  print ts (str "document") (smf_data s) = (text, Done) /\ zlen text = 4617.
Proof.
  exists builtin, reference_smf, (match disassemble reference_smf with Ok t => t | _ => [] end). split; [exact new_builtin|].
  split; [vm_compute; reflexivity|]. split; [vm_compute; reflexivity|]. split; vm_compute; reflexivity.
Qed.
