(** * PropTemplate: theorems for C83 to C85. *)
From Verif Require Import Base Strings Tables Event Track File Utf8 Hex Disassemble DisassembleProofs Csv Template SpecTemplate TemplateProofs TemplateLoad TemplateLoadProofs TemplateSamples
  Reference.
From Coq Require Import Permutation.

(** C83: the template text that is part of the program parses, and what its execution writes for a file, a header, a track is the text that Disassemble.v gives
    (and C36, C45, C56 and C66 to C70 are about); where that has none, the execution ends with an error. *)
Theorem C83_embedded_template : exists ts, new_disassemble = Some ts /\
  (forall s, agrees (print ts (str "document") (smf_data s)) (disassemble s)) /\
  (forall h, agrees (print ts (str "MThd") (header_data h)) (match h with Some h => Ok (mthd_line h) | None => Err end)) /\
  (forall t, agrees (print ts (str "MTrk") (mtrk_data t)) (mtrk_text t)).
Proof. exact embedded_listing. Qed.
Print Assumptions C83_embedded_template.

(** Every file that can be decoded is listed to its end. *)
Theorem C83_decoded : forall env b s, is_bytes b -> decode env b = Ok s -> exists ts text, new_disassemble = Some ts /\
  print ts (str "document") (smf_data s) = (text, Done) /\ disassemble s = Ok text.
Proof. exact decoded_listing. Qed.
Print Assumptions C83_decoded.

(** The listing of the project's reference file is not empty; a file without a header has none. *)
Example C83_reference : exists ts s text, new_disassemble = Some ts /\ decode default_env assembled_reference = Ok s /\ disassemble s = Ok text /\
  print ts (str "document") (smf_data s) = (text, Done) /\ zlen text = 4617.
Proof. exact reference_listing. Qed.
Example C83_no_header : exists ts, new_disassemble = Some ts /\ print ts (str "document") (smf_data (SMF None [])) = ([], Failed).
Proof. exists builtin. split; [exact new_builtin|vm_compute; reflexivity]. Qed.

(** C84, full statement: the templates in a template file replace the built-in ones for the kinds of events they are named after, and nothing else in the listing
    changes.  Proved for files that leave the templates of the layout alone and define no others; missing: blank templates, for which it is false. *)
Theorem C84_listing_partial : forall templates us ts0 ts, read_templates templates = Ok us -> plain_templates us ->
  new_disassemble = Some ts0 -> load_templates ts0 us = Some ts ->
  (forall s, print ts (str "document") (smf_data s) = file_written (shown_for us ts) s) /\
  (forall h, print ts (str "MThd") (header_data h) = header_written h).
Proof. exact file_listing. Qed.
Print Assumptions C84_listing_partial.

(** Templates for kinds of events that the file does not have, or for no kind at all, change nothing. *)
Theorem C84_other_kinds_partial : forall templates us ts0 ts s, read_templates templates = Ok us -> plain_templates us ->
  new_disassemble = Some ts0 -> load_templates ts0 us = Some ts ->
  (forall t e, In t (f_tracks s) -> In e (t_events t) -> ~ In (kind_template (e_body e)) (map fst us)) ->
  print ts (str "document") (smf_data s) = print ts0 (str "document") (smf_data s).
Proof. exact other_kinds. Qed.
Print Assumptions C84_other_kinds_partial.

(** A template that is plain text, and not all white space, stands for every event of its kind. *)
Theorem C84_plain_text : forall us ts e text, assocb (kind_template (e_body e)) us = Some text -> contains text (str "{{") = false ->
  forallb space_char (runes text) = false -> shown_for us ts e = writes text.
Proof. exact plain_shown. Qed.
Print Assumptions C84_plain_text.

(** A template of white space does not replace the built-in one. *)
Theorem C84_blank_refuted : exists templates name text ts0 ts s, read_templates templates = Ok [(name, text)] /\ text <> [] /\ contains text (str "{{") = false /\
  new_disassemble = Some ts0 /\ load_templates ts0 [(name, text)] = Some ts /\
  (exists t e, In t (f_tracks s) /\ In e (t_events t) /\ kind_template (e_body e) = name /\ event_text e <> text) /\
  print ts (str "document") (smf_data s) = print ts0 (str "document") (smf_data s).
Proof. exact blank_ignored. Qed.
Print Assumptions C84_blank_refuted.

(** The template file of the project's test is such a file. *)
Example C84_test_file : exists us ts, read_templates loaded_template = Ok us /\ map fst us = [str "trackname"] /\ plain_templates us /\
  load_templates builtin us = Some ts /\
  exists text, shown_for us ts (Event 0 0 [0; 255; 3; 1; 88] 255 3 (TextEvent KTrackName (str "X"))) = writes text /\ text = str "03 TrackName              >>> X".
Proof. exact test_file. Qed.

(** C85, full statement: the listing does not depend on the order in which the map of templates is iterated.  Proved for template files none of whose texts
    defines a template; false otherwise. *)
Theorem C85_order_partial : forall templates us, read_templates templates = Ok us -> no_defines us ->
  forall o1 o2, Permutation (o1 us) us -> Permutation (o2 us) us -> forall name v, listing o1 templates name v = listing o2 templates name v.
Proof. exact listing_order. Qed.
Print Assumptions C85_order_partial.

(** One text defines the template that another one is: what is listed is up to the order. *)
Theorem C85_order_refuted : exists templates us s a b, read_templates templates = Ok us /\ decode default_env small_file = Ok s /\
  listing (fun l => l) templates (str "document") (smf_data s) = Some (a, Done) /\
  listing (@rev (bytes * bytes)) templates (str "document") (smf_data s) = Some (b, Done) /\ a <> b.
Proof. exact order_matters. Qed.
Print Assumptions C85_order_refuted.

Example C85_test_file : exists us, read_templates loaded_template = Ok us /\ no_defines us /\ Permutation (rev us) us.
Proof. exact test_file_order. Qed.
