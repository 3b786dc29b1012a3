(** * PropUserTemplate: theorems for C100. *)
From Verif Require Import Base Strings Tables Event Track File Utf8 Hex Disassemble Csv Template SpecTemplate TemplateLoad TemplateSamples
  SpecUserTemplate SpecUserListing UserTemplateProofs UserListingProofs UserTemplateSamples.
From Coq Require Import Permutation.

(** C100: a template of words, fields, [pad], [ellipsize], [len], [valign] and choices, written as in the documentation, can be read, and its execution writes what it says
    about the event (SpecUserTemplate.v), whatever other templates there are. *)
Theorem C100_template : forall name T, good T -> exists ns, parse_template name (source T) = Some [(name, ns)] /\
  forall e a, says e T a -> forall ts depth, exec ts depth (inner_data e) ns = writes a.
Proof. exact template_written. Qed.
Print Assumptions C100_template.

(** If it asks for fields that the event has, it says something; and it says only one thing. *)
Theorem C100_total : forall e T, suits e T -> exists a, says e T a.
Proof. exact template_total. Qed.
Print Assumptions C100_total.

Theorem C100_one : forall e T a b, good T -> says e T a -> says e T b -> a = b.
Proof. exact template_one. Qed.
Print Assumptions C100_one.

(** The whole listing: with a template file of such templates, each event is shown as the template for its kind says, those of other kinds as without the
    file, as are those whose template is all white space; the rest of the listing does not change.  The order in which the templates are loaded does not matter. *)
Theorem C100_listing : forall templates Ts order s, read_templates templates = Ok (entries Ts) -> usable Ts -> fits Ts s ->
  Permutation (order (entries Ts)) (entries Ts) ->
  exists text_of, (forall e, event_of s e -> shows Ts e (text_of e)) /\
    listing order templates (str "document") (smf_data s) = Some (file_written (fun e => writes (text_of e)) s).
Proof. exact user_listing. Qed.
Print Assumptions C100_listing.

Theorem C100_shows_one : forall templates Ts e a b, read_templates templates = Ok (entries Ts) -> usable Ts -> shows Ts e a -> shows Ts e b -> a = b.
Proof. exact shows_one. Qed.
Print Assumptions C100_shows_one.

(** A template file with a choice by the channel, one by a text, fields padded, cut off, measured and aligned, and braces and the word "undefined" among the words; and what
    the listing of a small file shows with it *)
Example C100_sample : read_templates sample_file = Ok (entries sample_templates) /\ usable sample_templates /\ fits sample_templates small_smf /\
  Permutation (rev (entries sample_templates)) (entries sample_templates).
Proof. split; [exact sample_read|]. split; [exact sample_usable|]. split; [exact sample_fits|]. symmetry. apply Permutation_rev. Qed.
Example C100_sample_listed : exists text, listing (fun l => l) sample_file (str "document") (smf_data small_smf) = Some (text, Done) /\
  forall line, In line [str "  X as undefined, length 1:          00 FF 01 01 58;   00 FF 01 01 58   ;"; str "  C4     {v=64} at 0   "] -> contains text line = true.
Proof. exact sample_listed. Qed.
