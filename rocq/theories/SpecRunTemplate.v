(** * SpecRunTemplate: a world in which template files mean what text/template makes of them. *)
From Coq Require Import Permutation.
From Verif Require Import Base Strings Event Track File Template TemplateLoad Cli.

(** Files that are not read as templates give none; where the model of text/template (Template.v) says what is written without an error, that is written. *)
Definition knows_templates (w : world) : Prop := exists order : list (bytes * bytes) -> list (bytes * bytes), (forall us, Permutation (order us) us) /\ forall b,
  (forall us, read_templates b <> Ok us) /\ w_templates w b = None \/
  exists us, read_templates b = Ok us /\ forall s text, listing order b (str "document") (smf_data s) = Some (text, Done) ->
    exists t, w_templates w b = Some t /\ t_document t s = Ok text.
