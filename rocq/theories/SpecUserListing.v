(** * SpecUserListing: template files made of the templates of SpecUserTemplate, and what a listing shows with them. *)
From Verif Require Import Base Strings Tables Event Track File Utf8 Hex Disassemble SpecTemplate SpecUserTemplate.

(** The entries of the file *)
Definition entries (Ts : list (bytes * template)) : list (bytes * bytes) := map (fun p => (fst p, source (snd p))) Ts.

(** Templates that can be read and leave the layout alone *)
Definition usable (Ts : list (bytes * template)) : Prop :=
  forall name T, In (name, T) Ts -> good T /\ ~ In name layout_names.

Definition event_of (s : smf) (e : event) : Prop := exists t, In t (f_tracks s) /\ In e (t_events t).

(** The templates ask for nothing that the events of the file do not have. *)
Definition fits (Ts : list (bytes * template)) (s : smf) : Prop :=
  forall e T, event_of s e -> In (kind_template (e_body e), T) Ts -> suits e T.

(** What the template for its kind says about an event; without one, or if that is all white space, the built-in text *)
Definition shows (Ts : list (bytes * template)) (e : event) (text : bytes) : Prop :=
  (exists T, In (kind_template (e_body e), T) Ts /\ substantial T /\ says e T text) \/
  ((forall T, In (kind_template (e_body e), T) Ts -> ~ substantial T) /\ text = event_text e).
