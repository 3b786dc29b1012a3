(** * PropPiped: theorems for C100, pipelines.  Proofs in PipedProofs.v. *)
From Verif Require Import Base Strings Template SpecPiped PipedProofs.

(** C100: a pipeline that is accepted has only function calls after its first command, in parentheses too. *)
Theorem C100_pipes : forall fuel ts p r, action_pipeline fuel ts = Some (p, r) -> piped p.
Proof. exact action_piped. Qed.
Print Assumptions C100_pipes.

(** A field that is padded is accepted, with a dot or a number instead of the function it is not. *)
Example C100_pipes_example : (exists ns, parse_template (str "t") (str "{{(.Tag | pad 3) | ellipsize 8}}") = Some [(str "t", ns)]) /\
  parse_template (str "t") (str "{{.Tag | .}}") = None /\ parse_template (str "t") (str "{{(.Tag | 3) | ellipsize 8}}") = None.
Proof. split; [eexists; vm_compute; reflexivity|]. split; vm_compute; reflexivity. Qed.
