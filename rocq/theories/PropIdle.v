(** * Comments, blank lines and line ends of assembly text: C95.  Theorems only; proofs in IdleProofs.v and IdleSamples.v. *)
From Verif Require Import Base Strings Tables Manufacturer SpecAssemble SpecSource TextAssemble ReadSamples ReassembleSamples SpecIdle IdleProofs IdleSamples.

(** C95: texts that differ in comments without tags, in blank lines and in line ends only assemble to the same bytes, or fail alike.
    The manufacturers are met in the same order. *)
Theorem C95_alone : forall a b, same_source a b -> forall table, assemble_text (fun _ _ => table) a = assemble_text (fun _ _ => table) b.
Proof. exact idle_lines_alone. Qed.
Print Assumptions C95_alone.

(** In general the order is picked anew for every line: whatever one text can give for orders with [P], the other can give. *)
Theorem C95_any_order : forall (P : list (bytes * manufacturer) -> Prop) a b, same_source a b -> forall tables, (forall j i, P (tables j i)) ->
  exists tables', (forall j i, P (tables' j i)) /\ assemble_text tables' b = assemble_text tables a.
Proof. exact idle_lines. Qed.
Print Assumptions C95_any_order.

Example C95_alone_example : same_source good_text decorated /\ good_text <> decorated /\
  assemble_text (fun _ _ => manufacturers) decorated = assemble_text in_order good_text /\ assemble_text in_order good_text <> Err.
Proof. split; [exact decorated_same|]. split; [vm_compute; discriminate|]. split; vm_compute; [reflexivity|discriminate]. Qed.
