(** * SpecStdout: results and reports. *)
From Verif Require Import Base Strings.

(** The three lines that report an error *)
Definition reports_error (message text : bytes) : Prop :=
  exists a b c, text = a ++ [10] ++ b ++ [10] ++ c ++ [10] /\ a = [] /\ b = str "   *** ERROR: " ++ message /\ c = [].

(** The commands whose result can go to a file *)
Definition writers : list bytes := map str ["disassemble"; "assemble"; "notes"; "export"; "transpose"; "tsv"; "humanise"]%string.
