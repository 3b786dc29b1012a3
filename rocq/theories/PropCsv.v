(** * The TSV file: C64.  Theorems only; proofs in CsvProofs.v. *)
From Verif Require Import Base Strings Tables Event Track File SpecText SpecTable Utf8 Tsv Csv SpecCsv CsvProofs Samples.

(** C64, full statement: for every decoded file and every delimiter the TSV file is delimiter separated text for the table.  False for delimiters that
    encoding/csv does not allow (see below) and for the extra row (C55).  Here for all files with a track, all options and all texts within the events. *)
Theorem C64_tsv_text_partial : forall env r s opt d, is_bytes r -> decode env r = Ok s -> f_tracks s <> [] -> is_bytes opt -> delimiter opt d -> separator d ->
  exists t text, tsv_export s = Ok t /\ write_tsv (tsv_delimiter opt) t = Ok text /\ table_text d (titles :: t) text.
Proof. exact tsv_text. Qed.
Print Assumptions C64_tsv_text_partial.

(** Such a text can be read in one way only. *)
Theorem C64_one_table : forall d a b s, separator d -> table_text d a s -> table_text d b s -> a = b.
Proof. exact table_unambiguous. Qed.
Print Assumptions C64_one_table.

(** Different tables give different files. *)
Theorem C64_injective : forall opt d t t' text, is_bytes opt -> delimiter opt d -> Forall (fun r => r <> []) t -> Forall (fun r => r <> []) t' ->
  write_tsv (tsv_delimiter opt) t = Ok text -> write_tsv (tsv_delimiter opt) t' = Ok text -> t = t'.
Proof. exact tsv_injective. Qed.
Print Assumptions C64_injective.

(** Every other delimiter is refused. *)
Theorem C64_delimiters : forall opt, is_bytes opt -> exists d, delimiter opt d /\ (~ separator d -> forall t, write_tsv (tsv_delimiter opt) t = Err).
Proof. intros opt B. destruct (delimiter_total opt B) as [d D]. exists d. split; [exact D|]. intros N t. exact (tsv_bad_delimiter opt d t B D N). Qed.
Print Assumptions C64_delimiters.

(** A semicolon; a cell with the delimiter, quotes and a line end. *)
Example C64_example : delimiter (str ";;") [59] /\ separator [59] /\
  write_tsv (tsv_delimiter (str ";;")) [[[97; 59; 34; 98; 34; 10]; [99]]] =
    Ok (str "Tick;Delta;Tag;Channel;Note;Velocity;Details" ++ [10; 34; 97; 59; 34; 34; 98; 34; 34; 10; 34; 59; 99; 10]).
Proof.
  split; [right; split; [discriminate|]; split; [discriminate|]; apply (fc_char 59 [59] [59]); apply utf8_1; lia|].
  split; [exists 59; split; [apply utf8_1; lia|]; repeat split; discriminate|]. vm_compute. reflexivity.
Qed.

Example C64_file_example : exists t text, decode default_env sample_file = Ok sample_smf /\ f_tracks sample_smf <> [] /\ delimiter [] [9] /\ separator [9] /\
  tsv_export sample_smf = Ok t /\ write_tsv (tsv_delimiter []) t = Ok text /\ zlen text = 587.
Proof.
  eexists. eexists. split; [vm_compute; reflexivity|]. split; [discriminate|]. split; [left; auto|].
  split; [exists 9; split; [apply utf8_1; lia|]; repeat split; discriminate|]. split; [vm_compute; reflexivity|]. split; [vm_compute; reflexivity|]. vm_compute. reflexivity.
Qed.

(** A quote as delimiter. *)
Theorem C64_delimiter_refuted : exists opt, opt = [34] /\ forall t, write_tsv (tsv_delimiter opt) t = Err.
Proof. exists [34]. split; [reflexivity|]. intro t. reflexivity. Qed.
Print Assumptions C64_delimiter_refuted.
