(** * The document that export writes: C112.  Theorems only; proofs in LayoutProofs.v and FieldsProofs.v. *)
From Verif Require Import Base Strings Tables Event Track File SpecText SpecEvent SpecFile SpecSays SpecTrack SpecJson Manufacturer Json JsonText SpecJsonText Samples SampleProofs ReassembleSamples ExportSamples
  JsonWriteProofs SpecLayout LayoutProofs SpecFields FieldsProofs.

(** C112: the text is laid out ([laid_out], SpecLayout.v) line by line: two spaces for each open bracket. *)
Theorem C112_layout : forall c4 conf l r s, conf_bytes conf -> load_manufacturers conf = Ok l -> is_bytes r ->
  decode (add_manufacturers (Env c4 manufacturers) l) r = Ok s -> laid_out (export_text s).
Proof. exact export_laid_out. Qed.
Print Assumptions C112_layout.

(** So is every text that MarshalIndent writes. *)
Theorem C112_any_tree : forall v, writable v -> laid_out (write_json 0 v).
Proof. exact write_laid_out. Qed.
Print Assumptions C112_any_tree.

(** Its members: the fields of the header, the number of every track, the status and type bytes and the values of every event. *)
Theorem C112_fields : forall c4 conf l r s, conf_bytes conf -> load_manufacturers conf = Ok l -> is_bytes r ->
  decode (add_manufacturers (Env c4 manufacturers) l) r = Ok s ->
  json_text (export_json s) (export_text s) /\
  exists hf, file_tells (env_manufacturers (add_manufacturers (Env c4 manufacturers) l)) r hf (map (fun t => map ev_view (t_events t)) (f_tracks s)) /\
    document_shown hf (map t_events (f_tracks s)) (export_json s).
Proof. exact document_fields. Qed.
Print Assumptions C112_fields.

Example C112_example : conf_bytes [] /\ load_manufacturers [] = Ok [] /\ decode (add_manufacturers (Env false manufacturers) []) sample_file = Ok sample_smf /\ laid_out (export_text sample_smf).
Proof.
  assert (D : decode (add_manufacturers (Env false manufacturers) []) sample_file = Ok sample_smf) by (vm_compute; reflexivity).
  split; [constructor|]. split; [reflexivity|]. split; [exact D|]. eapply C112_layout; [constructor|reflexivity| |exact D]. apply check_bytes. vm_compute. reflexivity.
Qed.

(** Two lines in a string, an empty array and a nested one; what is laid out otherwise is not [laid_out]. *)
Example C112_layout_example : write_json 0 (JObj [([97], JArr [JNum 1; JArr []; JStr [123; 10]])]) =
    str "{" ++ [10] ++ str "  ""a"": [" ++ [10] ++ str "    1," ++ [10] ++ str "    []," ++ [10] ++ str "    ""{\n""" ++ [10] ++ str "  ]" ++ [10] ++ str "}" /\
  ~ laid_out (write_json 1 (JArr [JNum 1])) /\ ~ laid_out (str "[ 1]").
Proof.
  split; [vm_compute; reflexivity|]. split; intro L.
  - destruct (lo_indent _ L [91] [32; 32; 32; 32] 49 [10; 32; 32; 93]) as (d & O & _ & E); [vm_compute; reflexivity|repeat constructor|discriminate|].
    unfold outside in O. apply (f_equal snd) in O. cbn in O. subst d. discriminate E.
  - destruct (lo_space _ L [91] 32 (str "1]") 1 eq_refl eq_refl eq_refl) as [(b & w & E & _)|(b & E)].
    + destruct b as [|x [|y b]]; discriminate E.
    + destruct b as [|x [|y b]]; discriminate E.
Qed.

(** A note, a tempo and the header of an SMPTE time code. *)
Example C112_fields_example :
  event_shown (Event 5 480 [] 145 0 (NoteOn 1 (Note 60 (str "C3") (str "C3")) 100))
    (JObj [(str "event", JObj [(str "tag", JStr (str "NoteOn")); (str "delta", JNum 480); (str "status", JNum 145); (str "channel", JNum 1);
       (str "note", JObj [(str "value", JNum 60); (str "name", JStr (str "C3")); (str "alias", JStr (str "C3"))]); (str "velocity", JNum 100)])]) /\
  event_shown (Event 0 0 [] 255 81 (Tempo 500000))
    (JObj [(str "event", JObj [(str "tag", JStr (str "Tempo")); (str "delta", JNum 0); (str "status", JNum 255); (str "type", JNum 81); (str "tempo", JNum 500000)])]) /\
  header_shown (HF 1 2 59176 0 (Some (25, false, 40))) =
    JObj [(str "Tag", JStr (str "MThd")); (str "Length", JNum 6); (str "Format", JNum 1); (str "Tracks", JNum 2); (str "Division", JNum 59176); (str "PPQN", JNum 0);
      (str "SMPTETimeCode", JBool true); (str "SubFrames", JNum 40); (str "FPS", JNum 25); (str "DropFrame", JBool false)].
Proof.
  assert (S : shows (str "C3") (JStr (str "C3"))).
  { exists (str "C3"). split; [reflexivity|]. apply (SpecExport.rp_char 67 [67] [51] [51]); [apply (utf8_1 67); lia|]. apply (SpecExport.rp_char 51 [51] [] []); [apply (utf8_1 51); lia|constructor]. }
  split; [|split; [|reflexivity]].
  - eexists. split; [constructor; constructor; exact S|reflexivity].
  - eexists. split; [constructor|reflexivity].
Qed.
