(** * JSON text: C34, C62, C63, C74.  Theorems only; proofs in JsonTextProofs.v, JsonWriteProofs.v, JsonExportProofs.v and JsonReadProofs.v. *)
From Verif Require Import Base Strings Tables Event Track File SpecText SpecDecimal SpecEvent SpecTrack SpecAssemble SpecRead SpecJson Json Manufacturer JsonText SpecJsonText
  Utf8Proofs Samples SampleProofs ReadSamples ReassembleSamples JsonProofs JsonFileProofs JsonSamples JsonWriteProofs JsonExportProofs JsonReadProofs.

(** C62: what export writes for a decoded file is JSON text (RFC 8259) for the exported tree, whatever bytes its texts and the names in the
    user's manufacturer list are made of. *)
Theorem C62_export_is_json : forall c4 conf l r s, conf_bytes conf -> load_manufacturers conf = Ok l -> is_bytes r ->
  decode (add_manufacturers (Env c4 manufacturers) l) r = Ok s -> json_text (export_json s) (export_text s).
Proof. exact exported_text. Qed.
Print Assumptions C62_export_is_json.

(** JSON text stands for one tree only (of those that are not nested deeper than the reader allows). *)
Theorem C62_one_tree : forall v v' s, json_text v s -> json_text v' s -> depth v <= 10000 -> depth v' <= 10000 -> v = v'.
Proof. exact text_unambiguous. Qed.
Print Assumptions C62_one_tree.

Example C62_example : conf_bytes [] /\ load_manufacturers [] = Ok [] /\ decode (add_manufacturers (Env false manufacturers) []) sample_file = Ok sample_smf /\
  firstn 35 (export_text sample_smf) = [123; 10; 32; 32] ++ [34] ++ str "header" ++ [34; 58; 32; 123; 10; 32; 32; 32; 32; 34] ++ str "Tag" ++ [34; 58; 32; 34] ++ str "MThd" ++ [34; 44; 10] /\
  zlen (export_text sample_smf) = 3993.
Proof. split; [constructor|]. split; [reflexivity|]. split; [vm_compute; reflexivity|]. split; vm_compute; reflexivity. Qed.

(** Quotes, control characters, characters outside ASCII and U+2028 in strings. *)
Example C62_string_example : write_json 0 (JObj [([107], JStr [34; 92; 10; 1; 60; 195; 169; 226; 128; 168])]) =
  [123; 10; 32; 32; 34; 107; 34; 58; 32; 34; 92; 34; 92; 92; 92; 110; 92; 117; 48; 48; 48; 49; 92; 117; 48; 48; 51; 99; 195; 169; 92; 117; 50; 48; 50; 56; 34; 10; 125].
Proof. vm_compute. reflexivity. Qed.

(** A byte that is not UTF-8. *)
Example C62_bad_byte_example : write_json 0 (JStr [67; 233]) = str """C\ufffd""".
Proof. vm_compute. reflexivity. Qed.

(** C63, full statement: every JSON text is read as the tree it stands for.  False for deep nesting, see below; here for trees nested at most
    10000 deep.  White space before the text and everything behind it are ignored. *)
Theorem C63_text_read_partial : forall v s w rest, json_text v s -> white w -> depth v <= 10000 -> separated v rest ->
  read_text (w ++ s ++ rest) = Ok (v, rest).
Proof. exact any_text_read. Qed.
Print Assumptions C63_text_read_partial.

Example C63_example : exists v s, s = str "[1,{}, 2e3]" /\ json_text v s /\ depth v = 2 /\ read_text s = Ok (v, []).
Proof.
  exists (JArr [JNum 1; JObj []; JReal]), (str "[1,{}, 2e3]"). split; [reflexivity|].
  split; [|split; vm_compute; reflexivity]. apply (jt_array _ (str "1,{}, 2e3")).
  apply (et_more [] (JNum 1) [49] [] _ (str "{}, 2e3")); [constructor| |constructor|].
  { apply jt_int. apply (decimal_pos [49]); [constructor; [split; discriminate|constructor]|cbn; lia]. }
  apply (et_more [] (JObj []) [123; 125] [] _ (str " 2e3")); [constructor|apply (jt_object0 []); constructor|constructor|].
  apply (et_one [32] JReal (str "2e3") []); [constructor; [auto|constructor]| |constructor].
  apply jt_real. apply (rt [] [50] [] [101; 51]); [auto| |auto| |right; left; discriminate].
  - right. split; [constructor; [split; discriminate|constructor]|cbn; lia].
  - right. exists 101, [], [51]. split; [reflexivity|]. split; [auto|]. split; [auto|]. split; [discriminate|constructor; [split; discriminate|constructor]].
Qed.

(** Nesting deeper than 10000. *)
Theorem C63_nesting_refuted : exists v s, json_text v s /\ read_text s = Err.
Proof. exact too_deep. Qed.
Print Assumptions C63_nesting_refuted.

(** The assembler takes a file that is not JSON text: anything may follow the first value. *)
Theorem C63_rest_refuted : exists s bs, assemble_json_text default_env s = Ok bs /\ s = export_text sample_smf ++ str "}] not JSON" /\
  (exists s', decode default_env bs = Ok s' /\ zlen (f_tracks s') = 2).
Proof.
  exists (export_text sample_smf ++ str "}] not JSON"). eexists. split; [vm_compute; reflexivity|]. split; [reflexivity|].
  eexists. split; [vm_compute; reflexivity|]. vm_compute. reflexivity.
Qed.
Print Assumptions C63_rest_refuted.

(** C34 down to the bytes: the text that export writes, with anything behind it, assembled again.  Full statement and what is missing: see
    [C34_json_roundtrip_partial] in PropJson.v. *)
Theorem C34_text_roundtrip_partial : forall c4 conf l r s rest, Forall (fun x => wire_id (fst (fst x))) conf -> conf_bytes conf -> load_manufacturers conf = Ok l ->
  let env := add_manufacturers (Env c4 manufacturers) l in is_bytes r -> decode env r = Ok s ->
  (forall h, f_mthd s = Some h -> h_smpte h = false) ->
  Forall (fun t => t_events t <> [] /\ Forall (fun e => valid_text (e_body e)) (t_events t)) (f_tracks s) ->
  Forall (fun t => Forall legal_event (t_events t) /\ chained false (t_events t) /\ faithful_events env (t_events t)) (f_tracks s) ->
  exists bs, assemble_json_text env (export_text s ++ rest) = Ok bs /\ (zlen bs < 4294967296 ->
    exists s' h h', decode env bs = Ok s' /\ f_mthd s = Some h /\ f_mthd s' = Some h' /\ same_header h h' /\
      map (fun t => map ev_view (t_events t)) (f_tracks s') = map (fun t => map ev_view (t_events t)) (f_tracks s)).
Proof. exact json_text_roundtrip. Qed.
Print Assumptions C34_text_roundtrip_partial.

Example C34_text_example : decode default_env sample_file = Ok sample_smf /\ conf_bytes [] /\ (forall h, f_mthd sample_smf = Some h -> h_smpte h = false) /\
  Forall json_ready (f_tracks sample_smf) /\
  Forall (fun t => Forall legal_event (t_events t) /\ chained false (t_events t) /\ faithful_events default_env (t_events t)) (f_tracks sample_smf) /\
  exists bs, assemble_json_text default_env (export_text sample_smf) = Ok bs /\ decode default_env bs <> Err.
Proof.
  split; [vm_compute; reflexivity|]. split; [constructor|]. split; [intros h [= <-]; reflexivity|]. split; [exact sample_ready|]. split; [exact sample_chained|].
  eexists. split; [vm_compute; reflexivity|]. vm_compute. discriminate.
Qed.

(** C74: of files in UTF-8 the reader accepts the JSON texts that are not nested deeper than 10000, and no others, as the trees they stand for. *)
Theorem C74_reads_exactly : forall s v, well_formed s ->
  ((exists rest, white rest /\ read_text s = Ok (v, rest)) <-> (exists w t w', s = w ++ t ++ w' /\ white w /\ white w' /\ json_in rfc_chars v t /\ depth v <= 10000)).
Proof. exact accepted_exactly. Qed.
Print Assumptions C74_reads_exactly.

(** Other bytes count as U+FFFD in strings, and are accepted nowhere else; what is read is JSON text but for that. *)
Theorem C74_reads_only : forall s v rest, is_bytes s -> read_text s = Ok (v, rest) ->
  exists w t, s = w ++ t ++ rest /\ white w /\ json_in lax_chars v t /\ depth v <= 10000.
Proof. exact accepted_only. Qed.
Print Assumptions C74_reads_only.

Theorem C74_reads_all : forall v t w rest, json_in lax_chars v t -> white w -> depth v <= 10000 -> separated v rest -> read_text (w ++ t ++ rest) = Ok (v, rest).
Proof. exact accepted_all. Qed.
Print Assumptions C74_reads_all.

(** So a file that is assembled starts with JSON text. *)
Theorem C74_assembled : forall env s bs, is_bytes s -> assemble_json_text env s = Ok bs ->
  exists w t rest v, s = w ++ t ++ rest /\ white w /\ json_in lax_chars v t /\ assemble_json env v = Ok bs.
Proof. exact assembled_text. Qed.
Print Assumptions C74_assembled.

(** An array with an accented letter, a pair of code units, half a pair and, in the second text, a byte that is no character. *)
Example C74_example :
  let pair := [92; 117; 68; 56; 51; 52; 92; 117; 100; 100; 49; 101] in
  let half := [92; 117; 100; 56; 48; 48] in
  let text x := 32 :: 91 :: [34; 195; 169; 34] ++ 44 :: 10 :: 34 :: pair ++ half ++ [34; 32; 44] ++ str "-0]" ++ x in
  well_formed (text [10]) /\ white [10] /\ read_text (text [10]) = Ok (JArr [JStr [195; 169]; JStr [240; 157; 132; 158; 239; 191; 189]; JReal], [10]) /\
  read_text ([91; 34; 195; 65; 255; 34; 93; 93]) = Ok (JArr [JStr [239; 191; 189; 65; 239; 191; 189]], [93]) /\
  ~ well_formed [91; 34; 195; 65; 255; 34; 93; 93] /\
  read_text (str "[01]") = Err /\ read_text (str "[1,]") = Err /\ read_text (str "{a:1}") = Err /\ read_text [91; 255; 93] = Err /\ read_text [34; 10; 34] = Err /\ read_text (str "[1 2]") = Err.
Proof.
  cbv zeta. split; [rewrite well_formed_iff by (apply check_bytes; reflexivity); vm_compute; reflexivity|]. split; [constructor; [auto|constructor]|]. split; [vm_compute; reflexivity|]. split; [vm_compute; reflexivity|].
  split; [rewrite well_formed_iff by (apply check_bytes; reflexivity); vm_compute; discriminate|]. repeat (split; [vm_compute; reflexivity|]). vm_compute. reflexivity.
Qed.
