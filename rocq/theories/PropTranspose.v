(** * Transposition: C24 - C28, C52.  Theorems only; proofs in TransposeProofs.v, TransposeFileProofs.v and TransposeTwiceProofs.v. *)
From Verif Require Import Base Strings Tables Event SpecEvent Track File SpecTrack Transpose SpecKey SpecTranspose TransposeProofs TransposeFileProofs TransposeTwiceProofs
  Samples SampleProofs.

(** C24, full statement: for every decodable file and every integer n, transposition succeeds and gives
    [moved_file] (SpecTranspose.v).  False where the 64-bit sum of note and n overflows (below); proved for
    all other n ([reasonable]). *)
Theorem C24_transposed_partial : forall env n r s, is_bytes r -> decode env r = Ok s -> reasonable n ->
  exists s', transpose_smf env n s = Ok s' /\ moved_file n s s'.
Proof. exact transpose_decoded. Qed.
Print Assumptions C24_transposed_partial.

(** C24 as seen in the written file: what is decoded from it are the moved contents. *)
Theorem C24_written_partial : forall env n r s, is_bytes r -> decode env r = Ok s -> legal_smf s ->
  Forall (fun t => faithful_events env (t_events t)) (f_tracks s) -> reasonable n ->
  exists bs, transpose_execute env n s = Ok bs /\
    (zlen bs < 4294967296 -> exists s2 h h2, decode env bs = Ok s2 /\ f_mthd s = Some h /\ f_mthd s2 = Some h2 /\ same_header h h2 /\
       moved_contents n (smf_contents s) (smf_contents s2)).
Proof. exact transpose_written. Qed.
Print Assumptions C24_written_partial.

(** Files which do not come from the decoder: whenever transposition succeeds. *)
Theorem C24_any_file_partial : forall env n s s', Forall (fun t => Forall note_bytes (t_events t)) (f_tracks s) -> reasonable n ->
  transpose_smf env n s = Ok s' -> moved_file n s s'.
Proof. exact transpose_file. Qed.
Print Assumptions C24_any_file_partial.

(** Notes 60 and 64 up by 65: 125 and, limited, 127; two flats (B♭ major) become E♭ major. *)
Example C24_example : exists s s', is_bytes sample_file /\ decode default_env sample_file = Ok s /\ reasonable 65 /\ transpose_smf default_env 65 s = Ok s' /\
  map (fun t => (note_values (t_events t), keys (t_events t))) (f_tracks s) = [([], []); ([60; 64; 60; 64], [(-2, 0)])] /\
  map (fun t => (note_values (t_events t), keys (t_events t))) (f_tracks s') = [([], []); ([125; 127; 125; 127], [(-3, 0)])] /\
  legal_smf s /\ Forall (fun t => faithful_events default_env (t_events t)) (f_tracks s).
Proof.
  exists sample_smf. eexists. split; [repeat constructor; discriminate|]. split; [vm_compute; reflexivity|]. split; [unfold reasonable; lia|].
  split; [vm_compute; reflexivity|]. split; [vm_compute; reflexivity|]. split; [vm_compute; reflexivity|]. split; apply sample_legal.
Qed.

(** C24, finding: a step count near 2^63 wraps around; note 60 ends up at 0 instead of 127. *)
Theorem C24_overflow_refuted : exists s s' t t', decode default_env (sample_header ++ sample_track sample_body0 ++ sample_track [0; 144; 60; 64; 0; 255; 47; 0]) = Ok s /\
  transpose_smf default_env 9223372036854775807 s = Ok s' /\ nth_error (f_tracks s) 1 = Some t /\ nth_error (f_tracks s') 1 = Some t' /\
  note_values (t_events t) = [60] /\ note_values (t_events t') = [0] /\ limited (60 + 9223372036854775807) = 127.
Proof. witness. Qed.
Print Assumptions C24_overflow_refuted.

(** C25: composition, for all a and b and whatever the contexts. *)
Theorem C25_compose : forall env c1 c2 c3 a b es es1 es2 es3,
  Forall (fun v => 0 <= v + a <= 127 /\ 0 <= v + (a + b) <= 127) (note_values es) ->
  transpose_events env c1 a es = Ok es1 -> transpose_events env c2 b es1 = Ok es2 -> transpose_events env c3 (a + b) es = Ok es3 ->
  note_values es2 = note_values es3.
Proof. exact compose_notes. Qed.
Print Assumptions C25_compose.

(** C25: inversion. *)
Theorem C25_invert : forall env c1 c2 a es es1 es2, Forall (fun v => 0 <= v <= 127 /\ 0 <= v + a <= 127) (note_values es) ->
  transpose_events env c1 a es = Ok es1 -> transpose_events env c2 (- a) es1 = Ok es2 -> note_values es2 = note_values es.
Proof. exact invert_notes. Qed.
Print Assumptions C25_invert.

(** C25: intervals. *)
Theorem C25_intervals : forall env a es c es1, Forall (fun v => 0 <= v + a <= 127) (note_values es) ->
  transpose_events env c a es = Ok es1 -> note_values es1 = map (fun v => v + a) (note_values es).
Proof. exact notes_shift. Qed.
Print Assumptions C25_intervals.

(** C25 with a file written and read in between: the contents moved by a + b. *)
Theorem C25_through_files : forall env a b r s b1 s1 b2 s2, is_bytes r -> decode env r = Ok s -> legal_smf s ->
  Forall (fun t => faithful_events env (t_events t)) (f_tracks s) ->
  reasonable a -> reasonable b -> Forall (Forall (fun x => fits a (snd x))) (smf_contents s) ->
  transpose_execute env a s = Ok b1 -> zlen b1 < 4294967296 -> decode env b1 = Ok s1 ->
  transpose_execute env b s1 = Ok b2 -> zlen b2 < 4294967296 -> decode env b2 = Ok s2 ->
  moved_contents (a + b) (smf_contents s) (smf_contents s2).
Proof. exact transpose_twice. Qed.
Print Assumptions C25_through_files.

(** C25, the files: transposing by a, writing, reading and transposing by b writes the very bytes that transposing by a + b writes. *)
Theorem C25_two_runs : forall env a b r s b1 s1, is_bytes r -> decode env r = Ok s -> legal_smf s ->
  Forall (fun t => faithful_events env (t_events t)) (f_tracks s) ->
  reasonable a -> reasonable b -> reasonable (a + b) -> Forall (Forall (fun x => fits a (snd x))) (smf_contents s) ->
  transpose_execute env a s = Ok b1 -> zlen b1 < 4294967296 -> decode env b1 = Ok s1 ->
  transpose_execute env b s1 = transpose_execute env (a + b) s.
Proof. exact transpose_runs. Qed.
Print Assumptions C25_two_runs.

Example C25_example : exists es es1 es2 es3,
  map note_values [es; es1; es2; es3] = [[60; 64; 60; 64]; [65; 69; 65; 69]; [53; 57; 53; 57]; [53; 57; 53; 57]] /\
  transpose_events default_env (Some new_context) 5 es = Ok es1 /\ transpose_events default_env (Some new_context) (-12) es1 = Ok es2 /\
  transpose_events default_env (Some new_context) (5 + -12) es = Ok es3.
Proof.
  exists (match f_tracks sample_smf with [_; t] => t_events t | _ => [] end). eexists. eexists. eexists.
  split; [|split; [vm_compute; reflexivity|split; [vm_compute; reflexivity|vm_compute; reflexivity]]]. vm_compute. reflexivity.
Qed.

Example C25_example_files : exists b1 s1 b2 s2, Forall (Forall (fun x => fits 5 (snd x))) (smf_contents sample_smf) /\
  transpose_execute default_env 5 sample_smf = Ok b1 /\ decode default_env b1 = Ok s1 /\
  transpose_execute default_env (-5) s1 = Ok b2 /\ decode default_env b2 = Ok s2 /\ zlen b1 = 98 /\ b2 = sample_file.
Proof.
  eexists. eexists. eexists. eexists. split; [vm_compute; repeat (constructor; [try exact I; repeat constructor; try discriminate|]); constructor|].
  split; [vm_compute; reflexivity|]. split; [vm_compute; reflexivity|]. split; [vm_compute; reflexivity|]. split; [vm_compute; reflexivity|].
  split; reflexivity.
Qed.

(** Up 5 and down 12 is down 7: the same 98 bytes. *)
Example C25_two_runs_example : exists b1 s1 b2, transpose_execute default_env 5 sample_smf = Ok b1 /\ decode default_env b1 = Ok s1 /\
  transpose_execute default_env (-12) s1 = Ok b2 /\ transpose_execute default_env (-7) sample_smf = Ok b2 /\ zlen b2 = 98 /\ b2 <> b1.
Proof.
  eexists. eexists. eexists. split; [vm_compute; reflexivity|]. split; [vm_compute; reflexivity|]. split; [vm_compute; reflexivity|]. split; [vm_compute; reflexivity|].
  split; [reflexivity|discriminate].
Qed.

(** C26, full statement: for every integer n.  False near 2^63 (below); proved for all other n.
    [tonic_class], [key_name] (SpecKey.v): the circle of fifths.  Of the spellings of a key it is the one with
    at most five flats or six sharps. *)
Theorem C26_right_key_partial : forall env c n e e' c' acc (minor : bool) name,
  e_body e = KeySignature acc (if minor then 1 else 0) name -> key_range acc -> reasonable n ->
  transpose_event env c n e = Ok (e', c') ->
  exists acc', e_body e' = KeySignature acc' (if minor then 1 else 0) (key_name minor acc') /\ -5 <= acc' <= 6 /\
    tonic_class minor acc' = (tonic_class minor acc + n) mod 12.
Proof. exact key_moves. Qed.
Print Assumptions C26_right_key_partial.

(** C26: composition; the key depends on the sum only. *)
Theorem C26_compose_partial : forall env c1 c2 c3 a b e e1 e2 e3 c1' c2' c3' acc kt name, e_body e = KeySignature acc kt name ->
  reasonable a -> reasonable b -> reasonable (a + b) ->
  transpose_event env c1 a e = Ok (e1, c1') -> transpose_event env c2 b e1 = Ok (e2, c2') -> transpose_event env c3 (a + b) e = Ok (e3, c3') ->
  e_body e2 = e_body e3.
Proof. exact key_compose. Qed.
Print Assumptions C26_compose_partial.

(** E major (four sharps) up three semitones is G major, down two more F major; D minor up 14 is E minor. *)
Example C26_example : exists e1 e2 e3,
  transpose_event default_env (Some new_context) 3 (Event 0 0 [] 255 89 (KeySignature 4 0 (str "E major"))) = Ok (e1, Some new_context) /\
  e_body e1 = KeySignature 1 0 (str "G major") /\
  transpose_event default_env (Some new_context) (-2) e1 = Ok (e2, Some (use_scale true new_context)) /\ e_body e2 = KeySignature (-1) 0 (str "F major") /\
  transpose_event default_env (Some new_context) 14 (Event 0 0 [] 255 89 (KeySignature (-1) 1 (str "D minor"))) = Ok (e3, Some new_context) /\
  e_body e3 = KeySignature 1 1 (str "E minor").
Proof. witness. Qed.

(** C26, finding: 2^63 - 1 semitones, 7 modulo 12, leave C major where it is instead of giving G major
    (after some 7 * 10^17 rounds of the loop in midi/lib/scales.go:122-124). *)
Theorem C26_overflow_refuted : exists e e' c', e_body e = KeySignature 0 0 (str "C major") /\
  transpose_event default_env (Some new_context) 9223372036854775807 e = Ok (e', c') /\ e_body e' = e_body e /\
  tonic_class false 0 <> (tonic_class false 0 + 9223372036854775807) mod 12.
Proof.
  exists (Event 0 0 [] 255 89 (KeySignature 0 0 (str "C major"))). eexists. eexists. split; [reflexivity|]. split; [exact overflow_event|].
  split; [reflexivity|]. vm_compute. discriminate.
Qed.
Print Assumptions C26_overflow_refuted.

(** C27, full statement: transposing by 0 leaves every key signature unchanged.  False for six keys
    ([respelled], SpecTranspose.v): exactly the others are unchanged. *)
Theorem C27_zero_partial : forall env c e e' c' acc (minor : bool),
  e_body e = KeySignature acc (if minor then 1 else 0) (key_name minor acc) -> key_range acc ->
  transpose_event env c 0 e = Ok (e', c') -> (e_body e' = e_body e <-> ~ respelled acc (if minor then 1 else 0)).
Proof. exact key_zero. Qed.
Print Assumptions C27_zero_partial.

Example C27_example : exists e', ~ respelled (-2) 0 /\
  transpose_event default_env (Some new_context) 0 (Event 0 0 [] 255 89 (KeySignature (-2) 0 (key_name false (-2)))) = Ok (e', Some (use_scale true new_context)) /\
  e_body e' = KeySignature (-2) 0 (str "B♭ major").
Proof. eexists. split; [unfold respelled; lia|]. split; vm_compute; reflexivity. Qed.

(** C27, finding: C♯ major (7 sharps) becomes D♭ major (5 flats). *)
Theorem C27_zero_refuted : exists e e' c', e_body e = KeySignature 7 0 (str "C♯ major") /\ transpose_event default_env (Some new_context) 0 e = Ok (e', c') /\
  e_body e' = KeySignature (-5) 0 (str "D♭ major").
Proof. exists (Event 0 0 [] 255 89 (KeySignature 7 0 (str "C♯ major"))). witness. Qed.
Print Assumptions C27_zero_refuted.

(** C28.  [proper_scale] (SpecKey.v): steps of the mode, letters in order, right number and kind of accidentals. *)
Theorem C28_scales : Forall (fun s => s_type s = 0 /\ proper_scale false (s_acc s) (s_notes s) /\ s_name s = key_name false (s_acc s)) MAJOR_SCALES /\
  Forall (fun s => s_type s = 1 /\ proper_scale true (s_acc s) (s_notes s) /\ s_name s = key_name true (s_acc s)) MINOR_SCALES.
Proof. exact tables_proper. Qed.
Print Assumptions C28_scales.

(** C28: exactly one scale per accidental count and mode. *)
Theorem C28_one_each : forall (minor : bool) acc, key_range acc ->
  exists! s, In s (MAJOR_SCALES ++ MINOR_SCALES) /\ s_type s = (if minor then 1 else 0) /\ s_acc s = acc.
Proof. exact tables_unique. Qed.
Print Assumptions C28_one_each.

Example C28_example : length MAJOR_SCALES = 15%nat /\ length MINOR_SCALES = 15%nat /\ In G_SHARP_MINOR MINOR_SCALES /\ s_acc G_SHARP_MINOR = 5 /\
  key_name true 5 = str "G♯ minor" /\ tonic_class true 5 = 8.
Proof. repeat split. cbn [In MINOR_SCALES]. auto 10. Qed.

(** C52, full statement: transposing succeeds again on a file that was transposed.  False (below).  Proved: it
    panics exactly if there is a note or a key signature; otherwise it has no effect. *)
Theorem C52_again_partial : forall env n m r s s', is_bytes r -> decode env r = Ok s -> reasonable n -> reasonable m -> transpose_smf env n s = Ok s' ->
  (has_movable s' /\ transpose_smf env m s' = Panic) \/
  (~ has_movable s' /\ exists s'', transpose_smf env m s' = Ok s'' /\ map t_events (f_tracks s'') = map t_events (f_tracks s')).
Proof. exact transpose_again. Qed.
Print Assumptions C52_again_partial.

Example C52_example : exists s', transpose_smf default_env 3 sample_smf = Ok s' /\ has_movable s'.
Proof.
  eexists. split; [vm_compute; reflexivity|]. unfold has_movable. cbn [f_tracks]. eexists. eexists. split; [right; left; reflexivity|]. split; [left; reflexivity|]. exact I.
Qed.

(** C52, finding: the transposed track has no context (ops/transpose/transpose.go:33-37). *)
Theorem C52_again_refuted : exists s', decode default_env sample_file = Ok sample_smf /\ transpose_smf default_env 3 sample_smf = Ok s' /\ transpose_smf default_env 1 s' = Panic.
Proof. witness. Qed.
Print Assumptions C52_again_refuted.
