(** * CliSamples: a world and files for the examples. *)
From Verif Require Import Base Strings Tables Event Track Notes Manufacturer File TextAssemble Flags Paths Cli SpecCli FlagProofs CliProofs Samples ReassembleSamples.

(** A world for the examples: names are numbered, everything can be written. *)
Fixpoint pos_code (p k : positive) : positive :=
  match p with xH => xO k | xO q => xI (xO (pos_code q k)) | xI q => xI (xI (pos_code q k)) end.
Definition z_code (z : Z) (k : positive) : positive :=
  match z with 0 => xO (xO k) | Zpos p => xO (xI (pos_code p k)) | Zneg p => xI (pos_code p k) end.
Fixpoint name_code (p : bytes) : positive := match p with [] => xH | z :: r => xO (z_code z (name_code r)) end.
Definition number (p : bytes) : Z := Zpos (name_code p).
Definition open_world : world := World number (fun _ => true) (fun _ => true) (fun _ => None) [] (@rev nevent) in_order.
Definition disk (l : list (string * bytes)) : files :=
  fun i => match find (fun x => i =? number (str (fst x))) l with Some x => Some (snd x) | None => None end.
Definition argv (l : list string) : list bytes := map str l.

Lemma pos_code_inj : forall p p' k k', pos_code p k = pos_code p' k' -> p = p' /\ k = k'.
Proof.
  induction p as [p IH|p IH|]; intros [p'|p'|] k k' H; cbn [pos_code] in H; try discriminate; injection H as H; auto; destruct (IH _ _ _ H) as [-> ->]; auto.
Qed.
Lemma z_code_inj : forall z z' k k', z_code z k = z_code z' k' -> z = z' /\ k = k'.
Proof.
  intros [|p|p] [|p'|p'] k k' H; cbn [z_code] in H; try discriminate; injection H as H; auto; destruct (pos_code_inj _ _ _ _ H) as [-> ->]; auto.
Qed.
Lemma number_apart : apart number.
Proof.
  intros p. induction p as [|z p IH]; intros [|z' p'] H; unfold number in *; cbn [name_code] in H; try discriminate; [reflexivity|].
  injection H as H. apply z_code_inj in H as [-> H]. f_equal. apply IH. rewrite H. reflexivity.
Qed.


(** A division of 0; one note in format 0; no tracks *)
Definition no_division : bytes := [77; 84; 104; 100; 0; 0; 0; 6; 0; 1; 0; 2; 0; 0; 77; 84; 114; 107; 0; 0; 0; 4; 0; 255; 47; 0; 77; 84; 114; 107; 0; 0; 0; 12; 0; 144; 60; 64; 96; 128; 60; 64; 0; 255; 47; 0].
Definition no_tracks : bytes := [77; 84; 104; 100; 0; 0; 0; 6; 0; 0; 0; 0; 1; 224].
Definition one_note : bytes := [77; 84; 104; 100; 0; 0; 0; 6; 0; 0; 0; 1; 1; 224; 77; 84; 114; 107; 0; 0; 0; 12; 0; 144; 60; 64; 96; 128; 60; 64; 0; 255; 47; 0].

Definition note_values (s : smf) : list Z :=
  flat_map (fun t => flat_map (fun e => match e_body e with NoteOn _ n _ | NoteOff _ n _ => [n_value n] | _ => [] end) (t_events t)) (f_tracks s).

Lemma octave_away : exists w d, let r1 := run w d (argv ["disassemble"; "--C4"; "--out"; "a.txt"; "song.mid"]%string) in
  let r2 := run w (r_files r1) (argv ["assemble"; "--C4"; "--out"; "b.mid"; "a.txt"]%string) in
  r_ending r1 = Exit 0 /\ r_ending r2 = Exit 0 /\ exists bs bs' s s', d (w_file w (str "song.mid")) = Some bs /\ r_files r2 (w_file w (str "b.mid")) = Some bs' /\
    decode default_env bs = Ok s /\ decode default_env bs' = Ok s' /\ note_values s = [60; 60] /\ note_values s' = [48; 48].
Proof.
  exists open_world, (disk [("song.mid"%string, one_note)]). cbv zeta. split; [vm_compute; reflexivity|]. split; [vm_compute; reflexivity|].
  eexists. eexists. eexists. eexists. split; [vm_compute; reflexivity|]. split; [vm_compute; reflexivity|]. split; [vm_compute; reflexivity|]. split; [vm_compute; reflexivity|].
  split; vm_compute; reflexivity.
Qed.

Lemma assemble_without_out : exists w d file, r_ending (run w d [str "assemble"; file]) = Exit 0 /\ r_stdout (run w d [str "assemble"; file]) = [] /\
  forall i, r_files (run w d [str "assemble"; file]) i = d i.
Proof.
  exists open_world, (disk [("song.txt"%string, sample_text)]), (str "song.txt").
  assert (E : run open_world (disk [("song.txt"%string, sample_text)]) [str "assemble"; str "song.txt"] = ends (Exit 0) (disk [("song.txt"%string, sample_text)])).
  { unfold run. change (choose [str "assemble"; str "song.txt"]) with (Assemble_, [str "song.txt"]).
    change (parse_flags (flagset Assemble_) [str "song.txt"]) with (Parsed [] [str "song.txt"]). cbv beta iota. unfold execute, run_assemble. cbn [hd].
    replace (read_file open_world (disk [("song.txt"%string, sample_text)]) (str "song.txt")) with (Some sample_text) by (vm_compute; reflexivity).
    change (bytes_eqb (path_ext (str "song.txt")) (str ".json")) with false. cbv iota. unfold written. change (bytes_eqb (string_flag (str "out") []) []) with true. cbv iota.
    destruct (assemble_text (w_tables open_world) sample_text) eqn:A; [reflexivity| | | |]; exfalso; revert A; vm_compute; discriminate. }
  rewrite E. repeat split.
Qed.

Lemma numeral_snoc : forall base n s c v m, numeral base n s -> alnum c v -> v < base -> m = n * base + v -> numeral base m (s ++ [c]).
Proof. intros base n s c v m N A V ->. apply (num_more base n s []); auto. Qed.

Lemma spelt_two_ways : exists formal vs vs', In (str "transpose", formal) documented /\
  options formal (argv ["-semitones"; "+0x_0c"; "--C4"; "--out=a.mid"; "song.mid"]%string) vs [str "song.mid"] /\
  options formal (argv ["--semitones=7"; "--out"; "a.mid"; "--semitones=12"; "--C4=TRUE"; "song.mid"; "-x"]%string) vs' [str "song.mid"; str "-x"] /\ same_settings vs vs'.
Proof.
  exists (common ++ [(str "out", KString); (str "semitones", KInt)]), [(str "semitones", VInt 12); (str "C4", VBool true); (str "out", VString (str "a.mid"))],
    [(str "semitones", VInt 7); (str "out", VString (str "a.mid")); (str "semitones", VInt 12); (str "C4", VBool true)].
  assert (I1 : In (str "semitones", KInt) (common ++ [(str "out", KString); (str "semitones", KInt)])) by (cbn [common app In]; tauto).
  assert (I2 : In (str "out", KString) (common ++ [(str "out", KString); (str "semitones", KInt)])) by (cbn [common app In]; tauto).
  assert (I3 : In (str "C4", KBool) (common ++ [(str "out", KString); (str "semitones", KInt)])) by (cbn [common app In]; tauto).
  assert (A : forall v, 0 <= v <= 9 -> numeral 10 v [48 + v]) by (intros v V; apply num_one; [apply al_digit; exact V|lia]).
  split; [cbn [documented In]; tauto|]. split; [|split].
  - apply (op_next _ (str "-") (str "semitones") KInt); [left; reflexivity|exact I1|discriminate| |].
    + apply de_int. apply (it_plus 12 (str "0x_0c")); [|lia]. apply (nt_prefix 16 12 (str "0c") (str "0x") (str "_")); [cbn [In]; tauto|right; reflexivity|].
      apply (numeral_snoc 16 0 (str "0") 99 12); [apply (num_one 16 48 0); [apply (al_digit 0); lia|lia]|apply (al_lower 12); lia|lia|reflexivity].
    + apply (op_switch _ (str "--") (str "C4")); [right; reflexivity|exact I3|].
      apply (op_equals _ (str "--") (str "out") KString (str "a.mid")); [right; reflexivity|exact I2|constructor|]. apply op_rest. right. vm_compute. discriminate.
  - apply (op_equals _ (str "--") (str "semitones") KInt (str "7")); [right; reflexivity|exact I1| |].
    + apply de_int, it_plain; [|lia]. apply nt_dec; [apply (A 7); lia|discriminate].
    + apply (op_next _ (str "--") (str "out") KString); [right; reflexivity|exact I2|discriminate|constructor|].
      apply (op_equals _ (str "--") (str "semitones") KInt (str "12")); [right; reflexivity|exact I1| |].
      * apply de_int, it_plain; [|lia]. apply nt_dec; [|discriminate]. apply (numeral_snoc 10 1 (str "1") 50 2); [apply (A 1); lia|apply (al_digit 2); lia|lia|reflexivity].
      * apply (op_equals _ (str "--") (str "C4") KBool (str "TRUE")); [right; reflexivity|exact I3|apply de_true; cbn [In]; tauto|]. apply op_rest. right. vm_compute. discriminate.
  - intro n. cbn [lasting]. destruct (bytes_eqb n (str "semitones")) eqn:E1, (bytes_eqb n (str "C4")) eqn:E2, (bytes_eqb n (str "out")) eqn:E3; try reflexivity;
      repeat match goal with H : bytes_eqb n _ = true |- _ => apply bytes_eqb_eq in H end; subst; discriminate.
Qed.

Lemma misspelt_sample : exists formal, In (str "notes", formal) documented /\ misspelt formal (argv ["--out=x"; "-semitones"; "3"; "song.mid"]%string).
Proof.
  eexists. split; [cbn [documented In]; do 2 right; left; reflexivity|].
  apply (ms_equals _ (str "--") (str "out") KString (str "x") (VString (str "x"))); [right; reflexivity|cbn [common app In]; tauto|constructor|].
  change (str "-semitones") with (str "-" ++ str "semitones" ++ []). apply ms_unknown; [left; reflexivity|discriminate|vm_compute; discriminate| |left; reflexivity| |discriminate|discriminate];
    vm_compute; intuition discriminate.
Qed.

Lemma readings : exists formal, In (str "transpose", formal) documented /\ (exists vs, options formal (argv ["-semitones"; "+0x_0c"; "--C4"; "--out=a.mid"; "song.mid"]%string) vs [str "song.mid"]) /\
  ~ (exists vs rest, options formal (argv ["--semitones"; "08"; "song.mid"]%string) vs rest) /\ ~ (exists vs rest, options formal (argv ["--semitones=1__0"; "song.mid"]%string) vs rest) /\
  ~ (exists vs rest, options formal (argv ["--help"; "--out=a.mid"]%string) vs rest).
Proof.
  destruct spelt_two_ways as (formal & vs & vs' & I & O & _). exists formal. split; [exact I|]. split; [exists vs; exact O|].
  assert (F : formal = flagset Transpose_) by (cbn [documented In] in I; repeat (destruct I as [I|I]; [try discriminate I; injection I as <-; reflexivity|]); destruct I).
  subst formal. repeat split; intros (us & rest & U); apply options_parsed in U; try apply flagset_good; vm_compute in U; discriminate U.
Qed.

(** A path with detours. *)
Lemma detours : leads false [str ".."; str "tmp"; str "."; str "v1.0"; []; str "x"; str ".."] [str ".."; str "tmp"; str "v1.0"].
Proof.
  assert (E : forall x, In x [str "tmp"; str "v1.0"; str "x"] -> element x) by (intros x [<-|[<-|[<-|[]]]]; repeat split; try discriminate; vm_compute; intuition discriminate).
  apply (ld_up false [str ".."; str "tmp"; str "."; str "v1.0"; []; str "x"] [str ".."; str "tmp"; str "v1.0"] (str "x")); [|apply E; cbn; tauto].
  apply (ld_into false [str ".."; str "tmp"; str "."; str "v1.0"; []] [str ".."; str "tmp"; str "v1.0"] (str "x")); [|apply E; cbn; tauto].
  apply (ld_stay false [str ".."; str "tmp"; str "."; str "v1.0"] [str ".."; str "tmp"; str "v1.0"] []); [|left; reflexivity].
  apply (ld_into false [str ".."; str "tmp"; str "."] [str ".."; str "tmp"] (str "v1.0")); [|apply E; cbn; tauto].
  apply (ld_stay false [str ".."; str "tmp"] [str ".."; str "tmp"] (str ".")); [|right; reflexivity].
  apply (ld_into false [str ".."] [str ".."] (str "tmp")); [|apply E; cbn; tauto].
  apply (ld_above false [] []); [constructor|reflexivity|constructor].
Qed.
