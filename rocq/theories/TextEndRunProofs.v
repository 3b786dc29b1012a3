(** * TextEndRunProofs: how the assembly of a text file ends, from the command line on. *)
From Coq Require Import Permutation.
From Verif Require Import Base Strings Tables Event Track File SpecTable NoteProofs Manufacturer Assemble TextAssemble TextEvent SpecSource
  Flags Paths Cli SpecCli SpecRun FlagProofs CliProofs CliTripProofs RunProofs RunCommandProofs SpecExit JsonEndRunProofs SpecTextEnd TextEndProofs.

Theorem text_run_ends : forall w d args vs file c4 out src, asked (str "assemble") args vs file -> bool_setting (str "C4") vs c4 -> string_setting (str "out") vs out ->
  holds w d file src -> is_bytes src -> ~ ends_with file (str ".json") -> (forall j i, Permutation (w_tables w j i) manufacturers) ->
  let e := r_ending (run w d (str "assemble" :: args)) in
  (e = Exit 0 <-> can_write w out /\ text_well manufacturers src) /\ (e = Crashed <-> SpecTextEnd.text_crashes manufacturers src) /\
  (e = Hung <-> SpecTextEnd.text_hangs manufacturers src) /\ In e [Exit 0; Exit 1; Crashed; Hung].
Proof.
  intros w d args vs file c4 out src A S4 So [N R0] B X P e. subst e.
  destruct (same_files w d Assemble_ args vs file _ A) with (c4 := c4) (out := out) as (rest & E & R & E4 & Eo); [cbn; auto 10|assumption|assumption|].
  rewrite R. unfold execute. rewrite E, E4, Eo. unfold run_assemble. unfold read_file. rewrite bytes_eqb_false by exact N. rewrite R0.
  rewrite bytes_eqb_false by (intro Q; apply X; rewrite <- Q; apply ext_ends).
  destruct (text_ends manufacturers (w_tables w) src B P) as (TA & TC & TH & TN). rewrite <- TC, <- TH, <- TA. clear TC TH TA. unfold written, can_write.
  destruct (assemble_text (w_tables w) src) as [bs| | | |] eqn:Ea; cbn [stopped ends r_ending In].
  2: { parted. }
  2: { destruct TN; reflexivity. }
  2: { parted. }
  2: { parted. }
  destruct (bytes_eqb out []) eqn:O; [apply bytes_eqb_eq in O|].
  { cbn [r_ending ends]. split; [split; [intros _; split; [left; exact O|exists bs; reflexivity]|reflexivity]|]. parted. }
  assert (O' : out <> []) by (intros ->; discriminate O).
  destruct (w_creatable w out) eqn:C; cbn [r_ending ends].
  - split; [split; [intros _; split; [right; reflexivity|exists bs; reflexivity]|reflexivity]|]. parted.
  - split; [split; [discriminate|intros [[H|H] _]; [contradiction|discriminate]]|]. parted.
Qed.
