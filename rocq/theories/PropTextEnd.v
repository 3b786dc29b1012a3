(** * How the assembly of a text ends: C111.  Theorems only; proofs in TextLineProofs.v, TextEndProofs.v and TextEndRunProofs.v. *)
From Coq Require Import Permutation.
From Verif Require Import Base Strings Tables Event Track File SpecTable NoteProofs Manufacturer TextEvent TextAssemble SpecSource Flags Cli SpecCli SpecRun SpecExit JsonWriteProofs Samples CliSamples RunSamples
  TextLineProofs TextEndProofs TextEndRunProofs SpecTextEnd.

(** C111: a line is read as the event that its first reading says, and as no other; it crashes the program, or makes it hang, exactly if that reading has such numbers. *)
Theorem C111_line : forall table s, (forall e, unmarshal_text table s = Ok e <-> exactly table s e) /\ (unmarshal_text table s = Panic <-> line_crashes s) /\
  (unmarshal_text table s = Loop <-> line_hangs s) /\ unmarshal_text table s <> Eof.
Proof. exact line_ends. Qed.
Print Assumptions C111_line.

(** A text is assembled exactly if nothing is wrong with it, and crashes the program or makes it hang exactly if that is the first thing wrong; else it is refused.  The order of the
    manufacturers does not matter. *)
Theorem C111_text : forall table tables text, is_bytes text -> (forall j i, Permutation (tables j i) table) ->
  ((exists bs, assemble_text tables text = Ok bs) <-> text_well table text) /\ (assemble_text tables text = Panic <-> text_crashes table text) /\
  (assemble_text tables text = Loop <-> text_hangs table text) /\ assemble_text tables text <> Eof.
Proof. exact text_ends. Qed.
Print Assumptions C111_text.

(** From the command line on *)
Theorem C111_run : forall w d args vs file c4 out src, asked (str "assemble") args vs file -> bool_setting (str "C4") vs c4 -> string_setting (str "out") vs out ->
  holds w d file src -> is_bytes src -> ~ ends_with file (str ".json") -> (forall j i, Permutation (w_tables w j i) manufacturers) ->
  let e := r_ending (run w d (str "assemble" :: args)) in
  (e = Exit 0 <-> can_write w out /\ text_well manufacturers src) /\ (e = Crashed <-> text_crashes manufacturers src) /\
  (e = Hung <-> text_hangs manufacturers src) /\ In e [Exit 0; Exit 1; Crashed; Hung].
Proof. exact text_run_ends. Qed.
Print Assumptions C111_run.

(** Texts with a header and one track of these lines *)
Definition header_row : bytes := str "MThd length:6, format:0, tracks:1, metrical time:480 ppqn".
Definition rows (l : list string) : bytes := concat (map (fun r => str r ++ [10]) l).
Definition listed (l : list string) : bytes := header_row ++ [10] ++ rows ("MTrk 0 length:0"%string :: l).
Definition fine_row : string := "delta:0 TimeSignature 4/128, 24 ticks per click, 8/32 per quarter"%string.
Definition time_row : string := "delta:0 TimeSignature 4/129, 24 ticks per click, 8/32 per quarter"%string.
Definition late_row : string := "delta:0 SMPTEOffset 25 0 0 25 0 0"%string.
Definition end_row : string := "delta:480 EndOfTrack"%string.
Definition text_disk : files := disk [("good.txt"%string, listed [fine_row; ""; "%% nothing"; end_row]%string); ("late.txt"%string, listed [fine_row; late_row; "Strange"]%string);
  ("odd.txt"%string, listed ["Strange"; late_row]%string); ("time.txt"%string, listed [fine_row; time_row; late_row]); ("empty.txt"%string, listed ["%% nothing"]%string);
  ("twice.txt"%string, header_row ++ [10] ++ listed [end_row]); ("again.txt"%string, listed [end_row] ++ header_row); ("bare.txt"%string, str "%% " ++ listed [end_row]);
  ("none.txt"%string, header_row); ("nothing.txt"%string, [])].
Definition ended (file : string) : ending := r_ending (run open_world text_disk (argv ["assemble"; "--out"; "a.mid"; file]%string)).

Example C111_endings : map ended ["good.txt"; "twice.txt"; "none.txt"; "late.txt"; "empty.txt"; "bare.txt"; "time.txt"; "odd.txt"; "again.txt"; "nothing.txt"]%string =
  [Exit 0; Exit 0; Exit 0; Crashed; Crashed; Crashed; Hung; Exit 1; Exit 1; Exit 1].
Proof. vm_compute. reflexivity. Qed.

Example C111_example : exists vs,
  asked (str "assemble") (argv ["--out"; "a.mid"; "late.txt"]%string) vs (str "late.txt") /\ bool_setting (str "C4") vs false /\ string_setting (str "out") vs (str "a.mid") /\
  holds open_world text_disk (str "late.txt") (listed [fine_row; late_row; "Strange"%string]) /\ ~ ends_with (str "late.txt") (str ".json") /\
  (forall j i, Permutation (w_tables open_world j i) manufacturers) /\ is_bytes (listed [fine_row; late_row; "Strange"%string]) /\
  text_well manufacturers (listed [fine_row; ""; "%% nothing"; end_row]%string) /\ text_crashes manufacturers (listed [fine_row; late_row; "Strange"%string]) /\
  text_hangs manufacturers (listed [fine_row; time_row; late_row]).
Proof.
  exists [(str "out", VString (str "a.mid"))]. split; [line [(str "out", VString (str "a.mid"))] Assemble_|]. split; [right; split; reflexivity|]. split; [left; reflexivity|].
  split; [split; [discriminate|vm_compute; reflexivity]|]. split; [intros (q & Q); apply (f_equal (@rev Z)) in Q; rewrite rev_app_distr in Q; vm_compute in Q; discriminate|].
  split; [intros j i; apply Permutation_refl|].
  assert (P : forall j i : nat, Permutation ((fun _ _ => manufacturers) j i) manufacturers) by (intros; apply Permutation_refl).
  split; [apply check_bytes; vm_compute; reflexivity|].
  assert (W : forall text, forallb (fun b => (0 <=? b) && (b <? 256)) text = true -> _) by (intros text B; exact (text_ends manufacturers (fun _ _ => manufacturers) text (check_bytes text B) P)).
  split; [apply W; [vm_compute; reflexivity|eexists; vm_compute; reflexivity]|]. split; apply W; vm_compute; reflexivity.
Qed.

(** The first of two readings; the last of two channels; the last of two values *)
Example C111_first : exactly manufacturers (str "delta:5 delta:7 EndOfTrack, delta:9 EndOfTrack") (Event 0 5 [] 255 47 EndOfTrack) /\
  exactly manufacturers (str "delta:1 Controller channel:1 7 value:2 channel:3 10 value:4 value:5") (Event 0 1 [] 179 0 (Controller 3 (lookup_controller 10) 5)).
Proof. split; apply (line_ends manufacturers); vm_compute; reflexivity. Qed.

Example C111_lines : line_crashes (str late_row) /\ line_hangs (str time_row).
Proof. split; apply (line_ends manufacturers); vm_compute; reflexivity. Qed.
