(** * IdleSamples: a text with comments, blank lines and CR LF, and the same text without. *)
From Verif Require Import Base Strings SpecText SpecAssemble SpecSource Assemble TextAssemble AssembleProofs SourceTextProofs ReadSamples ReassembleSamples SpecIdle.

Definition crlf (s : bytes) : bytes := s ++ [13; 10].
(** "%% header", the header, a line of white space (with a no-break space), the track, "%% no event", the end of the track, two empty lines *)
Definition decorated : bytes :=
  crlf (str "%% header") ++ crlf (str "MThd format:0, metrical time:480 ppqn") ++ crlf [32; 9; 194; 160] ++ crlf (str "MTrk") ++ line (str "%% no event") ++
  crlf (str "delta:0 EndOfTrack") ++ line [] ++ line [].

Definition lines_in (text : bytes) : list bytes := fst (scan_lines [] text).

Lemma scanned : forall text, snd (scan_lines [] text) = true -> ~ long_line text /\ lines_of text (lines_in text).
Proof.
  intros text H. unfold lines_in. pose proof (scan_lines_fails text [] (fun x => x)) as F. cbn [rev app] in F.
  pose proof (fun ls => scan_lines_spec text [] ls (fun x => x)) as SP. cbn [rev app] in SP. destruct (scan_lines [] text) as [ls ok]. cbn [fst snd] in *. subst ok.
  split; [|apply SP; reflexivity]. intro L. apply F in L. discriminate L.
Qed.

Lemma first_visible : forall c r, 33 <= c < 128 -> c <> 37 -> ~ idle (c :: r).
Proof.
  intros c r V C [B|[(q & E) _]]; [|congruence]. remember (c :: r) as l eqn:E. destruct B as [|cp d q W U B]; [discriminate E|].
  assert (0 <= cp -> 0 <= cp / 64 /\ 0 <= cp / 4096 /\ 0 <= cp / 262144) as D by (intro Q; repeat split; apply Z.div_pos; lia). assert (0 <= cp) as Q by (unfold white_point in W; lia).
  specialize (D Q). apply (f_equal (hd 0)) in E. destruct U; unfold white_point in W; cbn [app hd] in E; lia.
Qed.

Lemma decorated_same : same_source good_text decorated.
Proof.
  destruct (scanned good_text) as [A1 A2]; [vm_compute; reflexivity|]. destruct (scanned decorated) as [B1 B2]; [vm_compute; reflexivity|].
  split; [exact A1|]. split; [exact B1|]. exists (lines_in good_text), (lines_in decorated), (lines_in good_text). split; [exact A2|]. split; [exact B2|].
  assert (T : forall c, comment_line c -> contains c (str "MThd") = false -> contains c (str "MTrk") = false -> idle c).
  { intros c C X Y. right. split; [exact C|]. intros [H|H]; apply contains_spec in H; [change [77; 84; 104; 100] with (str "MThd") in H|change [77; 84; 114; 107] with (str "MTrk") in H]; congruence. }
  let x := eval vm_compute in (lines_in good_text) in change (lines_in good_text) with x. let x := eval vm_compute in (lines_in decorated) in change (lines_in decorated) with x.
  assert (W : blank_line [32; 9; 194; 160]).
  { apply (bl_char 32 [32]); [unfold white_point; lia|constructor; lia|]. apply (bl_char 9 [9]); [unfold white_point; lia|constructor; lia|].
    apply (bl_char 160 [194; 160] []); [unfold white_point; lia| |constructor]. apply (utf8_2 160); lia. }
  split; repeat first [apply td_nil|apply td_line; [apply first_visible; lia|]|apply td_idle; [first [left; exact W|left; constructor|apply T; [eexists; reflexivity|reflexivity|reflexivity]]|]].
Qed.
