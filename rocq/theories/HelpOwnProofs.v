(** * HelpOwnProofs: each help text is about its own command. *)
From Verif Require Import Base Strings Tables Event Track File AssembleProofs Flags Help Cli SpecCli SpecRun FlagProofs FlagConverse CliProofs RunProofs SpecHelp HelpProofs SpecHelpOwn.

Definition for_now (c x : bytes) : bool :=
  has_prefix (c ++ [32]) x || (bytes_eqb c (str "disassemble") && forallb (fun n => negb (has_prefix (n ++ [32]) x)) command_names).

Lemma for_ok : forall c x, for_now c x = true -> for_command c x.
Proof.
  intros c x H. unfold for_now in H. apply orb_true_iff in H as [H|H].
  - left. apply has_prefix_spec in H as (r & ->). exists r. rewrite <- app_assoc. reflexivity.
  - right. apply andb_true_iff in H as [H1 H2]. apply bytes_eqb_eq in H1. split; [exact H1|]. intros n r I ->. rewrite forallb_forall in H2. specialize (H2 n I). cbv beta in H2.
    rewrite app_assoc, prefix_true in H2. discriminate.
Qed.

Definition own_line (c l : bytes) : bool :=
  (if has_prefix (str "    midiasm ") l then for_now c (skipn 12 l) else true) && (if has_prefix (str "      midiasm ") l then for_now c (skipn 14 l) else true).
Definition own_text (c : bytes) : bool :=
  forallb (own_line c) (text_lines (help_text c)) && existsb (has_prefix (str "    midiasm ")) (text_lines (help_text c)) && existsb (has_prefix (str "      midiasm ")) (text_lines (help_text c)).
Lemma all_own : forallb own_text explained_commands = true.
Proof. vm_compute. reflexivity. Qed.

Theorem help_own : forall w d args vs c, asked (str "help") args vs c -> In c explained_commands ->
  let out := r_stdout (run w d (str "help" :: args)) in
  forall p, In p [str "    midiasm "; str "      midiasm "] -> (exists x, is_line out (p ++ x)) /\ forall x, is_line out (p ++ x) -> for_command c x.
Proof.
  intros w d args vs c A I. cbv zeta. rewrite (help_stdout w d args vs c A). pose proof all_own as G. rewrite forallb_forall in G. specialize (G _ I). unfold own_text in G.
  apply andb_true_iff in G as [G G3]. apply andb_true_iff in G as [G1 G2]. rewrite forallb_forall in G1.
  assert (X : forall p, existsb (has_prefix p) (text_lines (help_text c)) = true -> exists x, is_line (help_text c) (p ++ x)).
  { intros p E. apply existsb_exists in E as (l & L & P). apply has_prefix_spec in P as (x & ->). exists x. apply in_line, L. }
  intros p [<-|[<-|[]]]; (split; [apply X; assumption|]); intros x L; apply line_in in L; specialize (G1 _ L); unfold own_line in G1; apply andb_true_iff in G1 as [Ga Gb]; apply for_ok.
  - rewrite prefix_true in Ga. exact Ga.
  - rewrite prefix_true in Gb. exact Gb.
Qed.
