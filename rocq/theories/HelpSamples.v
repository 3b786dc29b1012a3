(** * HelpSamples: help texts with gaps. *)
From Verif Require Import Base Strings Flags Help Cli SpecCli SpecRun CliSamples RunSamples FlagProofs FlagConverse CliProofs RunProofs SpecHelp HelpProofs.

Lemma asks_about : forall c, plain c -> asked (str "help") [c] [] c.
Proof. intros c P. exists common, [c]. split; [cbn; auto 12|]. split; [apply op_rest, P|reflexivity]. Qed.

(** The text of notes explains out, but neither json nor transpose; that of disassemble does not explain templates. *)
Lemma explained : explains notes_help (str "out").
Proof.
  exists (str " <file>  Writes the notes to a file. Default is to write to stdout."). split; [apply in_line; vm_compute; tauto|]. split; [vm_compute; intuition discriminate|right; reflexivity].
Qed.

Lemma not_explained : forall text n, forallb (fun l => negb (has_prefix (str "      --" ++ n) l)) (text_lines text) = true -> ~ explains text n.
Proof.
  intros text n F (r & L & _). apply line_in in L. rewrite forallb_forall in F. specialize (F _ L). rewrite app_assoc, prefix_true in F. discriminate.
Qed.

Lemma gap : forall w d c n, plain c -> forallb (fun l => negb (has_prefix (str "      --" ++ n) l)) (text_lines (help_text c)) = true -> ~ explains (r_stdout (run w d [str "help"; c])) n.
Proof. intros w d c n P F. rewrite (help_stdout w d [c] [] c (asks_about c P)). apply not_explained, F. Qed.

Lemma gaps : forall w d c n, In (c, n) [(str "notes", str "json"); (str "notes", str "transpose"); (str "disassemble", str "templates")] ->
  ~ explains (r_stdout (run w d [str "help"; c])) n.
Proof.
  assert (G : forallb (fun x => forallb (fun l => negb (has_prefix (str "      --" ++ snd x) l)) (text_lines (help_text (fst x))))
    [(str "notes", str "json"); (str "notes", str "transpose"); (str "disassemble", str "templates")] = true) by (vm_compute; reflexivity).
  intros w d c n I. apply gap; [|rewrite forallb_forall in G; exact (G _ I)]. right. cbn [In] in I. destruct I as [I|[I|[I|I]]]; [| | |contradiction]; injection I as <- <-; discriminate.
Qed.

(** The example for humanise has no file. *)
Definition humanise_example : list bytes := map str ["humanise"; "--debug"; "--verbose"; "--out"; "gnossienes.mid"]%string.
Lemma no_file : is_line humanise_help (str "      midiasm " ++ str "humanise --debug --verbose --out gnossienes.mid") /\ in_words (str "humanise --debug --verbose --out gnossienes.mid") humanise_example /\ ~ usable humanise_example.
Proof.
  split; [apply in_line; vm_compute; tauto|]. split.
  - assert (N : forall w, forallb (fun c => negb (c =? 32)) w = true -> ~ In 32 w).
    { intros w F I. rewrite forallb_forall in F. specialize (F _ I). discriminate. }
    apply (iw_more (str "humanise") (str "--debug --verbose --out gnossienes.mid")); [apply N; reflexivity|].
    apply (iw_more (str "--debug") (str "--verbose --out gnossienes.mid")); [apply N; reflexivity|].
    apply (iw_more (str "--verbose") (str "--out gnossienes.mid")); [apply N; reflexivity|].
    apply (iw_more (str "--out") (str "gnossienes.mid")); [apply N; reflexivity|]. apply iw_last. apply N. reflexivity.
  - intros (n & args & vs & file & A & F & [E|(E & -> & H)]).
    + injection E as <- <-. destruct A as (formal & rest & D & O & R). assert (formal = common ++ [(str "out", KString)]).
      { cbn [In documented] in D. repeat (destruct D as [D|D]; [injection D; intros; subst; try discriminate; try reflexivity|]). contradiction. }
      subst formal. pose proof (options_parsed _ _ _ _ (flagset_good Humanise_) O) as Q. vm_compute in Q. injection Q as <- <-. cbn in R. congruence.
    + apply H. cbn [hd humanise_example map]. vm_compute. tauto.
Qed.

Lemma unexplained : exists l, l = [(str "notes", str "json"); (str "notes", str "transpose"); (str "disassemble", str "templates")] /\
  forall w d c n, In (c, n) l -> (exists formal k, In (c, formal) documented /\ In (n, k) formal) /\ ~ explains (r_stdout (run w d [str "help"; c])) n.
Proof.
  eexists. split; [reflexivity|]. intros w d c n I. split; [|apply gaps, I]. cbn [In] in I. destruct I as [I|[I|[I|I]]]; [| | |contradiction]; injection I as <- <-.
  - exists (common ++ [(str "out", KString); (str "transpose", KInt); (str "json", KBool)]), KBool. split; [right; right; left; reflexivity|]. apply in_or_app. right. right. right. left. reflexivity.
  - exists (common ++ [(str "out", KString); (str "transpose", KInt); (str "json", KBool)]), KInt. split; [right; right; left; reflexivity|]. apply in_or_app. right. right. left. reflexivity.
  - exists (common ++ [(str "out", KString); (str "split", KBool); (str "templates", KString)]), KString. split; [left; reflexivity|]. apply in_or_app. right. right. right. left. reflexivity.
Qed.

Lemma humanise_no_file : exists x ws, (forall w d, is_line (r_stdout (run w d [str "help"; str "humanise"])) (str "      midiasm " ++ x)) /\ in_words x ws /\ ~ usable ws.
Proof.
  exists (str "humanise --debug --verbose --out gnossienes.mid"), humanise_example. destruct no_file as (A & B & C). split; [|split; assumption].
  intros w d. rewrite (help_stdout w d [str "humanise"] [] (str "humanise")); [exact A|]. apply asks_about. right. discriminate.
Qed.

Lemma silent : exists l, l = [str "help"; str "version"] /\ forall w d c, In c l -> In c command_names /\ r_stdout (run w d [str "help"; c]) = [].
Proof.
  eexists. split; [reflexivity|]. intros w d c I. cbn [In] in I. destruct I as [<-|[<-|I]]; [| |contradiction].
  - split; [vm_compute; tauto|]. rewrite (help_stdout w d [str "help"] [] (str "help")); [reflexivity|]. apply asks_about. right. discriminate.
  - split; [vm_compute; tauto|]. rewrite (help_stdout w d [str "version"] [] (str "version")); [reflexivity|]. apply asks_about. right. discriminate.
Qed.
