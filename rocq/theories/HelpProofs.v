(** * HelpProofs *)
From Verif Require Import Base Strings Tables Event Track File Flags Help Cli SpecCli SpecRun FlagProofs FlagConverse CliProofs RunProofs SpecHelp.

(** The lines of a text *)
Fixpoint text_lines (s : bytes) : list bytes :=
  match s with
  | [] => []
  | c :: r => if c =? 10 then [] :: text_lines r else match text_lines r with [] => [] | l :: ls => (c :: l) :: ls end
  end.

Lemma line_first : forall l b, ~ In 10 l -> text_lines (l ++ 10 :: b) = l :: text_lines b.
Proof.
  induction l as [|c l IH]; intros b N; [reflexivity|]. cbn [app text_lines]. destruct (Z.eqb_spec c 10) as [-> |_]; [exfalso; apply N; left; reflexivity|].
  rewrite IH; [reflexivity|]. intro I. apply N. right. exact I.
Qed.

Lemma lines_after : forall a x, exists y ys, text_lines (a ++ 10 :: x) = y :: ys ++ text_lines x.
Proof.
  induction a as [|c a IH]; intro x; cbn [app text_lines]; [exists [], []; reflexivity|]. destruct (IH x) as (y & ys & ->). destruct (c =? 10); [exists [], (y :: ys); reflexivity|exists (c :: y), ys; reflexivity].
Qed.

Lemma line_in : forall text l, is_line text l -> In l (text_lines text).
Proof.
  intros text l (N & a & b & -> & A). change ([10] ++ b) with (10 :: b). destruct A as [-> |(a' & ->)].
  - cbn [app]. rewrite line_first by exact N. left. reflexivity.
  - rewrite <- app_assoc. cbn [app]. destruct (lines_after a' (l ++ 10 :: b)) as (y & ys & ->). rewrite line_first by exact N. right. apply in_or_app. right. left. reflexivity.
Qed.

Lemma first_line : forall t y ys, text_lines t = y :: ys -> exists b, t = y ++ 10 :: b.
Proof.
  induction t as [|c r IH]; intros x xs E; cbn [text_lines] in E; [discriminate|]. destruct (Z.eqb_spec c 10) as [-> |_]; [injection E as <- _; exists r; reflexivity|].
  destruct (text_lines r) as [|y ys]; [discriminate|]. injection E as <- <-. destruct (IH y ys eq_refl) as (b & ->). exists b. reflexivity.
Qed.

Lemma later_line : forall t y ys l, text_lines t = y :: ys -> In l ys -> exists a b, t = a ++ 10 :: l ++ 10 :: b.
Proof.
  induction t as [|c t IH]; intros y ys l E I; cbn [text_lines] in E; [discriminate|]. destruct (Z.eqb_spec c 10) as [-> |_].
  - injection E as <- <-. destruct (text_lines t) as [|z zs] eqn:Et; [contradiction|]. destruct I as [<-|I].
    + destruct (first_line _ _ _ Et) as (b & ->). exists [], b. reflexivity.
    + destruct (IH z zs l eq_refl I) as (a & b & ->). exists (10 :: a), b. reflexivity.
  - destruct (text_lines t) as [|z zs]; [discriminate|]. injection E as <- <-. destruct (IH z zs l eq_refl I) as (a & b & ->). exists (c :: a), b. reflexivity.
Qed.

Lemma lines_plain : forall t l, In l (text_lines t) -> ~ In 10 l.
Proof.
  induction t as [|c r IH]; intros l I; cbn [text_lines] in I; [contradiction|]. destruct (Z.eqb_spec c 10) as [-> |Nc].
  - destruct I as [<-|I]; [intros []|apply IH, I].
  - destruct (text_lines r) as [|x xs]; [contradiction|]. destruct I as [<-|I]; [|apply IH; right; exact I]. intros [->|H]; [contradiction|]. exact (IH x (or_introl eq_refl) H).
Qed.

Lemma in_line : forall text l, In l (text_lines text) -> is_line text l.
Proof.
  intros text l I. split; [eapply lines_plain; exact I|]. destruct (text_lines text) as [|y ys] eqn:E; [contradiction|]. destruct I as [<-|I].
  - destruct (first_line _ _ _ E) as (b & ->). exists [], b. split; [reflexivity|auto].
  - destruct (later_line _ _ _ _ E I) as (a & b & ->). exists (a ++ [10]), b. split; [rewrite <- app_assoc; reflexivity|]. right. exists a. reflexivity.
Qed.

(** ** What is printed *)

Lemma help_stdout : forall w d args vs x, asked (str "help") args vs x -> r_stdout (run w d (str "help" :: args)) = help_text x.
Proof. intros w d args vs x A. destruct (asked_run w d _ Help_ args vs x A) as (rest & E & R); [cbn; auto 12|]. rewrite R. unfold execute. rewrite E. reflexivity. Qed.

Lemma version_stdout : forall w d args vs x, asked (str "version") args vs x -> r_stdout (run w d (str "version" :: args)) = version_text.
Proof. intros w d args vs x A. destruct (asked_run w d _ Version_ args vs x A) as (rest & E & R); [cbn; auto 12|]. rewrite R. reflexivity. Qed.

(** The name in front of a blank *)
Fixpoint word (s : bytes) : bytes := match s with [] => [] | c :: r => if c =? 32 then [] else c :: word r end.
Lemma word_of : forall n r, ~ In 32 n -> r = [] \/ hd 0 r = 32 -> word (n ++ r) = n.
Proof.
  induction n as [|c n IH]; intros r N R; cbn [app word].
  - destruct R as [-> |R]; [reflexivity|]. destruct r as [|c r]; [discriminate|]. cbn [hd] in R. subst c. reflexivity.
  - destruct (Z.eqb_spec c 32) as [-> |_]; [exfalso; apply N; left; reflexivity|]. f_equal. apply IH; [|exact R]. intro I. apply N. right. exact I.
Qed.

Definition explained_ok (formal : list (bytes * kind)) (l : bytes) : bool :=
  if has_prefix (str "      --") l then existsb (bytes_eqb (word (skipn 8 l))) (map fst formal) else true.

Lemma all_explained : forallb (fun x => forallb (explained_ok (snd x)) (text_lines (help_text (fst x)))) documented = true.
Proof. vm_compute. reflexivity. Qed.

Lemma prefix_true : forall p s, has_prefix p (p ++ s) = true.
Proof. induction p as [|c p IH]; intro s; [reflexivity|]. cbn [app has_prefix]. rewrite Z.eqb_refl. apply IH. Qed.

Theorem help_options : forall w d args vs c formal n, asked (str "help") args vs c -> In (c, formal) documented -> explains (r_stdout (run w d (str "help" :: args))) n -> exists k, In (n, k) formal.
Proof.
  intros w d args vs c formal n A I (r & L & N & R). rewrite (help_stdout w d args vs c A) in L. apply line_in in L. pose proof all_explained as G. rewrite forallb_forall in G. specialize (G _ I). cbn [fst snd] in G.
  rewrite forallb_forall in G. specialize (G _ L). unfold explained_ok in G. rewrite prefix_true in G. change (skipn 8 (str "      --" ++ n ++ r)) with (n ++ r) in G. rewrite (word_of n r N R) in G.
  apply existsb_exists in G as (m & Im & E). apply bytes_eqb_eq in E. subst m. apply in_map_iff in Im as ((m & k) & <- & Ik). exists k. exact Ik.
Qed.

(** ** The list of commands *)

Lemma unknown_text : forall x, ~ In x command_names -> help_text x = usage_help (map fst cli).
Proof.
  intros x N. unfold help_text. destruct (assocb x cli) as [c|] eqn:E; [|reflexivity]. exfalso. apply N. change command_names with (map fst cli).
  revert E. generalize cli. clear. induction l as [|[k v] l IH]; cbn [assocb map fst]; [discriminate|]. destruct (bytes_eqb x k) eqn:B; [intros _; left; apply bytes_eqb_eq in B; congruence|]. intro E. right. apply IH, E.
Qed.

Lemma usage_lines : map (fun n => str "    " ++ n) command_names = filter (has_prefix (str "    ")) (text_lines (usage_help (map fst cli))).
Proof. vm_compute. reflexivity. Qed.

Theorem help_commands : forall w d args vs x n, asked (str "help") args vs x -> ~ In x command_names -> (is_line (r_stdout (run w d (str "help" :: args))) (str "    " ++ n) <-> In n command_names).
Proof.
  intros w d args vs x n A N. rewrite (help_stdout w d args vs x A), (unknown_text x N). split.
  - intro L. apply line_in in L. assert (F : In (str "    " ++ n) (filter (has_prefix (str "    ")) (text_lines (usage_help (map fst cli))))) by (apply filter_In; split; [exact L|apply prefix_true]).
    rewrite <- usage_lines in F. apply in_map_iff in F as (m & E & I). apply app_inv_head in E. subst m. exact I.
  - intro I. apply in_line. apply (in_map (fun n => str "    " ++ n)) in I. rewrite usage_lines in I. apply filter_In in I. apply I.
Qed.

(** ** Examples *)

Fixpoint to_words (s : bytes) : list bytes :=
  match s with
  | [] => [[]]
  | c :: r => if c =? 32 then [] :: to_words r else match to_words r with [] => [[c]] | w :: ws => (c :: w) :: ws end
  end.
Lemma words_read : forall s ws, in_words s ws -> to_words s = ws.
Proof.
  assert (P : forall w, ~ In 32 w -> to_words w = [w]).
  { induction w as [|c w IH]; intro N; [reflexivity|]. cbn [to_words]. destruct (Z.eqb_spec c 32) as [-> |_]; [exfalso; apply N; left; reflexivity|]. rewrite IH; [reflexivity|]. intro I. apply N. right. exact I. }
  intros s ws H. induction H as [w N|w r ws N H IH]; [apply P, N|]. revert N. induction w as [|c w IHw]; intro N.
  - cbn [app to_words]. change (32 =? 32) with true. cbn iota. rewrite IH. reflexivity.
  - cbn [app to_words]. destruct (Z.eqb_spec c 32) as [-> |_]; [exfalso; apply N; left; reflexivity|]. change (w ++ 32 :: r) with (w ++ [32] ++ r). rewrite IHw; [reflexivity|]. intro I. apply N. right. exact I.
Qed.

(** A command line that parses and has a file *)
Definition usable_now (ws : list bytes) : bool :=
  match ws with
  | [] => false
  | a :: r =>
      let (n, args) := if existsb (bytes_eqb a) command_names then (a, r) else (str "disassemble", ws) in
      match assocb n documented with
      | Some formal => match parse_flags formal args with Parsed _ (f :: _) => negb (bytes_eqb f []) | _ => false end
      | None => false
      end
  end.
Lemma assocb_in : forall A (l : list (bytes * A)) n v, assocb n l = Some v -> In (n, v) l.
Proof.
  intros A l n v. induction l as [|[k x] l IH]; cbn [assocb]; [discriminate|]. destruct (bytes_eqb n k) eqn:B; [|right; auto]. intros [= ->]. apply bytes_eqb_eq in B. subst k. left. reflexivity.
Qed.
Lemma usable_ok : forall ws, usable_now ws = true -> usable ws.
Proof.
  intros [|a r] H; [discriminate|]. unfold usable_now in H. destruct (existsb (bytes_eqb a) command_names) eqn:E.
  - destruct (assocb a documented) as [formal|] eqn:A; [|discriminate]. pose proof (parsed_only formal r) as P. destruct (parse_flags formal r) as [vs [|f rest]|code]; try discriminate.
    exists a, r, vs, f. split; [exists formal, (f :: rest); split; [apply assocb_in, A|auto]|]. split; [|left; reflexivity]. intros ->. discriminate.
  - destruct (assocb (str "disassemble") documented) as [formal|] eqn:A; [|discriminate]. pose proof (parsed_only formal (a :: r)) as P. destruct (parse_flags formal (a :: r)) as [vs [|f rest]|code]; try discriminate.
    exists (str "disassemble"), (a :: r), vs, f. split; [exists formal, (f :: rest); split; [apply assocb_in, A|auto]|]. split; [intros ->; discriminate|]. right. split; [reflexivity|]. split; [reflexivity|].
    cbn [hd]. intro I. assert (T : existsb (bytes_eqb a) command_names = true) by (apply existsb_exists; exists a; split; [exact I|apply bytes_eqb_same]). congruence.
Qed.

Definition example_ok (l : bytes) : bool := if has_prefix (str "      midiasm ") l then usable_now (to_words (skipn 14 l)) else true.
Lemma all_examples : forallb (fun c => forallb example_ok (text_lines (help_text c))) (map str ["disassemble"; "assemble"; "notes"; "click"; "export"; "transpose"; "tsv"]%string) = true.
Proof. vm_compute. reflexivity. Qed.

Theorem help_examples : forall w d args vs c x ws, asked (str "help") args vs c -> In c (map str ["disassemble"; "assemble"; "notes"; "click"; "export"; "transpose"; "tsv"]%string) ->
  is_line (r_stdout (run w d (str "help" :: args))) (str "      midiasm " ++ x) -> in_words x ws -> usable ws.
Proof.
  intros w d args vs c x ws A I L W. rewrite (help_stdout w d args vs c A) in L. apply line_in in L. pose proof all_examples as G. rewrite forallb_forall in G. specialize (G _ I).
  rewrite forallb_forall in G. specialize (G _ L). unfold example_ok in G. rewrite prefix_true in G. change (skipn 14 (str "      midiasm " ++ x)) with x in G. rewrite (words_read _ _ W) in G. apply usable_ok, G.
Qed.
