(** * TemplateLoadProofs: loading templates (Template.v [load_templates], TemplateLoad.v). *)
From Verif Require Import Base Strings Tables Event Track File Utf8 Hex Disassemble Csv Template SpecTemplate TemplateProofs.
From Coq Require Import Permutation.

(** ** Texts without definitions *)

(** [r] is what is left of [s] *)
Definition rest_of (r s : bytes) : Prop := exists x, s = x ++ r.

Lemma rest_refl : forall s, rest_of s s.
Proof. intro s. exists []. reflexivity. Qed.
Lemma rest_trans : forall a b c, rest_of a b -> rest_of b c -> rest_of a c.
Proof. intros a b c [x ->] [y ->]. exists (y ++ x). rewrite app_assoc. reflexivity. Qed.
Lemma rest_cons : forall c s, rest_of s (c :: s).
Proof. intros c s. exists [c]. reflexivity. Qed.
Lemma rest_tl : forall s, rest_of (tl s) s.
Proof. intros [|c s]; [apply rest_refl|apply rest_cons]. Qed.
Lemma rest_skipn : forall n s, rest_of (skipn n s) s.
Proof. intros n s. exists (firstn n s). symmetry. apply firstn_skipn. Qed.
Lemma rest_blanks : forall s, rest_of (skip_blanks s) s.
Proof.
  induction s as [|c r IH]; [apply rest_refl|]. cbn [skip_blanks]. destruct (blank c); [|apply rest_refl].
  eapply rest_trans; [exact IH|apply rest_cons].
Qed.
Lemma rest_span : forall p s a b, span p s = (a, b) -> s = a ++ b.
Proof.
  intros p. induction s as [|c r IH]; intros a b H; cbn [span] in H; [injection H as <- <-; reflexivity|].
  destruct (p c); [|injection H as <- <-; reflexivity].
  destruct (span p r) as [x y]. injection H as <- <-. cbn. f_equal. apply IH. reflexivity.
Qed.
Lemma rest_quoted : forall s a b, quoted s = Some (a, b) -> rest_of b s.
Proof.
  induction s as [|c r IH]; intros a b H; cbn [quoted] in H; [discriminate|].
  destruct (c =? 34); [injection H as <- <-; apply rest_cons|].
  destruct ((c =? 92) || (c =? 10) || (128 <=? c)); [discriminate|].
  destruct (quoted r) as [[x y]|]; [|discriminate]. injection H as <- <-.
  eapply rest_trans; [eapply IH; reflexivity|apply rest_cons].
Qed.
Lemma rest_left : forall s a b, find_left s = Some (a, b) -> rest_of b s.
Proof.
  induction s as [|c r IH]; intros a b H; cbn [find_left] in H; [discriminate|].
  destruct (has_prefix [123; 123] (c :: r)).
  - injection H as <- <-. eapply rest_trans; [apply rest_tl|apply rest_cons].
  - destruct (find_left r) as [[x y]|]; [|discriminate]. injection H as <- <-.
    eapply rest_trans; [eapply IH; reflexivity|apply rest_cons].
Qed.

Definition within (n s : bytes) : Prop := exists a b, s = a ++ n ++ b.
Lemma within_rest : forall n r s, rest_of r s -> within n r -> within n s.
Proof. intros n r s [x ->] (a & b & ->). exists (x ++ a), b. rewrite app_assoc. reflexivity. Qed.

Lemma has_prefix_app : forall n b, has_prefix n (n ++ b) = true.
Proof. induction n as [|x n IH]; intro b; [reflexivity|]. cbn [has_prefix app]. rewrite Z.eqb_refl. apply IH. Qed.

Lemma within_contains : forall n s, within n s -> contains s n = true.
Proof.
  intros n s (a & b & ->). induction a as [|c a IH]; cbn [app].
  - destruct (n ++ b) eqn:E.
    + apply app_eq_nil in E as [-> ->]. reflexivity.
    + cbn [contains]. rewrite <- E, has_prefix_app. reflexivity.
  - cbn [contains]. rewrite IH. apply orb_true_r.
Qed.

Lemma lex_names : forall fuel inside s ts n, lex fuel inside s = Some ts -> In (TName n) ts -> within n s.
Proof.
  induction fuel as [|f IH]; intros inside s ts n H I; [discriminate|]. cbn [lex] in H. destruct inside; cbn [negb] in H.
  - destruct s as [|c r]; [discriminate|].
    assert (P : forall tok r' x, rest_of r' (c :: r) -> tok <> TName n -> match lex f x r' with Some l => Some (tok :: l) | None => None end = Some ts -> within n (c :: r)).
    { intros tok r' x R N E. destruct (lex f x r') as [l|] eqn:L; [|discriminate]. injection E as <-.
      destruct I as [I|I]; [contradiction|]. eapply within_rest; [exact R|]. eapply IH; [exact L|exact I]. }
    destruct (blank c && has_prefix [45; 125; 125] r).
    { eapply P; [| |exact H]; [|discriminate]. eapply rest_trans; [apply rest_blanks|]. eapply rest_trans; [apply rest_skipn|apply rest_cons]. }
    destruct (has_prefix [125; 125] (c :: r)).
    { eapply P; [| |exact H]; [|discriminate]. eapply rest_trans; [apply rest_tl|apply rest_cons]. }
    destruct (blank c). { eapply P; [apply rest_cons| |exact H]; discriminate. }
    destruct (c =? 124). { eapply P; [apply rest_cons| |exact H]; discriminate. }
    destruct (c =? 40). { eapply P; [apply rest_cons| |exact H]; discriminate. }
    destruct (c =? 41). { eapply P; [apply rest_cons| |exact H]; discriminate. }
    destruct (c =? 34).
    { destruct (quoted r) as [[t r']|] eqn:Q; [|discriminate]. eapply P; [| |exact H]; [|discriminate].
      eapply rest_trans; [eapply rest_quoted; exact Q|apply rest_cons]. }
    destruct (c =? 46).
    { destruct (span alnum r) as [a r'] eqn:Sp. apply rest_span in Sp. destruct (negb (terminates r')); [discriminate|].
      assert (R : rest_of r' (c :: r)) by (exists (c :: a); rewrite Sp; reflexivity).
      destruct a as [|d a]; [eapply P; [exact R| |exact H]; discriminate|]. destruct (digit d); [discriminate|]. eapply P; [exact R| |exact H]; discriminate. }
    destruct (digit c).
    { destruct (span digit (c :: r)) as [a r'] eqn:Sp. apply rest_span in Sp. assert (R : rest_of r' (c :: r)) by (exists a; exact Sp).
      destruct r' as [|x r']; [discriminate|]. destruct (alnum x || (x =? 46)); [discriminate|]. destruct (literal_number a); [|discriminate].
      eapply P; [exact R| |exact H]; discriminate. }
    destruct (alnum c); [|discriminate].
    destruct (span alnum (c :: r)) as [a r'] eqn:Sp. apply rest_span in Sp. destruct (terminates r'); [|discriminate].
    destruct (lex f true r') as [l|] eqn:L; [|discriminate]. injection H as <-. destruct I as [I|I].
    + injection I as <-. exists [], r'. exact Sp.
    + eapply within_rest; [exists a; exact Sp|]. eapply IH; [exact L|exact I].
  - destruct (find_left s) as [[t r]|] eqn:F.
    + apply rest_left in F. cbv zeta in H.
      set (trim := match r with c :: d :: _ => (c =? 45) && blank d | _ => false end) in H.
      set (t' := if trim then drop_blanks t else t) in H. set (r' := if trim then tl (tl r) else r) in H.
      assert (R : rest_of r' s).
      { subst r'. destruct trim; [|exact F]. eapply rest_trans; [apply rest_tl|]. eapply rest_trans; [apply rest_tl|exact F]. }
      destruct (has_prefix [47; 42] r'); [discriminate|]. destruct (lex f true r') as [l|] eqn:L; [|discriminate].
      injection H as <-. eapply within_rest; [exact R|]. eapply IH; [exact L|].
      destruct t'; cbn [In] in I; intuition discriminate.
    + injection H as <-. destruct s; cbn [In] in I; intuition discriminate.
Qed.

(** ** The parser leaves items it was given *)

Lemma incl_spaces : forall ts, incl (no_spaces ts) ts.
Proof. induction ts as [|t r IH]; [apply incl_refl|]. destruct t; try apply incl_refl. cbn [no_spaces]. apply incl_tl, IH. Qed.

Lemma incl_chain : forall ts a b, chain ts = (a, b) -> incl b ts.
Proof.
  induction ts as [|t r IH]; intros a b H; [injection H as <- <-; apply incl_refl|].
  destruct t; cbn [chain] in H; try (injection H as <- <-; apply incl_refl).
  destruct (chain r) as [x y]. injection H as <- <-. apply incl_tl. eapply IH. reflexivity.
Qed.

Lemma incl_pipeline : forall fuel cmds cmd sp ts p r, parse_pipeline fuel cmds cmd sp ts = Some (p, r) -> incl r ts.
Proof.
  induction fuel as [|f IH]; intros cmds cmd sp ts p r H; [discriminate|]. cbn [parse_pipeline] in H. cbv zeta in H.
  destruct ts as [|t ts]; [discriminate|].
  assert (O : forall e r', incl r' (t :: ts) -> (if sp then parse_pipeline f cmds (e :: cmd) false r' else None) = Some (p, r) -> incl r (t :: ts)).
  { intros e r' I E. destruct sp; [|discriminate]. eapply incl_tran; [eapply IH; exact E|exact I]. }
  assert (O' : forall e r', incl r' (t :: ts) -> match r' with TField _ :: _ => None | _ => if sp then parse_pipeline f cmds (e :: cmd) false r' else None end = Some (p, r) ->
    incl r (t :: ts)).
  { intros e r' I E. apply (O e r' I). destruct r' as [|[] r']; try exact E. discriminate. }
  assert (T : incl ts (t :: ts)) by apply incl_tl, incl_refl.
  destruct t.
  - discriminate.
  - discriminate.
  - destruct cmd; [discriminate|]. destruct (forallb executable _); [|discriminate]. injection H as <- <-. apply incl_refl.
  - eapply incl_tran; [eapply IH; exact H|exact T].
  - eapply O'; [exact T|exact H].
  - destruct (chain (TField name :: ts)) as [path r'] eqn:C. apply incl_chain in C. eapply O; [exact C|exact H].
  - destruct (named "true" name); [eapply O'; [exact T|exact H]|]. destruct (named "false" name); [eapply O'; [exact T|exact H]|].
    destruct (is_function name); [eapply O'; [exact T|exact H]|discriminate].
  - eapply O'; [exact T|exact H].
  - eapply O'; [exact T|exact H].
  - destruct cmd; [discriminate|]. eapply incl_tran; [eapply IH; exact H|exact T].
  - destruct (parse_pipeline f [] [] true ts) as [[q [|[] r']]|] eqn:Q; try discriminate.
    eapply O'; [|exact H]. eapply incl_tran; [|exact T]. eapply incl_tran; [|eapply IH; exact Q]. apply incl_tl, incl_refl.
  - destruct cmd; [discriminate|]. destruct (forallb executable _); [|discriminate]. injection H as <- <-. apply incl_refl.
Qed.

Lemma incl_action_pipeline : forall fuel ts p r, action_pipeline fuel ts = Some (p, r) -> incl r ts.
Proof.
  intros fuel ts p r H. unfold action_pipeline in H. destruct (parse_pipeline fuel [] [] true ts) as [[q [|[] r']]|] eqn:Q; try discriminate.
  injection H as <- <-. eapply incl_tran; [|eapply incl_pipeline; exact Q]. apply incl_tl, incl_refl.
Qed.

Lemma incl_parse : forall fuel,
  (forall ts ns i r, parse_list fuel ts = Some (ns, i, r) -> incl r ts) /\
  (forall ts i r, parse_action fuel ts = Some (i, r) -> incl r ts) /\
  (forall ts n r, parse_if fuel ts = Some (n, r) -> incl r ts).
Proof.
  induction fuel as [|f [IL [IA II]]]; [repeat split; discriminate|].
  split; [|split].
  - intros ts ns i r H. cbn [parse_list] in H. cbv zeta in H. destruct ts as [|t ts]; [discriminate|].
    assert (M : forall n r', incl r' (t :: ts) -> match parse_list f r' with Some (ns, i, r') => Some (n :: ns, i, r') | None => None end = Some (ns, i, r) -> incl r (t :: ts)).
    { intros n r' I E. destruct (parse_list f r') as [[[a b] c]|] eqn:L; [|discriminate]. injection E as <- <- <-. eapply incl_tran; [eapply IL; exact L|exact I]. }
    destruct t; try discriminate.
    + eapply M; [apply incl_tl, incl_refl|exact H].
    + destruct (parse_action f (no_spaces ts)) as [[it r']|] eqn:P; [|discriminate].
      assert (I : incl r' (TLeft :: ts)) by (eapply incl_tran; [eapply IA; exact P|]; apply incl_tl, incl_spaces).
      destruct it; [eapply M; [exact I|exact H]| | |]; injection H as <- <- <-; exact I.
  - intros ts i r H. cbn [parse_action] in H. cbv zeta in H.
    assert (P : match action_pipeline f ts with Some (p, r) => Some (INode (NAction p), r) | None => None end = Some (i, r) -> incl r ts).
    { intro E. destruct (action_pipeline f ts) as [[p r']|] eqn:A; [|discriminate]. injection E as <- <-. eapply incl_action_pipeline; exact A. }
    destruct ts as [|t ts]; [exact (P H)|]. destruct t; try exact (P H).
    assert (T : incl (no_spaces ts) (TName name :: ts)) by apply incl_tl, incl_spaces.
    assert (T1 : incl ts (TName name :: ts)) by apply incl_tl, incl_refl.
    destruct (named "end" name).
    { destruct (no_spaces ts) as [|[] r1]; try discriminate. injection H as <- <-. eapply incl_tran; [|exact T]. apply incl_tl, incl_refl. }
    destruct (named "else" name).
    { destruct (no_spaces ts) as [|[] r1]; try discriminate.
      - injection H as <- <-. eapply incl_tran; [|exact T]. apply incl_tl, incl_refl.
      - destruct (named "if" name0); [|discriminate]. injection H as <- <-. eapply incl_tran; [|exact T]. apply incl_tl, incl_refl. }
    destruct (named "if" name).
    { destruct (parse_if f ts) as [[n r1]|] eqn:E; [|discriminate]. injection H as <- <-. eapply incl_tran; [eapply II; exact E|exact T1]. }
    destruct (named "range" name).
    { destruct (action_pipeline f ts) as [[p r1]|] eqn:A; [|discriminate]. apply incl_action_pipeline in A.
      destruct (parse_list f r1) as [[[l it] r2]|] eqn:L; [|discriminate]. apply IL in L.
      assert (I2 : incl r2 (TName name :: ts)) by (eapply incl_tran; [exact L|]; eapply incl_tran; [exact A|exact T1]).
      destruct it; try discriminate.
      - injection H as <- <-. exact I2.
      - destruct (parse_list f r2) as [[[e [| | |]] r3]|] eqn:L2; try discriminate. apply IL in L2. injection H as <- <-. eapply incl_tran; [exact L2|exact I2]. }
    destruct (named "template" name); [|exact (P H)].
    destruct (no_spaces ts) as [|[] r1]; try discriminate.
    assert (I1 : incl (no_spaces r1) (TName name :: ts)) by (eapply incl_tran; [apply incl_spaces|]; eapply incl_tran; [|exact T]; apply incl_tl, incl_refl).
    assert (G : match action_pipeline f (no_spaces r1) with Some (p, r3) => Some (INode (NTemplate s (Some p)), r3) | None => None end = Some (i, r) -> incl r (TName name :: ts)).
    { intro E. destruct (action_pipeline f (no_spaces r1)) as [[p r3]|] eqn:A; [|discriminate]. apply incl_action_pipeline in A. injection E as <- <-.
      eapply incl_tran; [exact A|exact I1]. }
    destruct (no_spaces r1) as [|[] r2]; try exact (G H). injection H as <- <-. eapply incl_tran; [|exact I1]. apply incl_tl, incl_refl.
  - intros ts n r H. cbn [parse_if] in H. destruct (action_pipeline f ts) as [[p r1]|] eqn:A; [|discriminate]. apply incl_action_pipeline in A.
    destruct (parse_list f r1) as [[[l it] r2]|] eqn:L; [|discriminate]. apply IL in L.
    assert (I2 : incl r2 ts) by (eapply incl_tran; [exact L|exact A]).
    destruct it; try discriminate.
    + injection H as <- <-. exact I2.
    + destruct (parse_list f r2) as [[[e [| | |]] r3]|] eqn:L2; try discriminate. apply IL in L2. injection H as <- <-. eapply incl_tran; [exact L2|exact I2].
    + destruct (parse_if f r2) as [[e r3]|] eqn:L2; try discriminate. apply II in L2. injection H as <- <-. eapply incl_tran; [exact L2|exact I2].
Qed.

Lemma no_define_top : forall fuel set root ts set' ns, ~ In (TName (str "define")) ts -> parse_top fuel set root ts = Some (set', ns) -> set' = set.
Proof.
  induction fuel as [|f IH]; intros set root ts set' ns N H; [discriminate|]. cbn [parse_top] in H. cbv zeta in H.
  destruct ts as [|t ts]; [injection H as <- <-; reflexivity|].
  destruct t; try discriminate.
  - eapply IH; [|exact H]. intro I. apply N. right. exact I.
  - assert (P : match parse_action f (no_spaces ts) with Some (INode n, r') => parse_top f set (n :: root) r' | _ => None end = Some (set', ns) -> set' = set).
    { intro E. destruct (parse_action f (no_spaces ts)) as [[[n| | |] r']|] eqn:A; try discriminate. eapply IH; [|exact E].
      destruct (incl_parse f) as (_ & IA & _). apply IA in A. intro I. apply N. right. apply (incl_spaces ts), A, I. }
    destruct (no_spaces ts) as [|[] r1] eqn:Es; try exact (P H).
    unfold named in H at 1. destruct (bytes_eqb (str "define") name) eqn:D; [|exact (P H)].
    apply bytes_eqb_eq in D. subst name. exfalso. apply N. right. apply (incl_spaces ts). rewrite Es. left. reflexivity.
Qed.

Lemma no_define : forall name text set, contains text (str "define") = false -> parse_template name text = Some set -> exists ns, set = [(name, ns)].
Proof.
  intros name text set C H. unfold parse_template in H. destruct (lex (S (length text)) false text) as [ts|] eqn:L; [|discriminate].
  destruct (parse_top (S (4 * length ts)) [] [] ts) as [[s root]|] eqn:P; [|discriminate].
  apply no_define_top in P.
  - subst s. cbn [add_tree assocb] in H. injection H as <-. exists root. reflexivity.
  - intro I. apply (lex_names _ _ _ _ _ L), within_contains in I. congruence.
Qed.

(** ** Loading *)

Lemma associate_lookup : forall ts name ns n,
  assocb n (associate ts (name, ns)) =
  if bytes_eqb n name then match assocb n ts with Some old => Some (if empty_tree ns then old else ns) | None => Some ns end else assocb n ts.
Proof.
  intros ts name ns n. unfold associate. cbn [fst snd].
  destruct (bytes_eqb n name) eqn:E.
  - apply bytes_eqb_eq in E. subst name. destruct (assocb n ts) as [old|] eqn:L; cbn [assocb]; [|rewrite bytes_eqb_refl; reflexivity].
    destruct (empty_tree ns); [exact L|]. cbn [assocb]. rewrite bytes_eqb_refl. reflexivity.
  - destruct (assocb name ts); [destruct (empty_tree ns)|]; try reflexivity; cbn [assocb]; rewrite E; reflexivity.
Qed.

(** What a name stands for after loading *)
Definition loaded_tree (ts : trees) (us : list (bytes * bytes)) (n : bytes) : option (list node) :=
  match assocb n us with
  | None => assocb n ts
  | Some text =>
      match parse_template n text with
      | Some [(_, ns)] => match assocb n ts with Some old => Some (if empty_tree ns then old else ns) | None => Some ns end
      | _ => None
      end
  end.

Lemma assocb_none : forall (us : list (bytes * bytes)) n, assocb n us = None <-> ~ In n (map fst us).
Proof.
  induction us as [|[k v] r IH]; intro n; cbn [assocb map In fst]; [tauto|]. destruct (bytes_eqb n k) eqn:E.
  - apply bytes_eqb_eq in E. subst. split; [discriminate|]. intro N. exfalso. apply N. left. reflexivity.
  - apply bytes_eqb_neq in E. rewrite IH. split; [intros H [<-|I]; [congruence|tauto]|tauto].
Qed.

Lemma assocb_in : forall (us : list (bytes * bytes)) n v, assocb n us = Some v -> In (n, v) us.
Proof.
  induction us as [|[k w] r IH]; intros n v H; cbn [assocb] in H; [discriminate|]. destruct (bytes_eqb n k) eqn:E; [|right; apply IH, H].
  apply bytes_eqb_eq in E. injection H as ->. subst. left. reflexivity.
Qed.

Lemma in_assocb : forall (us : list (bytes * bytes)) n v, NoDup (map fst us) -> In (n, v) us -> assocb n us = Some v.
Proof.
  induction us as [|[k w] r IH]; intros n v D I; [destruct I|]. cbn [assocb]. cbn [map fst] in D. inversion D as [|x l N D']; subst.
  destruct I as [I|I].
  - injection I as -> ->. rewrite bytes_eqb_refl. reflexivity.
  - destruct (bytes_eqb n k) eqn:E; [|apply IH; assumption]. apply bytes_eqb_eq in E. subst. exfalso. apply N. change k with (fst (k, v)). apply in_map, I.
Qed.

Lemma load_lookup : forall us ts ts', NoDup (map fst us) -> no_defines us -> load_templates ts us = Some ts' -> forall n, assocb n ts' = loaded_tree ts us n.
Proof.
  induction us as [|[name text] us IH]; intros ts ts' D N H n; cbn [load_templates] in H; [injection H as <-; reflexivity|].
  unfold add_template in H. destruct (parse_template name text) as [set|] eqn:P; [|discriminate].
  destruct (no_define name text set (N name text (or_introl eq_refl)) P) as (ns & ->). cbn [fold_left] in H.
  cbn [map fst] in D. inversion D as [|x l Ni D']; subst.
  rewrite (IH _ _ D' (fun a b I => N a b (or_intror I)) H n). unfold loaded_tree. cbn [assocb]. rewrite associate_lookup.
  destruct (bytes_eqb n name) eqn:E.
  - apply bytes_eqb_eq in E. subst n. assert (A : assocb name us = None) by (apply assocb_none; exact Ni). rewrite A, P. reflexivity.
  - reflexivity.
Qed.

Lemma load_succeeds : forall us ts, no_defines us -> load_templates ts us <> None <-> (forall name text, In (name, text) us -> parse_template name text <> None).
Proof.
  induction us as [|[name text] us IH]; intros ts N; cbn [load_templates]; [split; [intros _ n t []|discriminate]|].
  unfold add_template. destruct (parse_template name text) as [set|] eqn:P.
  - rewrite IH by exact (fun a b I => N a b (or_intror I)). split; intros H n t.
    + intros [I|I]; [injection I as <- <-; congruence|apply H, I].
    + intro I. apply H. right. exact I.
  - split; [congruence|]. intro H. exfalso. apply (H name text (or_introl eq_refl)), P.
Qed.

(** ** Execution depends on what the names stand for *)

Definition same_enter (a b : option (data -> list node -> written)) : Prop :=
  match a, b with
  | None, None => True
  | Some f, Some g => forall v ns, f v ns = g v ns
  | _, _ => False
  end.

Lemma walk_same : forall ts ts' en en', (forall n, assocb n ts = assocb n ts') -> same_enter en en' ->
  forall n dot, walk ts en dot n = walk ts' en' dot n.
Proof.
  intros ts ts' en en' T E.
  assert (K : forall name p dot, walk ts en dot (NTemplate name p) = walk ts' en' dot (NTemplate name p)).
  { intros name p dot. cbn [walk]. rewrite <- T. destruct (assocb name ts) as [b|]; [|reflexivity]. destruct en as [f|], en' as [g|]; try contradiction; [|reflexivity].
    destruct p as [p|]; [|reflexivity]. destruct (eval_pipeline dot p) as [v| |]; try reflexivity. cbn [after]. apply E. }
  fix IH 1. intros n dot.
  destruct n as [s|p|p yes no|p body empty|name p]; cbn [walk].
  - reflexivity.
  - reflexivity.
  - destruct (eval_pipeline dot p) as [v| |]; try reflexivity. cbn [after]. destruct (truth v).
    + induction yes as [|m r IHr]; [reflexivity|]. cbn [map]. rewrite !sequence_cons, (IH m dot), IHr. reflexivity.
    + induction no as [|m r IHr]; [reflexivity|]. cbn [map]. rewrite !sequence_cons, (IH m dot), IHr. reflexivity.
  - assert (B : forall d, sequence (map (walk ts en d) body) = sequence (map (walk ts' en' d) body)).
    { intro d. induction body as [|m r IHr]; [reflexivity|]. cbn [map]. rewrite !sequence_cons, (IH m d), IHr. reflexivity. }
    assert (M : forall d, sequence (map (walk ts en d) empty) = sequence (map (walk ts' en' d) empty)).
    { intro d. induction empty as [|m r IHr]; [reflexivity|]. cbn [map]. rewrite !sequence_cons, (IH m d), IHr. reflexivity. }
    destruct (eval_pipeline dot p) as [v| |]; try reflexivity. cbn [after]. destruct v as [| | | |[|x l]| |]; try reflexivity; [apply M|].
    apply sequence_map. intros y _. apply B.
  - apply K.
Qed.

Lemma exec_same : forall ts ts', (forall n, assocb n ts = assocb n ts') -> forall d dot ns, exec ts d dot ns = exec ts' d dot ns.
Proof.
  intros ts ts' T. induction d as [|d IH]; intros dot ns; rewrite !exec_walk; apply sequence_map; intros n _; apply walk_same; try exact T.
  - exact I.
  - exact IH.
Qed.

Lemma print_same : forall ts ts', (forall n, assocb n ts = assocb n ts') -> forall name v, print ts name v = print ts' name v.
Proof. intros ts ts' T name v. unfold print. rewrite <- T. destruct (assocb name ts); [apply exec_same, T|reflexivity]. Qed.

Lemma loaded_perm : forall us us', Permutation us us' -> NoDup (map fst us) -> forall ts n, loaded_tree ts us n = loaded_tree ts us' n.
Proof.
  intros us us' P D ts n. unfold loaded_tree. replace (assocb n us') with (assocb n us); [reflexivity|].
  assert (D' : NoDup (map fst us')) by (eapply Permutation_NoDup; [apply Permutation_map; exact P|exact D]).
  destruct (assocb n us) as [v|] eqn:E.
  - symmetry. apply in_assocb; [exact D'|]. eapply Permutation_in; [exact P|]. apply assocb_in, E.
  - symmetry. apply assocb_none. rewrite assocb_none in E. intro I. apply E. eapply Permutation_in; [apply Permutation_sym, Permutation_map; exact P|exact I].
Qed.

Theorem load_order : forall us us', Permutation us us' -> NoDup (map fst us) -> no_defines us -> forall ts,
  match load_templates ts us, load_templates ts us' with
  | Some a, Some b => forall name v, print a name v = print b name v
  | None, None => True
  | _, _ => False
  end.
Proof.
  intros us us' P D N ts.
  assert (N' : no_defines us') by (intros a b I; apply (N a b); eapply Permutation_in; [apply Permutation_sym; exact P|exact I]).
  assert (D' : NoDup (map fst us')) by (eapply Permutation_NoDup; [apply Permutation_map; exact P|exact D]).
  assert (S1 := load_succeeds us ts N). assert (S2 := load_succeeds us' ts N').
  destruct (load_templates ts us) as [a|] eqn:A, (load_templates ts us') as [b|] eqn:B.
  - apply print_same. intro n. rewrite (load_lookup us ts a D N A), (load_lookup us' ts b D' N' B). apply loaded_perm; assumption.
  - apply S2; [|reflexivity]. intros name text I. apply S1; [discriminate|]. eapply Permutation_in; [apply Permutation_sym; exact P|exact I].
  - apply S1; [|reflexivity]. intros name text I. apply S2; [discriminate|]. eapply Permutation_in; [exact P|exact I].
  - exact Logic.I.
Qed.

(** ** What a loaded template changes *)

Lemma layout_loaded : forall us ts, NoDup (map fst us) -> plain_templates us -> load_templates builtin us = Some ts -> same_layout ts.
Proof.
  intros us ts D P L n I. rewrite (load_lookup us builtin ts D (fun a b H => proj1 (P a b H)) L). unfold loaded_tree.
  destruct (assocb n us) as [text|] eqn:A; [|reflexivity]. apply assocb_in in A. destruct (P n text A) as [_ N]. contradiction.
Qed.

Lemma file_same : forall own own' s, (forall e, own e = own' e) -> file_written own s = file_written own' s.
Proof.
  intros own own' s H. unfold file_written. f_equal. apply sequence_map. intros t _. unfold track_written. f_equal. apply sequence_map. intros e _.
  unfold event_written. rewrite H. reflexivity.
Qed.

Lemma own_loaded : forall us ts e, NoDup (map fst us) -> plain_templates us -> load_templates builtin us = Some ts ->
  own_text ts (Z.to_nat 99996) e = shown_for us ts e.
Proof.
  intros us ts e D P L. unfold own_text, shown_for. rewrite (load_lookup us builtin ts D (fun a b H => proj1 (P a b H)) L). unfold loaded_tree.
  assert (B : forall d, match assocb (kind_template (e_body e)) builtin with Some body => exec ts d (inner_data e) body | None => ([], Failed) end = writes (event_text e)).
  { intro d. replace (assocb (kind_template (e_body e)) builtin) with (Some (tree (kind_template (e_body e)))).
    - apply kind_text_any.
    - unfold tree. destruct (e_body e) as [| | | | | | | |k s| | | | | | | | | | | ]; try destruct k; reflexivity. }
  destruct (assocb (kind_template (e_body e)) us) as [text|] eqn:A; [|apply B].
  destruct (parse_template (kind_template (e_body e)) text) as [[|[n ns] [|]]|] eqn:Q.
  - reflexivity.
  - specialize (B (Z.to_nat 99996)). destruct (assocb (kind_template (e_body e)) builtin) as [old|]; [|discriminate]. destruct (empty_tree ns); [exact B|reflexivity].
  - reflexivity.
  - reflexivity.
Qed.

Theorem loaded_listing : forall us ts, NoDup (map fst us) -> plain_templates us -> load_templates builtin us = Some ts ->
  (forall s, print ts (str "document") (smf_data s) = file_written (shown_for us ts) s) /\
  (forall h, print ts (str "MThd") (header_data h) = header_written h).
Proof.
  intros us ts D P L. assert (A := layout_loaded us ts D P L). split.
  - intro s. rewrite print_document by exact A. apply file_same. intro e. apply own_loaded; assumption.
  - intro h. apply print_mthd, A.
Qed.

(** ** Plain text *)

Lemma find_left_none : forall s, contains s (str "{{") = false -> find_left s = None.
Proof.
  induction s as [|c r IH]; intro H; [reflexivity|]. cbn [contains] in H. apply orb_false_iff in H as [H1 H2]. cbn [find_left].
  change (str "{{") with [123; 123] in H1. rewrite H1, (IH H2). reflexivity.
Qed.

Lemma parse_plain : forall name text, text <> [] -> contains text (str "{{") = false -> parse_template name text = Some [(name, [NText text])].
Proof.
  intros name text E H. unfold parse_template. cbn [lex negb]. rewrite (find_left_none text H). destruct text as [|c r]; [congruence|]. reflexivity.
Qed.

Theorem plain_shown : forall us ts e text, assocb (kind_template (e_body e)) us = Some text -> contains text (str "{{") = false ->
  forallb space_char (runes text) = false -> shown_for us ts e = writes text.
Proof.
  intros us ts e text A H B. unfold shown_for. rewrite A. assert (N : text <> []) by (intros ->; discriminate B).
  rewrite (parse_plain _ text N H). cbn [empty_tree forallb]. rewrite B. cbn [andb]. rewrite exec_walk. cbn [map walk sequence fold_right].
  rewrite andthen_nil. reflexivity.
Qed.

(** ** Template files *)

From Verif Require Import Json JsonText Conf TemplateLoad JsonReadProofs.

Lemma assign_nodup : forall m k v, NoDup (map fst m) -> NoDup (map fst (assign m k v)).
Proof.
  intros m k v D. unfold assign. cbn [map fst]. constructor.
  - intro I. apply in_map_iff in I as ([a b] & E & I). cbn in E. subst a. apply filter_In in I as [_ I]. cbn in I. rewrite bytes_eqb_refl in I. discriminate.
  - induction m as [|[a b] r IH]; [constructor|]. cbn [map fst] in D. inversion D as [|x l N D']; subst. cbn [filter fst].
    destruct (negb (bytes_eqb k a)); [|apply IH, D']. cbn [map fst]. constructor; [|apply IH, D'].
    intro I. apply N. apply in_map_iff in I as ([p q] & E & I). apply filter_In in I as [I _]. cbn in E. subst p. change a with (fst (a, q)). apply in_map, I.
Qed.

Lemma entries_nodup : forall o m r, NoDup (map fst m) -> read_entries m o = Ok r -> NoDup (map fst r).
Proof.
  induction o as [|[k v] o IH]; intros m r D H; cbn [read_entries] in H; [injection H as <-; exact D|].
  destruct (read_string [] v) as [s| | | |]; try discriminate. cbn [bind] in H. eapply IH; [|exact H]. apply assign_nodup, D.
Qed.

Lemma field_kept : forall A (P : A -> Prop) name f o a r, P a -> (forall a v b, P a -> f a v = Ok b -> P b) -> field name f a o = Ok r -> P r.
Proof.
  intros A P name f. induction o as [|[k v] o IH]; intros a r Pa Pf H; cbn [field] in H; [injection H as <-; exact Pa|].
  destruct (names name k); [|eapply IH; [exact Pa|exact Pf|exact H]].
  destruct (f a v) as [b| | | |] eqn:E; try discriminate. cbn [bind] in H. eapply IH; [eapply Pf; [exact Pa|exact E]|exact Pf|exact H].
Qed.

Lemma read_nodup : forall templates us, read_templates templates = Ok us -> NoDup (map fst us).
Proof.
  intros templates us H. unfold read_templates in H. destruct (unmarshal_value templates) as [v| | | |]; try discriminate. cbn [bind] in H.
  destruct (object v) as [o| | | |]; try discriminate. cbn [bind] in H.
  refine (field_kept _ (fun m => NoDup (map fst m)) _ _ _ _ _ _ _ H); [constructor|].
  intros a w b D E. destruct w as [| | | | | |es]; try discriminate; [injection E as <-; constructor|]. eapply entries_nodup; [exact D|exact E].
Qed.

Theorem file_listing : forall templates us ts0 ts, read_templates templates = Ok us -> plain_templates us ->
  new_disassemble = Some ts0 -> load_templates ts0 us = Some ts ->
  (forall s, print ts (str "document") (smf_data s) = file_written (shown_for us ts) s) /\
  (forall h, print ts (str "MThd") (header_data h) = header_written h).
Proof.
  intros templates us ts0 ts R P N L. rewrite new_builtin in N. injection N as <-.
  apply loaded_listing; [eapply read_nodup; exact R|exact P|exact L].
Qed.

Theorem other_kinds : forall templates us ts0 ts s, read_templates templates = Ok us -> plain_templates us ->
  new_disassemble = Some ts0 -> load_templates ts0 us = Some ts ->
  (forall t e, In t (f_tracks s) -> In e (t_events t) -> ~ In (kind_template (e_body e)) (map fst us)) ->
  print ts (str "document") (smf_data s) = print ts0 (str "document") (smf_data s).
Proof.
  intros templates us ts0 ts s R P N L K. destruct (file_listing templates us ts0 ts R P N L) as [F _]. rewrite F.
  rewrite new_builtin in N. injection N as <-. rewrite print_document by exact same_builtin. unfold file_written. f_equal.
  apply sequence_map. intros t It. unfold track_written. f_equal. apply sequence_map. intros e Ie. unfold event_written. rewrite own_builtin.
  unfold shown_for. replace (assocb (kind_template (e_body e)) us) with (@None bytes); [reflexivity|].
  symmetry. apply assocb_none. exact (K t e It Ie).
Qed.

Theorem listing_order : forall templates us, read_templates templates = Ok us -> no_defines us ->
  forall o1 o2, Permutation (o1 us) us -> Permutation (o2 us) us -> forall name v, listing o1 templates name v = listing o2 templates name v.
Proof.
  intros templates us R N o1 o2 P1 P2 name v. unfold listing. rewrite new_builtin, R.
  assert (D1 : NoDup (map fst (o1 us))) by (eapply Permutation_NoDup; [apply Permutation_map, Permutation_sym; exact P1|eapply read_nodup; exact R]).
  assert (N1 : no_defines (o1 us)) by (intros a b I; apply (N a b); eapply Permutation_in; [exact P1|exact I]).
  pose proof (load_order (o1 us) (o2 us) (Permutation_trans P1 (Permutation_sym P2)) D1 N1 builtin) as H.
  destruct (load_templates builtin (o1 us)), (load_templates builtin (o2 us)); try contradiction; [|reflexivity]. f_equal. apply H.
Qed.
