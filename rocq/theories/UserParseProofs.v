(** * UserParseProofs: the nodes of a template of the user (C100). *)
From Verif Require Import Base Strings Tables Event Track File Utf8 Hex Disassemble Csv Template SpecUserTemplate UserLexProofs.

(** ** Steps of the parser of pipelines *)

Definition no_field (r : list token) : Prop := match r with TField _ :: _ => False | _ => True end.

Lemma pp_space : forall f cmds cmd sp r, parse_pipeline (S f) cmds cmd sp (TSpace :: r) = parse_pipeline f cmds cmd true r.
Proof. reflexivity. Qed.

Lemma pp_number : forall f cmds cmd n r, no_field r -> parse_pipeline (S f) cmds cmd true (TNumber n :: r) = parse_pipeline f cmds (ENumber n :: cmd) false r.
Proof. intros f cmds cmd n r H. cbn [parse_pipeline]. destruct r as [|[]]; try reflexivity; destruct H. Qed.

Lemma pp_string : forall f cmds cmd s r, no_field r -> parse_pipeline (S f) cmds cmd true (TString s :: r) = parse_pipeline f cmds (EString s :: cmd) false r.
Proof. intros f cmds cmd s r H. cbn [parse_pipeline]. destruct r as [|[]]; try reflexivity; destruct H. Qed.

Definition names : list bytes := map str ["pad"; "ellipsize"; "not"; "eq"; "ne"; "len"; "valign"]%string.
Lemma pp_function : forall f cmds cmd n r, In n names -> no_field r ->
  parse_pipeline (S f) cmds cmd true (TName n :: r) = parse_pipeline f cmds (EFunction n :: cmd) false r.
Proof.
  intros f cmds cmd n r I H. cbn [parse_pipeline].
  assert (E : named "true" n = false /\ named "false" n = false /\ is_function n = true).
  { repeat (destruct I as [<-|I]; [repeat split; vm_compute; reflexivity|]). destruct I. }
  destruct E as (-> & -> & ->). destruct r as [|[]]; try reflexivity; destruct H.
Qed.

Lemma chain_all : forall path r, no_field r -> chain (path_tokens path ++ r) = (path, r).
Proof.
  intros path r H. induction path as [|n path IH]; cbn [path_tokens map app].
  - destruct r as [|[]]; try reflexivity; destruct H.
  - cbn [chain]. change (map TField path ++ r) with (path_tokens path ++ r). rewrite IH. reflexivity.
Qed.

Lemma pp_path : forall f cmds cmd path r, path <> [] -> no_field r ->
  parse_pipeline (S f) cmds cmd true (path_tokens path ++ r) = parse_pipeline f cmds (EField path :: cmd) false r.
Proof.
  intros f cmds cmd path r N H. destruct path as [|n path]; [congruence|]. pose proof (chain_all (n :: path) r H) as C.
  cbn [path_tokens map app] in *. cbn [parse_pipeline]. rewrite C. reflexivity.
Qed.

Definition closing (t : token) : Prop := t = TRight \/ t = TClose.

Lemma pp_close : forall f c cmd sp t r, closing t -> parse_pipeline (S f) [] (c :: cmd) sp (t :: r) = Some ([rev (c :: cmd)], t :: r).
Proof. intros f c cmd sp t r [-> | ->]; reflexivity. Qed.

(** ** Terms *)

Fixpoint command (t : term) : list expr :=
  match t with
  | Field path => [EField path]
  | Padded w t => [EFunction (str "pad"); ENumber w; match t with Field path => EField path | _ => EPipe [command t] end]
  | Shortened t w => [EFunction (str "ellipsize"); match t with Field path => EField path | _ => EPipe [command t] end; ENumber w]
  | Length path => [EFunction (str "len"); EField path]
  | Aligned path => [EFunction (str "valign"); EField path]
  | AlignedBy path w => [EFunction (str "valign"); EField path; ENumber w]
  end.
Definition argument (t : term) : expr := match t with Field path => EField path | _ => EPipe [command t] end.

Lemma term_parse : forall t, good_term t ->
  (forall F cmds cmd r, (length (term_tokens true t) < F)%nat -> no_field r ->
     parse_pipeline (S F) cmds cmd true (term_tokens true t ++ r) = parse_pipeline F cmds (argument t :: cmd) false r) /\
  (forall F x r, (length (term_tokens false t) + 1 < F)%nat -> closing x ->
     parse_pipeline F [] [] true (term_tokens false t ++ x :: r) = Some ([command t], x :: r)).
Proof.
  assert (W : forall t toks, term_tokens true t = TOpen :: toks ++ [TClose] -> term_tokens false t = toks -> argument t = EPipe [command t] ->
    (forall F x r, (length (term_tokens false t) + 1 < F)%nat -> closing x ->
       parse_pipeline F [] [] true (term_tokens false t ++ x :: r) = Some ([command t], x :: r)) ->
    forall F cmds cmd r, (length (term_tokens true t) < F)%nat -> no_field r ->
     parse_pipeline (S F) cmds cmd true (term_tokens true t ++ r) = parse_pipeline F cmds (argument t :: cmd) false r).
  { intros t toks E1 E2 E3 B F cmds cmd r Hf H. rewrite E1 in *. rewrite E2 in B. rewrite E3. cbn [app parse_pipeline]. rewrite <- app_assoc. cbn [app].
    cbn [length] in Hf. rewrite app_length in Hf. cbn [length] in Hf. rewrite B by (first [lia|right; reflexivity]). destruct r as [|[]]; try reflexivity; destruct H. }
  assert (Z0 : forall path : list bytes, path <> [] -> length (path_tokens path) <> O) by (intros [|]; [congruence|discriminate]).
  induction t as [path|w t IH|t IH w|path|path|path w]; intro G; cbn [good_term] in G.
  - destruct G as [N _]. split.
    + intros F cmds cmd r Hf H. apply pp_path; assumption.
    + intros F x r Hf H. destruct F as [|[|F]]; [lia|lia|]. cbn [term_tokens]. rewrite pp_path; [|exact N|destruct H as [-> | ->]; exact I].
      rewrite pp_close by exact H. reflexivity.
  - destruct G as [_ G]. destruct (IH G) as [A _].
    assert (B : forall F x r, (length (term_tokens false (Padded w t)) + 1 < F)%nat -> closing x ->
       parse_pipeline F [] [] true (term_tokens false (Padded w t) ++ x :: r) = Some ([command (Padded w t)], x :: r)).
    { intros F x r Hf H. cbn [term_tokens app] in *. cbn [length] in Hf. do 6 (destruct F as [|F]; [lia|]).
      rewrite pp_function; [|left; reflexivity|exact I]. rewrite pp_space, pp_number by exact I. rewrite pp_space. rewrite A; [|lia|destruct H as [-> | ->]; exact I].
      rewrite pp_close by exact H. reflexivity. }
    split; [|exact B]. eapply W; [reflexivity|reflexivity|reflexivity|exact B].
  - destruct G as [_ G]. destruct (IH G) as [A _].
    assert (B : forall F x r, (length (term_tokens false (Shortened t w)) + 1 < F)%nat -> closing x ->
       parse_pipeline F [] [] true (term_tokens false (Shortened t w) ++ x :: r) = Some ([command (Shortened t w)], x :: r)).
    { intros F x r Hf H. cbn [term_tokens app] in *. cbn [length] in Hf. rewrite app_length in Hf. cbn [length] in Hf. do 6 (destruct F as [|F]; [lia|]).
      rewrite pp_function; [|right; left; reflexivity|exact I]. rewrite pp_space. rewrite <- app_assoc. cbn [app]. rewrite A; [|lia|exact I].
      rewrite pp_space, pp_number by (destruct H as [-> | ->]; exact I). rewrite pp_close by exact H. reflexivity. }
    split; [|exact B]. eapply W; [reflexivity|reflexivity|reflexivity|exact B].
  - destruct G as [N _]. assert (B : forall F x r, (length (term_tokens false (Length path)) + 1 < F)%nat -> closing x ->
       parse_pipeline F [] [] true (term_tokens false (Length path) ++ x :: r) = Some ([command (Length path)], x :: r)).
    { intros F x r Hf H. cbn [term_tokens app] in *. cbn [length] in Hf. specialize (Z0 path N). do 4 (destruct F as [|F]; [lia|]).
      rewrite pp_function; [|do 5 right; left; reflexivity|exact I]. rewrite pp_space, pp_path; [|exact N|destruct H as [-> | ->]; exact I].
      rewrite pp_close by exact H. reflexivity. }
    split; [|exact B]. eapply W; [reflexivity|reflexivity|reflexivity|exact B].
  - destruct G as [N _]. assert (B : forall F x r, (length (term_tokens false (Aligned path)) + 1 < F)%nat -> closing x ->
       parse_pipeline F [] [] true (term_tokens false (Aligned path) ++ x :: r) = Some ([command (Aligned path)], x :: r)).
    { intros F x r Hf H. cbn [term_tokens app] in *. cbn [length] in Hf. specialize (Z0 path N). do 4 (destruct F as [|F]; [lia|]).
      rewrite pp_function; [|do 6 right; left; reflexivity|exact I]. rewrite pp_space, pp_path; [|exact N|destruct H as [-> | ->]; exact I].
      rewrite pp_close by exact H. reflexivity. }
    split; [|exact B]. eapply W; [reflexivity|reflexivity|reflexivity|exact B].
  - destruct G as [[N _] _]. assert (B : forall F x r, (length (term_tokens false (AlignedBy path w)) + 1 < F)%nat -> closing x ->
       parse_pipeline F [] [] true (term_tokens false (AlignedBy path w) ++ x :: r) = Some ([command (AlignedBy path w)], x :: r)).
    { intros F x r Hf H. cbn [term_tokens app] in *. cbn [length] in Hf. rewrite app_length in Hf. cbn [length] in Hf. specialize (Z0 path N).
      do 6 (destruct F as [|F]; [lia|]). rewrite pp_function; [|do 6 right; left; reflexivity|exact I]. rewrite pp_space. rewrite <- app_assoc. cbn [app].
      rewrite pp_path; [|exact N|exact I]. rewrite pp_space, pp_number by (destruct H as [-> | ->]; exact I). rewrite pp_close by exact H. reflexivity. }
    split; [|exact B]. eapply W; [reflexivity|reflexivity|reflexivity|exact B].
Qed.

(** ** Tests *)

Definition test_command (c : test) : list expr :=
  match c with
  | Set_ path => [EField path]
  | Unset path => [EFunction (str "not"); EField path]
  | OneOf path texts => EFunction (str "eq") :: EField path :: map EString texts
  | Among path ns => EFunction (str "eq") :: EField path :: map ENumber ns
  | Differs path s => [EFunction (str "ne"); EField path; EString s]
  end.

Lemma texts_parse : forall texts F c cmd x r, (length (flat_map (fun s => [TSpace; TString s]) texts) < F)%nat -> closing x ->
  parse_pipeline F [] (c :: cmd) false (flat_map (fun s => [TSpace; TString s]) texts ++ x :: r) = Some ([rev (c :: cmd) ++ map EString texts], x :: r).
Proof.
  induction texts as [|s texts IH]; intros F c cmd x r Hf H; cbn [flat_map app length map] in *.
  - destruct F as [|F]; [lia|]. rewrite pp_close by exact H. rewrite app_nil_r. reflexivity.
  - do 2 (destruct F as [|F]; [lia|]). rewrite pp_space, pp_string.
    + rewrite IH by (first [lia|exact H]). cbn [rev]. rewrite <- app_assoc. reflexivity.
    + destruct texts; cbn [flat_map app]; [destruct H as [-> | ->]|]; exact I.
Qed.

Lemma numbers_parse : forall ns F c cmd x r, (length (flat_map (fun n => [TSpace; TNumber n]) ns) < F)%nat -> closing x ->
  parse_pipeline F [] (c :: cmd) false (flat_map (fun n => [TSpace; TNumber n]) ns ++ x :: r) = Some ([rev (c :: cmd) ++ map ENumber ns], x :: r).
Proof.
  induction ns as [|s ns IH]; intros F c cmd x r Hf H; cbn [flat_map app length map] in *.
  - destruct F as [|F]; [lia|]. rewrite pp_close by exact H. rewrite app_nil_r. reflexivity.
  - do 2 (destruct F as [|F]; [lia|]). rewrite pp_space, pp_number.
    + rewrite IH by (first [lia|exact H]). cbn [rev]. rewrite <- app_assoc. reflexivity.
    + destruct ns; cbn [flat_map app]; [destruct H as [-> | ->]|]; exact I.
Qed.

Lemma test_parse : forall c F x r, good_test c -> (length (test_tokens c) + 1 < F)%nat -> closing x ->
  parse_pipeline F [] [] true (test_tokens c ++ x :: r) = Some ([test_command c], x :: r).
Proof.
  intros c F x r G Hf H. assert (X : no_field (x :: r)) by (destruct H as [-> | ->]; exact I).
  destruct c as [path|path|path texts|path ns|path s]; cbn [good_test test_tokens test_command length] in *.
  - destruct G as [N _]. do 2 (destruct F as [|F]; [lia|]). rewrite pp_path by assumption. rewrite pp_close by exact H. reflexivity.
  - destruct G as [N _]. assert (length (path_tokens path) <> O) by (destruct path; [congruence|discriminate]).
    do 4 (destruct F as [|F]; [lia|]). cbn [app]. rewrite pp_function; [|right; right; left; reflexivity|exact I]. rewrite pp_space, pp_path by assumption.
    rewrite pp_close by exact H. reflexivity.
  - destruct G as ([N _] & _ & _). rewrite app_length in Hf. assert (length (path_tokens path) <> O) by (destruct path; [congruence|discriminate]).
    do 3 (destruct F as [|F]; [lia|]). cbn [app]. rewrite pp_function; [|do 3 right; left; reflexivity|exact I]. rewrite pp_space. rewrite <- app_assoc. rewrite pp_path; [|exact N|].
    + rewrite texts_parse by (first [lia|exact H]). reflexivity.
    + destruct texts; [exact X|exact I].
  - destruct G as ([N _] & _ & _). rewrite app_length in Hf. assert (length (path_tokens path) <> O) by (destruct path; [congruence|discriminate]).
    do 3 (destruct F as [|F]; [lia|]). cbn [app]. rewrite pp_function; [|do 3 right; left; reflexivity|exact I]. rewrite pp_space. rewrite <- app_assoc. rewrite pp_path; [|exact N|].
    + rewrite numbers_parse by (first [lia|exact H]). reflexivity.
    + destruct ns; [exact X|exact I].
  - destruct G as ([N _] & _). rewrite app_length in Hf. cbn [length] in Hf. assert (length (path_tokens path) <> O) by (destruct path; [congruence|discriminate]).
    do 6 (destruct F as [|F]; [lia|]). cbn [app]. rewrite pp_function; [|do 4 right; left; reflexivity|exact I]. rewrite pp_space. rewrite <- app_assoc. rewrite pp_path; [|exact N|exact I].
    cbn [app]. rewrite pp_space, pp_string by exact X. rewrite pp_close by exact H. reflexivity.
Qed.

(** ** Templates *)

Fixpoint nodes (T : template) : list node :=
  match T with
  | End => []
  | Words s r => NText s :: nodes r
  | Show t r => NAction [command t] :: nodes r
  | Choose c yes no r => NIf [test_command c] (nodes yes) (nodes no) :: nodes r
  end.

(** The first item of a term or a test is not a keyword. *)
Definition harmless (l : list token) : Prop :=
  match l with TField _ :: _ => True | TName n :: _ => In n names | _ => False end.

Lemma harmless_action : forall F l p r, harmless l -> action_pipeline F l = Some (p, r) ->
  parse_action (S F) (no_spaces l) = Some (INode (NAction p), r).
Proof.
  intros F l p r H E. destruct l as [|x l]; [destruct H|]. destruct x; try destruct H; cbn [no_spaces parse_action]; rewrite E;
    try reflexivity; subst; reflexivity || (repeat (destruct H as [<-|H]; [reflexivity|]); destruct H).
Qed.

Lemma term_harmless : forall t r, good_term t -> harmless (term_tokens false t ++ r).
Proof.
  intros [path|w t|t w|path|path|path w] r G; cbn [good_term] in G; cbn [term_tokens app harmless].
  - destruct G as [N _]. destruct path as [|n p]; [congruence|exact I].
  - left. reflexivity.
  - right. left. reflexivity.
  - do 5 right. left. reflexivity.
  - do 6 right. left. reflexivity.
  - do 6 right. left. reflexivity.
Qed.

(** The ends of a list of nodes *)
Definition ending (k : bytes) (i : item) : Prop := (k = str "end" /\ i = IEnd) \/ (k = str "else" /\ i = IElse).

Lemma show_action : forall F t r, good_term t -> (length (term_tokens false t) + 3 <= F)%nat ->
  parse_action F (no_spaces (term_tokens false t ++ TRight :: r)) = Some (INode (NAction [command t]), r).
Proof.
  intros F t r G Hf. destruct F as [|F]; [lia|]. apply harmless_action; [apply term_harmless, G|]. unfold action_pipeline.
  destruct (term_parse t G) as [_ B]. rewrite B by (first [lia|left; reflexivity]). reflexivity.
Qed.

Lemma if_pipeline : forall F c r, good_test c -> (length (test_tokens c) + 2 < F)%nat ->
  action_pipeline F (TSpace :: test_tokens c ++ TRight :: r) = Some ([test_command c], r).
Proof.
  intros F c r G Hf. unfold action_pipeline. destruct F as [|F]; [lia|]. rewrite pp_space.
  rewrite test_parse by (first [exact G|lia|left; reflexivity]). reflexivity.
Qed.

Lemma ending_parse : forall F k i r, ending k i -> parse_list (S (S F)) (TLeft :: TName k :: TRight :: r) = Some ([], i, r).
Proof. intros F k i r [[-> ->]|[-> ->]]; reflexivity. Qed.

Lemma list_show : forall F t r ns i r', good_term t -> (length (term_tokens false t) + 3 <= F)%nat -> parse_list F r = Some (ns, i, r') ->
  parse_list (S F) (TLeft :: term_tokens false t ++ TRight :: r) = Some (NAction [command t] :: ns, i, r').
Proof. intros F t r ns i r' G Hf E. cbn [parse_list]. rewrite show_action by assumption. rewrite E. reflexivity. Qed.

Lemma choose_action : forall F c yes no r r1 r2, good_test c -> (length (test_tokens c) + 2 < F)%nat ->
  parse_list F r1 = Some (nodes yes, IElse, r2) -> parse_list F r2 = Some (nodes no, IEnd, r) ->
  parse_action (S (S F)) (TName (str "if") :: TSpace :: test_tokens c ++ TRight :: r1) = Some (INode (NIf [test_command c] (nodes yes) (nodes no)), r).
Proof.
  intros F c yes no r r1 r2 G Hf E1 E2.
  change (parse_action (S (S F)) (TName (str "if") :: TSpace :: test_tokens c ++ TRight :: r1))
    with (match parse_if (S F) (TSpace :: test_tokens c ++ TRight :: r1) with Some (i, r3) => Some (INode i, r3) | None => None end).
  cbn [parse_if]. rewrite if_pipeline by assumption. rewrite E1, E2. reflexivity.
Qed.

Lemma list_action : forall F n l r ns i r', parse_action F (no_spaces l) = Some (INode n, r) -> parse_list F r = Some (ns, i, r') ->
  parse_list (S F) (TLeft :: l) = Some (n :: ns, i, r').
Proof. intros F n l r ns i r' E1 E2. cbn [parse_list]. rewrite E1, E2. reflexivity. Qed.

Lemma list_parse : forall T F k i r, good T -> ending k i -> (length (tokens T) + 6 <= F)%nat ->
  parse_list F (tokens T ++ TLeft :: TName k :: TRight :: r) = Some (nodes T, i, r).
Proof.
  induction T as [|s T IH|t T IH|c yes IHy no IHn T IH]; intros F k i r G K Hf; cbn [good] in G; cbn [tokens nodes length app] in *.
  - do 2 (destruct F as [|F]; [lia|]). apply ending_parse, K.
  - destruct G as (_ & _ & G). destruct F as [|F]; [lia|]. cbn [parse_list]. rewrite (IH F k i r G K) by lia. reflexivity.
  - destruct G as (Gt & G). destruct F as [|F]; [lia|]. rewrite app_length in Hf. cbn [length] in Hf. rewrite <- app_assoc. cbn [app].
    apply list_show; [exact Gt|lia|]. apply IH; [exact G|exact K|lia].
  - destruct G as (Gc & Gy & Gn & G). do 3 (destruct F as [|F]; [lia|]).
    rewrite !app_length in Hf. cbn [length] in Hf. rewrite !app_length in Hf. cbn [length] in Hf. rewrite !app_length in Hf. cbn [length] in Hf.
    rewrite <- app_assoc. cbn [app]. rewrite <- app_assoc. cbn [app]. rewrite <- app_assoc. cbn [app].
    assert (Ey : forall z, parse_list F (tokens yes ++ TLeft :: TName (str "else") :: TRight :: z) = Some (nodes yes, IElse, z))
      by (intro z; apply IHy; [exact Gy|right; auto|lia]).
    assert (En : forall z, parse_list F (tokens no ++ TLeft :: TName (str "end") :: TRight :: z) = Some (nodes no, IEnd, z))
      by (intro z; apply IHn; [exact Gn|left; auto|lia]).
    eapply list_action; [cbn [no_spaces]; eapply choose_action; [exact Gc|lia|apply Ey|apply En]|]. apply (IH (S (S F)) k i r G K). lia.
Qed.

(** At the top there is no [end], and nothing is defined. *)
Lemma top_action : forall F set root n l r, parse_action F (no_spaces l) = Some (INode n, r) ->
  match no_spaces l with TName m :: _ => named "define" m = false | _ => True end ->
  parse_top (S F) set root (TLeft :: l) = parse_top F set (n :: root) r.
Proof.
  intros F set root n l r E D. cbn [parse_top]. destruct (no_spaces l) as [|[] l'] eqn:N; rewrite E; try reflexivity. rewrite D. reflexivity.
Qed.

Lemma top_parse : forall T F set root, good T -> (length (tokens T) + 6 <= F)%nat ->
  parse_top F set root (tokens T) = Some (set, rev root ++ nodes T).
Proof.
  induction T as [|s T IH|t T IH|c yes IHy no IHn T IH]; intros F set root G Hf; cbn [good] in G; cbn [tokens nodes length app] in *.
  - destruct F as [|F]; [lia|]. cbn [parse_top]. rewrite app_nil_r. reflexivity.
  - destruct G as (_ & _ & G). destruct F as [|F]; [lia|]. cbn [parse_top]. rewrite IH by (first [exact G|lia]). cbn [rev]. rewrite <- app_assoc. reflexivity.
  - destruct G as (Gt & G). destruct F as [|F]; [lia|]. rewrite app_length in Hf. cbn [length] in Hf.
    erewrite top_action; [|apply show_action; [exact Gt|lia]|].
    + rewrite IH by (first [exact G|lia]). cbn [rev]. rewrite <- app_assoc. reflexivity.
    + pose proof (term_harmless t (TRight :: tokens T) Gt) as H. destruct (term_tokens false t ++ TRight :: tokens T) as [|[] l]; try destruct H; try exact I;
        cbn [no_spaces]; subst; try reflexivity. repeat (destruct H as [<-|H]; [reflexivity|]). destruct H.
  - destruct G as (Gc & Gy & Gn & G). do 3 (destruct F as [|F]; [lia|]).
    rewrite !app_length in Hf. cbn [length] in Hf. rewrite !app_length in Hf. cbn [length] in Hf. rewrite !app_length in Hf. cbn [length] in Hf.
    assert (Ey : forall z, parse_list F (tokens yes ++ TLeft :: TName (str "else") :: TRight :: z) = Some (nodes yes, IElse, z))
      by (intro z; apply list_parse; [exact Gy|right; auto|lia]).
    assert (En : forall z, parse_list F (tokens no ++ TLeft :: TName (str "end") :: TRight :: z) = Some (nodes no, IEnd, z))
      by (intro z; apply list_parse; [exact Gn|left; auto|lia]).
    erewrite top_action; [|cbn [no_spaces]; eapply choose_action; [exact Gc|lia|apply Ey|apply En]|reflexivity].
    rewrite (IH (S (S F)) set) by (first [exact G|lia]). cbn [rev]. rewrite <- app_assoc. reflexivity.
Qed.

Lemma tokens_length : forall T, (T = End \/ 2 <= length (tokens T))%nat \/ (exists s, T = Words s End).
Proof.
  intros [|s T|t T|c yes no T]; [left; left; reflexivity| | |].
  - destruct T; [right; eauto|left; right; cbn [tokens length]; lia..].
  - left. right. cbn [tokens length]. rewrite app_length. cbn [length]. lia.
  - left. right. cbn [tokens length]. lia.
Qed.

Theorem template_parses : forall name T, good T -> parse_template name (source T) = Some [(name, nodes T)].
Proof.
  intros name T G. unfold parse_template. rewrite (template_lexes T G (S (length (source T)))) by lia.
  destruct (tokens_length T) as [[->|L]|[s ->]]; [reflexivity| |reflexivity].
  rewrite (top_parse T) by (first [exact G|lia]). reflexivity.
Qed.
