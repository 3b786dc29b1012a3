(** * UserListingProofs: the listing with a template file of the user (C100). *)
From Verif Require Import Base Strings Tables Event Track File Utf8 Hex Disassemble Csv Template SpecTemplate TemplateProofs TemplateLoad TemplateLoadProofs
  SpecUserTemplate SpecUserListing UserParseProofs UserTemplateProofs.
From Coq Require Import Permutation.

(** Every text is one template. *)
Definition single (us : list (bytes * bytes)) : Prop :=
  forall name text, In (name, text) us -> ~ In name layout_names /\ exists ns, parse_template name text = Some [(name, ns)].

Lemma single_lookup : forall us ts, NoDup (map fst us) -> single us -> exists ts', load_templates ts us = Some ts' /\ forall n, assocb n ts' = loaded_tree ts us n.
Proof.
  induction us as [|[name text] us IH]; intros ts D N; cbn [load_templates]; [exists ts; split; [reflexivity|intro n; reflexivity]|].
  unfold add_template. destruct (N name text (or_introl eq_refl)) as (_ & ns & P). rewrite P. cbn [fold_left].
  cbn [map fst] in D. inversion D as [|x l Ni D']; subst.
  destruct (IH (associate ts (name, ns)) D' (fun a b I => N a b (or_intror I))) as (ts' & L & A). exists ts'. split; [exact L|]. intro n. rewrite A.
  unfold loaded_tree. cbn [assocb]. rewrite associate_lookup. destruct (bytes_eqb n name) eqn:E.
  - apply bytes_eqb_eq in E. subst n. assert (Q : assocb name us = None) by (apply assocb_none; exact Ni). rewrite Q, P. reflexivity.
  - reflexivity.
Qed.

Lemma single_listing : forall us, NoDup (map fst us) -> single us -> exists ts, load_templates builtin us = Some ts /\
  forall s, print ts (str "document") (smf_data s) = file_written (shown_for us ts) s.
Proof.
  intros us D N. destruct (single_lookup us builtin D N) as (ts & L & A). exists ts. split; [exact L|]. intro s.
  assert (Y : same_layout ts).
  { intros n I. rewrite A. unfold loaded_tree. destruct (assocb n us) as [text|] eqn:Q; [|reflexivity]. apply assocb_in in Q. destruct (N n text Q). contradiction. }
  rewrite print_document by exact Y. apply file_same. intro e. unfold own_text, shown_for. rewrite A. unfold loaded_tree.
  assert (B : exists old, assocb (kind_template (e_body e)) builtin = Some old /\ forall d, exec ts d (inner_data e) old = writes (event_text e)).
  { exists (tree (kind_template (e_body e))). split; [|intro d; apply kind_text_any].
    unfold tree. destruct (e_body e) as [| | | | | | | |k x| | | | | | | | | | | ]; try destruct k; reflexivity. }
  destruct B as (old & O & B). rewrite O. destruct (assocb (kind_template (e_body e)) us) as [text|] eqn:Q; [|apply B].
  destruct (parse_template (kind_template (e_body e)) text) as [[|[n ns] [|]]|]; try reflexivity. destruct (empty_tree ns); [apply B|reflexivity].
Qed.

Lemma entries_in : forall Ts name text, In (name, text) (entries Ts) <-> exists T, In (name, T) Ts /\ text = source T.
Proof.
  intros Ts name text. unfold entries. rewrite in_map_iff. split.
  - intros ([n T] & E & I). cbn [fst snd] in E. injection E as <- <-. exists T. split; [exact I|reflexivity].
  - intros (T & I & ->). exists (name, T). split; [reflexivity|exact I].
Qed.

Lemma entries_names : forall Ts, map fst (entries Ts) = map fst Ts.
Proof. intro Ts. unfold entries. rewrite map_map. reflexivity. Qed.

Lemma names_one : forall (Ts : list (bytes * template)) n T T', NoDup (map fst Ts) -> In (n, T) Ts -> In (n, T') Ts -> T = T'.
Proof.
  induction Ts as [|[m t] r IH]; intros n T T' D I I'; [destruct I|]. cbn [map fst] in D. inversion D as [|x l Ni D']; subst.
  destruct I as [I|I], I' as [I'|I']; [congruence| | |eapply IH; eassumption].
  - injection I as -> ->. exfalso. apply Ni. apply in_map_iff. exists (n, T'). split; [reflexivity|exact I'].
  - injection I' as -> ->. exfalso. apply Ni. apply in_map_iff. exists (n, T). split; [reflexivity|exact I].
Qed.

Theorem user_listing : forall templates Ts order s, read_templates templates = Ok (entries Ts) -> usable Ts -> fits Ts s ->
  Permutation (order (entries Ts)) (entries Ts) ->
  exists text_of, (forall e, event_of s e -> shows Ts e (text_of e)) /\
    listing order templates (str "document") (smf_data s) = Some (file_written (fun e => writes (text_of e)) s).
Proof.
  intros templates Ts order s R U F P. assert (D0 := read_nodup _ _ R).
  assert (D1 := D0). rewrite entries_names in D1.
  assert (D : NoDup (map fst (order (entries Ts)))) by (eapply Permutation_NoDup; [apply Permutation_map, Permutation_sym, P|exact D0]).
  assert (J : forall name text, In (name, text) (order (entries Ts)) -> exists T, In (name, T) Ts /\ text = source T).
  { intros name text I. apply entries_in. eapply Permutation_in; [exact P|exact I]. }
  assert (N : single (order (entries Ts))).
  { intros name text I. destruct (J name text I) as (T & IT & ->). destruct (U name T IT) as (G & L). split; [exact L|].
    exists (nodes T). apply template_parses, G. }
  destruct (single_listing _ D N) as (ts & L & A). exists (fun e => fst (shown_for (order (entries Ts)) ts e)).
  assert (X : forall e, event_of s e -> shows Ts e (fst (shown_for (order (entries Ts)) ts e)) /\
    shown_for (order (entries Ts)) ts e = writes (fst (shown_for (order (entries Ts)) ts e))).
  { intros e Ie. destruct (assocb (kind_template (e_body e)) (order (entries Ts))) as [text|] eqn:Q.
    - destruct (J _ _ (assocb_in _ _ _ Q)) as (T & IT & ->). destruct (U _ T IT) as (G & _). destruct (empty_tree (nodes T)) eqn:B.
      + assert (B' : ~ substantial T) by (intro H; apply substantial_tree in H; congruence).
        rewrite (blank_shown _ ts T e G B' Q). split; [|reflexivity]. right. split; [|reflexivity]. intros T' IT'.
        rewrite (names_one Ts (kind_template (e_body e)) T' T D1 IT' IT). exact B'.
      + apply substantial_tree in B. destruct (template_suits _ ts T e G B Q (F e T Ie IT)) as (a & S0 & _ & E). rewrite E. split; [|reflexivity].
        left. exists T. split; [exact IT|]. split; [exact B|exact S0].
    - unfold shown_for. rewrite Q. split; [|reflexivity]. right. split; [|reflexivity]. apply assocb_none in Q. intros T I. exfalso. apply Q.
      eapply Permutation_in; [apply Permutation_map, Permutation_sym, P|]. rewrite entries_names. change (kind_template (e_body e)) with (fst (kind_template (e_body e), T)). apply in_map, I. }
  split; [intros e Ie; apply X, Ie|]. unfold listing. rewrite new_builtin, R, L, A. f_equal. unfold file_written. f_equal.
  apply sequence_map. intros t It. unfold track_written. f_equal. apply sequence_map. intros e Ie. unfold event_written.
  rewrite <- (proj2 (X e (ex_intro _ t (conj It Ie)))). reflexivity.
Qed.

(** What an event is shown as is one text. *)
Theorem shows_one : forall templates Ts e a b, read_templates templates = Ok (entries Ts) -> usable Ts -> shows Ts e a -> shows Ts e b -> a = b.
Proof.
  intros templates Ts e a b R U H K. assert (D := read_nodup _ _ R). rewrite entries_names in D.
  destruct H as [(T & I & B & A)|[N ->]], K as [(T' & I' & B' & A')|[N' ->]]; try reflexivity; [|exfalso; eapply N'; eassumption|exfalso; eapply N; eassumption].
  rewrite (names_one Ts _ T' T D I' I) in A'. destruct (U _ T I) as (G & _). exact (template_one e T a b G A A').
Qed.
