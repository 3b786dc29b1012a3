(** * Proofs for C100: pipelines. *)
From Verif Require Import Base Strings Template SpecPiped.

(** The pipelines in parentheses in a command are well formed. *)
Definition inside (c : list expr) : Prop := forall q, In (EPipe q) c -> piped q.

Lemma executable_function : forall c, executable c = true -> exists f args, c = EFunction f :: args.
Proof. intros [|[] c] H; try discriminate H. eauto. Qed.

Lemma inside_rev : forall c, inside c -> inside (rev c).
Proof. intros c H q I. apply H. apply in_rev. exact I. Qed.

Lemma finished_pipeline : forall cmds cmd p, cmd <> [] -> Forall (fun c => c <> [] /\ inside c) cmds -> inside cmd ->
  (let p := rev (rev cmd :: cmds) in if forallb executable (tl p) then Some p else None) = Some p -> piped p.
Proof.
  intros cmds cmd p N F I H. cbv zeta in H.
  assert (G : Forall (fun c => c <> [] /\ inside c) (rev (rev cmd :: cmds))).
  { apply Forall_rev. constructor; [|exact F]. split; [|apply inside_rev, I]. intros Z0. apply N. rewrite <- (rev_involutive cmd), Z0. reflexivity. }
  assert (L : rev (rev cmd :: cmds) <> []). { intros Z0. apply (f_equal (@length _)) in Z0. rewrite rev_length in Z0. discriminate Z0. }
  revert G L H. generalize (rev (rev cmd :: cmds)). intros z G L H. destruct (forallb executable (tl z)) eqn:E; [|discriminate H]. injection H as ->.
  destruct G as [|c p [C1 C2] G]; [contradiction|].
  apply piped_intro; [exact C1| |].
  - cbn [tl] in E. apply Forall_forall. intros d D. apply executable_function. rewrite forallb_forall in E. apply E, D.
  - intros d q [<-|D] J; [apply C2, J|]. rewrite Forall_forall in G. apply (proj2 (G d D)), J.
Qed.

Lemma pipeline_piped : forall fuel cmds cmd sp ts p r, Forall (fun c => c <> [] /\ inside c) cmds -> inside cmd -> parse_pipeline fuel cmds cmd sp ts = Some (p, r) -> piped p.
Proof.
  induction fuel as [|f IH]; intros cmds cmd sp ts p r F I H; [discriminate|]. cbn [parse_pipeline] in H. cbv zeta in H.
  destruct ts as [|t ts]; [discriminate|].
  assert (O : forall e r', (forall q, e = EPipe q -> piped q) -> (if sp then parse_pipeline f cmds (e :: cmd) false r' else None) = Some (p, r) -> piped p).
  { intros e r' Q E. destruct sp; [|discriminate]. refine (IH _ _ _ _ _ _ F _ E). intros q [J|J]; [apply Q, J|apply I, J]. }
  assert (O' : forall e r', (forall q, e = EPipe q -> piped q) -> match r' with TField _ :: _ => None | _ => if sp then parse_pipeline f cmds (e :: cmd) false r' else None end = Some (p, r) -> piped p).
  { intros e r' Q E. apply (O e r' Q). destruct r' as [|[] r']; try exact E. discriminate. }
  assert (END : forall ts', match cmd with [] => None | _ => let p := rev (rev cmd :: cmds) in if forallb executable (tl p) then Some (p, ts') else None end = Some (p, r) -> piped p).
  { intros ts' E. apply (finished_pipeline cmds cmd p); auto; [intros ->; discriminate E|]. destruct cmd; [discriminate E|]. cbv zeta in *. destruct (forallb executable _); [|discriminate E]. congruence. }
  destruct t.
  - discriminate.
  - discriminate.
  - eapply END. exact H.
  - refine (IH _ _ _ _ _ _ F I H).
  - eapply O'; [|exact H]; intros q0 X0; discriminate X0.
  - destruct (chain (TField name :: ts)) as [path r'] eqn:C. eapply O; [|exact H]; intros q0 X0; discriminate X0.
  - destruct (named "true" name); [eapply O'; [|exact H]; intros q0 X0; discriminate X0|]. destruct (named "false" name); [eapply O'; [|exact H]; intros q0 X0; discriminate X0|].
    destruct (is_function name); [eapply O'; [|exact H]; intros q0 X0; discriminate X0|discriminate].
  - eapply O'; [|exact H]; intros q0 X0; discriminate X0.
  - eapply O'; [|exact H]; intros q0 X0; discriminate X0.
  - destruct cmd as [|e cmd]; [discriminate|]. refine (IH _ _ _ _ _ _ _ _ H); [|intros q []]. constructor; [|exact F]. split; [|apply inside_rev, I].
    intros Z0. apply (f_equal (@length _)) in Z0. rewrite rev_length in Z0. discriminate Z0.
  - destruct (parse_pipeline f [] [] true ts) as [[q [|[] r']]|] eqn:Q; try discriminate.
    eapply O'; [|exact H]. intros q' E. injection E as <-. refine (IH _ _ _ _ _ _ _ _ Q); [constructor|intros q' []].
  - eapply END. exact H.
Qed.

Theorem action_piped : forall fuel ts p r, action_pipeline fuel ts = Some (p, r) -> piped p.
Proof.
  intros fuel ts p r H. unfold action_pipeline in H. destruct (parse_pipeline fuel [] [] true ts) as [[q [|[] r']]|] eqn:Q; try discriminate.
  injection H as <- <-. refine (pipeline_piped _ _ _ _ _ _ _ _ _ Q); [constructor|intros q' []].
Qed.
