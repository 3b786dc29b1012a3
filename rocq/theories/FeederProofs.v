(** * FeederProofs: the goroutine of parseMTrk with the real parser of event lines. *)
From Verif Require Import Base Strings Tables Event Track File Utf8 Regex TextEvent Assemble TextAssemble Pipeline SpecAssemble PipelineProofs.

Lemma after_snoc : forall a l, after_mtrk (a ++ [l]) =
  match after_mtrk a with Some r => Some (r ++ [l]) | None => if contains l (str "MTrk") then Some [] else None end.
Proof. induction a as [|x a IH]; intro l; cbn [app after_mtrk]; [reflexivity|]. destruct (contains x (str "MTrk")); [reflexivity|apply IH]. Qed.

Lemma parse_events_snoc : forall a tables l es, parse_events tables a = Ok es ->
  parse_events tables (a ++ [l]) = if is_event_line l then do e <- unmarshal_text (tables (length a)) l; Ok (es ++ [e]) else Ok es.
Proof.
  induction a as [|x a IH]; intros tables l es H.
  - apply Ok_inj in H. subst es. cbn [app parse_events length]. destruct (is_event_line l); [|reflexivity]. destruct (unmarshal_text (tables O) l); reflexivity.
  - cbn [app parse_events length] in *. destruct (is_event_line x).
    + destruct (unmarshal_text (tables O) x) as [e| | | |]; try discriminate. cbn [bind] in *.
      destruct (parse_events (fun i => tables (S i)) a) as [es'| | | |] eqn:P; try discriminate. cbn [bind] in H. apply Ok_inj in H. subst es.
      rewrite (IH _ l es' P). destruct (is_event_line l); [|reflexivity]. destruct (unmarshal_text (tables (S (length a))) l); reflexivity.
    + apply IH. exact H.
Qed.

Lemma parse_events_stuck : forall a tables b, (forall es, parse_events tables a <> Ok es) -> forall es, parse_events tables (a ++ b) <> Ok es.
Proof.
  induction a as [|x a IH]; intros tables b H es E; [apply (H []); reflexivity|]. cbn [app parse_events] in *. destruct (is_event_line x).
  - destruct (unmarshal_text (tables O) x) as [e| | | |]; try discriminate. cbn [bind] in *.
    destruct (parse_events (fun i => tables (S i)) (a ++ b)) as [es'| | | |] eqn:P; try discriminate. refine (IH _ b _ es' P).
    intros es'' P'. apply (H (e :: es'')). rewrite P'. reflexivity.
  - exact (IH _ b H es E).
Qed.

Lemma removelast_snoc : forall (a : list bytes) l, removelast (a ++ [l]) = a.
Proof. intros. apply removelast_last. Qed.

(** Lines that are not rejected give events, a rejected line none. *)
Lemma good_events : forall tables chunk, good (rejects tables) chunk ->
  match after_mtrk chunk with None => True | Some lines => exists es, parse_events tables lines = Ok es end.
Proof.
  intros tables chunk. induction chunk as [|l chunk IH] using rev_ind; intro G; [exact I|].
  assert (G' : good (rejects tables) chunk) by (intros a x b E; apply (G a x (b ++ [l])); rewrite E, <- app_assoc; reflexivity).
  specialize (IH G'). pose proof (G chunk l [] eq_refl) as R. unfold rejects in R. rewrite removelast_snoc, last_last in R. rewrite after_snoc.
  destruct (after_mtrk chunk) as [lines|]; [|destruct (contains l (str "MTrk")); [exists []; reflexivity|exact I]].
  destruct IH as [es H]. rewrite (parse_events_snoc _ _ l es H). destruct (is_event_line l); [|exists es; reflexivity]. cbn [andb] in R.
  destruct (unmarshal_text (tables (length lines)) l) as [e| | | |]; try discriminate. exists (es ++ [e]). reflexivity.
Qed.

Lemma after_app : forall a b r, after_mtrk a = Some r -> after_mtrk (a ++ b) = Some (r ++ b).
Proof. induction a as [|x a IH]; intros b r H; cbn [app after_mtrk] in *; [discriminate|]. destruct (contains x (str "MTrk")); [injection H as <-; reflexivity|apply IH, H]. Qed.

Lemma bad_events : forall tables got rest, first_bad (rejects tables) got -> exists lines, after_mtrk (got ++ rest) = Some lines /\ forall es, parse_events tables lines <> Ok es.
Proof.
  intros tables got rest (a & l & -> & B & G). pose proof (good_events tables a G) as P. unfold rejects in B. rewrite removelast_snoc, last_last in B.
  destruct (after_mtrk a) as [lines|] eqn:A; [|discriminate]. destruct P as [es P]. rewrite <- app_assoc. exists (lines ++ [l] ++ rest). split; [apply after_app, A|].
  rewrite app_assoc. apply parse_events_stuck. rewrite (parse_events_snoc _ _ l es P). apply andb_true_iff in B as [-> B].
  intro es'. destruct (unmarshal_text (tables (length lines)) l); discriminate.
Qed.

Theorem track_goroutine : forall tables chunk s, steps (feeder_step (rejects tables)) (feeder_start chunk) s -> halted (feeder_step (rejects tables)) s ->
  (g_returned s = Some false /\ g_received s = chunk /\ g_closed s = true /\
    match after_mtrk chunk with None => True | Some lines => exists es, parse_events tables lines = Ok es end) \/
  (g_returned s = Some true /\ (forall es, parse_mtrk tables chunk <> Ok es) /\
    exists rest, chunk = g_received s ++ rest /\ (g_closed s = true <-> (length rest < 2)%nat)).
Proof.
  intros tables chunk s H K. destruct (feeder_halted _ _ _ H K) as [[G E]|(got & rest & E & F & Es)].
  - left. destruct (feeder_good_all _ _ _ G H K) as (R & C & T). repeat (split; [assumption|]). apply good_events, G.
  - right. subst chunk. destruct (feeder_bad _ _ _ _ F H K) as (R & T & C). split; [exact T|]. split.
    + intros es P. destruct (bad_events tables got rest F) as (lines & A & B). unfold parse_mtrk in P. rewrite A in P.
      destruct (parse_events tables lines) as [x| | | |]; try discriminate. exact (B x eq_refl).
    + exists rest. rewrite R. split; [reflexivity|exact C].
Qed.

(** The sequential model is what the goroutines compute. *)
Theorem track_outcome : forall tables chunk s es, steps (feeder_step (rejects tables)) (feeder_start chunk) s -> halted (feeder_step (rejects tables)) s ->
  parse_mtrk tables chunk = Ok es -> g_returned s = Some false /\ g_received s = chunk /\ g_closed s = true.
Proof.
  intros tables chunk s es H K P. destruct (track_goroutine _ _ _ H K) as [(A & B & C & _)|(_ & N & _)]; [auto|]. exfalso. exact (N es P).
Qed.
