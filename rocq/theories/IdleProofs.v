(** * IdleProofs: idle lines do not change what is assembled. *)
From Verif Require Import Base Strings Tables Event Track File SpecText SpecAssemble SpecSource Utf8 Regex TextEvent Assemble TextAssemble AssembleProofs SpecIdle.
From Verif Require Import SourceTextProofs ListingProofs.

Lemma white_no_tag : forall l, blank_line l -> ~ In 77 l.
Proof.
  intros l H. induction H as [|cp c r W U H IH]; [intros []|]. intro I. apply in_app_iff in I as [I|I]; [|exact (IH I)].
  destruct U; unfold white_point in W; cbn [In] in I; lia.
Qed.

Lemma idle_is : forall l, idle l -> has_tag l = false /\ is_event_line l = false /\ (contains l (str "MThd") = false /\ contains l (str "MTrk") = false).
Proof.
  intros l H. assert (T : contains l (str "MThd") = false /\ contains l (str "MTrk") = false).
  { destruct H as [B|[_ N]].
    - apply white_no_tag in B. split; match goal with |- ?c = false => destruct c eqn:E; [|reflexivity] end; apply contains_spec in E; destruct E as (p & q & ->); destruct B;
        apply in_app_iff; right; left; reflexivity.
    - split; match goal with |- ?c = false => destruct c eqn:E; [|reflexivity] end; apply contains_spec in E; destruct N; [left|right]; exact E. }
  split; [unfold has_tag; rewrite (proj1 T), (proj2 T); reflexivity|]. split; [|exact T]. unfold is_event_line. destruct H as [B|[C _]].
  - apply blank_line_blank in B. rewrite B. apply andb_false_r.
  - apply comment_is in C. rewrite C. reflexivity.
Qed.

Lemma told_app : forall a a' b b', told a a' -> told b b' -> told (a ++ b) (a' ++ b').
Proof. intros a a' b b' A B. induction A; cbn [app]; [exact B|apply td_idle|apply td_line]; assumption. Qed.

Lemma told_snoc : forall a a' l, told a a' -> ~ idle l -> told (a ++ [l]) (a' ++ [l]).
Proof. intros a a' l A N. apply told_app; [exact A|]. apply td_line; [exact N|constructor]. Qed.

Lemma told_snoc_idle : forall a a' l, told a a' -> idle l -> told (a ++ [l]) a'.
Proof. intros a a' l A N. rewrite <- (app_nil_r a'). apply told_app; [exact A|]. apply td_idle; [exact N|constructor]. Qed.

Lemma collect_told : forall ls s, told ls s -> forall c c', told c c' -> c' <> [] -> Forall2 told (collect c ls) (collect c' s).
Proof.
  intros ls s H. induction H as [|l ls s I H IH|l ls s I H IH]; intros c c' C N; cbn [collect].
  - destruct c' as [|x c']; [congruence|]. destruct c as [|y c]; [inversion C|]. constructor; [exact C|constructor].
  - destruct (idle_is l I) as (-> & _). apply IH; [apply told_snoc_idle; assumption|exact N].
  - destruct (has_tag l).
    + constructor; [exact C|]. apply IH; [apply td_line; [exact I|constructor]|discriminate].
    + apply IH; [apply told_snoc; assumption|]. destruct c'; discriminate.
Qed.

Lemma chunkify_told : forall ls s, told ls s -> Forall2 told (chunkify ls) (chunkify s).
Proof.
  intros ls s H. induction H as [|l ls s I H IH|l ls s I H IH]; cbn [chunkify]; [constructor| |].
  - destruct (idle_is l I) as (_ & _ & -> & _). exact IH.
  - destruct (contains l (str "MThd")); [|exact IH]. apply collect_told; [exact H|apply td_line; [exact I|constructor]|discriminate].
Qed.

Lemma mthd_told : forall c c', told c c' -> parse_mthd c = parse_mthd c'.
Proof.
  intros c c' H. unfold parse_mthd. assert (E : find (fun line => contains line (str "MThd")) c = find (fun line => contains line (str "MThd")) c').
  { induction H as [|l ls s I H IH|l ls s I H IH]; cbn [find]; [reflexivity| |].
    - destruct (idle_is l I) as (_ & _ & -> & _). exact IH.
    - destruct (contains l (str "MThd")); [reflexivity|exact IH]. }
  rewrite E. reflexivity.
Qed.

Lemma after_told : forall c c', told c c' -> match after_mtrk c, after_mtrk c' with Some r, Some r' => told r r' | None, None => True | _, _ => False end.
Proof.
  intros c c' H. induction H as [|l ls s I H IH|l ls s I H IH]; cbn [after_mtrk]; [exact Logic.I| |].
  - destruct (idle_is l I) as (_ & _ & _ & ->). exact IH.
  - destruct (contains l (str "MTrk")); [exact H|exact IH].
Qed.

Definition shift {A} (x : A) (f : nat -> A) : nat -> A := fun i => match i with O => x | Datatypes.S j => f j end.

(** The iteration orders can be moved along with the lines, from one text to the other. *)
Lemma events_told : forall (P : list (bytes * manufacturer) -> Prop) c c', told c c' -> forall tb, (forall i, P (tb i)) ->
  exists tb', (forall i, P (tb' i)) /\ parse_events tb' c' = parse_events tb c.
Proof.
  intros P c c' H. induction H as [|l ls s I H IH|l ls s I H IH]; intros tb T.
  - exists tb. split; [exact T|reflexivity].
  - destruct (IH (fun i => tb (Datatypes.S i))) as (tb' & T' & E); [intro i; apply T|]. exists tb'. split; [exact T'|]. cbn [parse_events].
    destruct (idle_is l I) as (_ & -> & _). exact E.
  - destruct (IH (fun i => tb (Datatypes.S i))) as (tb' & T' & E); [intro i; apply T|]. exists (shift (tb O) tb'). split; [intros [|i]; [apply T|apply T']|].
    cbn [parse_events]. change (fun i => shift (tb O) tb' (Datatypes.S i)) with tb'. rewrite E. reflexivity.
Qed.

Lemma events_untold : forall (P : list (bytes * manufacturer) -> Prop) c c', told c c' -> forall tb, (forall i, P (tb i)) ->
  exists tb', (forall i, P (tb' i)) /\ parse_events tb' c = parse_events tb c'.
Proof.
  intros P c c' H. induction H as [|l ls s I H IH|l ls s I H IH]; intros tb T.
  - exists tb. split; [exact T|reflexivity].
  - destruct (IH tb T) as (tb' & T' & E). exists (shift (tb O) tb'). split; [intros [|i]; [apply T|apply T']|]. cbn [parse_events].
    destruct (idle_is l I) as (_ & -> & _). exact E.
  - destruct (IH (fun i => tb (Datatypes.S i))) as (tb' & T' & E); [intro i; apply T|]. exists (shift (tb O) tb'). split; [intros [|i]; [apply T|apply T']|].
    cbn [parse_events]. change (fun i => shift (tb O) tb' (Datatypes.S i)) with tb'. rewrite E. reflexivity.
Qed.

Lemma chunk_told : forall tb tb' c c', told c c' -> parse_mtrk tb c = parse_mtrk tb' c' -> forall ls s, told ls s -> forall f, assemble_chunk tb c f ls = assemble_chunk tb' c' f s.
Proof.
  intros tb tb' c c' C E ls s H. induction H as [|l ls s I H IH|l ls s I H IH]; intro f; cbn [assemble_chunk]; [reflexivity| |].
  - destruct (idle_is l I) as (_ & _ & E1 & E2). unfold assemble_line. rewrite E1, E2. destruct (has_prefix (str "%%") l); cbn [bind]; apply IH.
  - assert (A : assemble_line tb c f l = assemble_line tb' c' f l) by (unfold assemble_line; rewrite (mthd_told c c' C), E; reflexivity). rewrite A.
    destruct (assemble_line tb' c' f l); cbn [bind]; try reflexivity. apply IH.
Qed.

Lemma mtrk_told : forall (P : list (bytes * manufacturer) -> Prop) c c', told c c' -> forall tb, (forall i, P (tb i)) -> exists tb', (forall i, P (tb' i)) /\ parse_mtrk tb c = parse_mtrk tb' c'.
Proof.
  intros P c c' H tb T. unfold parse_mtrk. pose proof (after_told c c' H) as A. destruct (after_mtrk c) as [r|], (after_mtrk c') as [r'|]; try contradiction.
  - destruct (events_told P r r' A tb T) as (tb' & T' & E). exists tb'. split; [exact T'|]. rewrite E. reflexivity.
  - exists tb. split; [exact T|reflexivity].
Qed.

Lemma mtrk_untold : forall (P : list (bytes * manufacturer) -> Prop) c c', told c c' -> forall tb', (forall i, P (tb' i)) -> exists tb, (forall i, P (tb i)) /\ parse_mtrk tb c = parse_mtrk tb' c'.
Proof.
  intros P c c' H tb T. unfold parse_mtrk. pose proof (after_told c c' H) as A. destruct (after_mtrk c) as [r|], (after_mtrk c') as [r'|]; try contradiction.
  - destruct (events_untold P r r' A tb T) as (tb' & T' & E). exists tb'. split; [exact T'|]. rewrite E. reflexivity.
  - exists tb. split; [exact T|reflexivity].
Qed.

Lemma chunks_told : forall (P : list (bytes * manufacturer) -> Prop) cs cs', Forall2 told cs cs' -> forall tables, (forall j i, P (tables j i)) ->
  exists tables', (forall j i, P (tables' j i)) /\ forall f, assemble_chunks tables f cs = assemble_chunks tables' f cs'.
Proof.
  intros P cs cs' H. induction H as [|c c' cs cs' C H IH]; intros tables T; [exists tables; split; [exact T|reflexivity]|].
  destruct (mtrk_told P c c' C (tables O) (T O)) as (tb & B & E). destruct (IH (fun j => tables (Datatypes.S j))) as (tables' & T' & F); [intro j; apply T|].
  exists (shift tb tables'). split; [intros [|j] i; [apply B|apply T']|]. intro f. cbn [assemble_chunks]. change (shift tb tables' O) with tb.
  rewrite (chunk_told _ _ _ _ C E _ _ C). destruct (assemble_chunk tb c' f c'); cbn [bind]; try reflexivity. apply F.
Qed.

Lemma chunks_untold : forall (P : list (bytes * manufacturer) -> Prop) cs cs', Forall2 told cs cs' -> forall tables', (forall j i, P (tables' j i)) ->
  exists tables, (forall j i, P (tables j i)) /\ forall f, assemble_chunks tables f cs = assemble_chunks tables' f cs'.
Proof.
  intros P cs cs' H. induction H as [|c c' cs cs' C H IH]; intros tables T; [exists tables; split; [exact T|reflexivity]|].
  destruct (mtrk_untold P c c' C (tables O) (T O)) as (tb & B & E). destruct (IH (fun j => tables (Datatypes.S j))) as (tables' & T' & F); [intro j; apply T|].
  exists (shift tb tables'). split; [intros [|j] i; [apply B|apply T']|]. intro f. cbn [assemble_chunks]. change (shift tb tables' O) with tb.
  rewrite (chunk_told _ _ _ _ C E _ _ C). destruct (assemble_chunk (tables O) c' f c'); cbn [bind]; try reflexivity. apply F.
Qed.

Lemma text_chunks : forall text ls, ~ long_line text -> lines_of text ls -> read_chunks text = Ok (chunkify ls).
Proof.
  intros text ls N L. unfold read_chunks. pose proof (scan_lines_fails text [] (fun x => x)) as F. cbn [rev app] in F.
  pose proof (fun ls => scan_lines_spec text [] ls (fun x => x)) as SP. cbn [rev app] in SP. destruct (scan_lines [] text) as [ls' ok]. cbn [snd] in F. destruct ok.
  - rewrite (lines_of_det _ _ _ L (SP ls' eq_refl)). reflexivity.
  - destruct N. apply F. reflexivity.
Qed.

Theorem idle_lines : forall (P : list (bytes * manufacturer) -> Prop) a b, same_source a b -> forall tables, (forall j i, P (tables j i)) ->
  exists tables', (forall j i, P (tables' j i)) /\ assemble_text tables' b = assemble_text tables a.
Proof.
  intros P a b (NA & NB & la & lb & s & LA & LB & TA & TB) tables T.
  destruct (chunks_told P _ _ (chunkify_told _ _ TA) tables T) as (t1 & T1 & E1). destruct (chunks_untold P _ _ (chunkify_told _ _ TB) t1 T1) as (t2 & T2 & E2).
  exists t2. split; [exact T2|]. unfold assemble_text. rewrite (text_chunks a la NA LA), (text_chunks b lb NB LB). cbn [bind]. rewrite E1, E2. reflexivity.
Qed.

(** With one and the same order throughout, the results are equal. *)
Lemma parse_events_same : forall ls f g, (forall i, f i = g i) -> parse_events f ls = parse_events g ls.
Proof.
  induction ls as [|l ls IH]; intros f g H; [reflexivity|]. cbn [parse_events]. rewrite (H O), (IH _ (fun i => g (Datatypes.S i))); [reflexivity|]. intro i. apply H.
Qed.

Lemma assemble_chunk_same : forall f g, (forall i, f i = g i) -> forall c ls s, assemble_chunk f c s ls = assemble_chunk g c s ls.
Proof.
  intros f g H c ls. induction ls as [|l ls IH]; intro s; [reflexivity|]. cbn [assemble_chunk].
  assert (A : assemble_line f c s l = assemble_line g c s l).
  { unfold assemble_line, parse_mtrk. destruct (after_mtrk c) as [r|]; [rewrite (parse_events_same r f g H)|]; reflexivity. }
  rewrite A. destruct (assemble_line g c s l); cbn [bind]; try reflexivity. apply IH.
Qed.

Lemma assemble_chunks_same : forall cs f g, (forall j i, f j i = g j i) -> forall s, assemble_chunks f s cs = assemble_chunks g s cs.
Proof.
  induction cs as [|c cs IH]; intros f g H s; [reflexivity|]. cbn [assemble_chunks]. rewrite (assemble_chunk_same _ _ (H O)).
  destruct (assemble_chunk (g O) c s c); cbn [bind]; try reflexivity. apply IH. intro j. apply H.
Qed.

Theorem idle_lines_alone : forall a b, same_source a b -> forall table, assemble_text (fun _ _ => table) a = assemble_text (fun _ _ => table) b.
Proof.
  intros a b H table. destruct (idle_lines (eq table) a b H (fun _ _ => table) (fun _ _ => eq_refl)) as (t & T & <-). unfold assemble_text.
  destruct (read_chunks b) as [cs| | | |]; cbn [bind]; try reflexivity. rewrite (assemble_chunks_same cs t (fun _ _ => table)); [reflexivity|]. intros j i. symmetry. apply T.
Qed.
