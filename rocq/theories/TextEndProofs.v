(** * TextEndProofs: how the assembly of a text ends. *)
From Verif Require Import Base Strings Tables Event Marshal Track File SpecAssemble SpecSurvive SpecRead SpecLine SpecSource SpecJsonEnd SpecTextEnd Manufacturer Hex Regex TextEvent Assemble TextAssemble
  AssembleProofs RegexProofs TextProofs TextReadProofs TextFileProofs TextCrashProofs JsonReadProofs FileProofs SourceProofs SourceTextProofs LineProofs JsonEndProofs TextLineProofs.
From Coq Require Import Permutation.

(** ** The order of the manufacturers *)

Lemma find_some_iff : forall t m, (exists x, find_manufacturer t m = Ok x) <-> exists p, In p t /\ m_name (snd p) = m.
Proof.
  intros t m. induction t as [|[k x] t IH]; cbn [find_manufacturer].
  - split; [intros [y Y]; discriminate|intros (p & [] & _)].
  - destruct (bytes_eqb m (m_name x)) eqn:E.
    + apply bytes_eqb_eq in E. split; [intros _; exists (k, x); cbn [In snd]; auto|eauto].
    + rewrite IH. split; intros (p & I & P); exists p; cbn [In] in *; [auto|]. destruct I as [<-|I]; [|auto]. cbn [snd] in P. rewrite P, (proj2 (bytes_eqb_eq m m) eq_refl) in E. discriminate.
Qed.

Lemma find_permuted : forall t t' m, Permutation t t' -> (exists x, find_manufacturer t m = Ok x) -> exists x, find_manufacturer t' m = Ok x.
Proof. intros t t' m P H. apply find_some_iff in H as (p & I & N). apply find_some_iff. exists p. split; [apply (Permutation_in _ P I)|exact N]. Qed.

Lemma text_permuted : forall t t' s, Permutation t t' -> (exists e, unmarshal_text t s = Ok e) -> exists e, unmarshal_text t' s = Ok e.
Proof.
  intros t t' s P. unfold unmarshal_text, text_cases. cbn [first_case].
  repeat lazymatch goal with |- (exists e, (if ?c then _ else _) = Ok e) -> _ => destruct c; [try exact (fun H => H)|] end; [| |exact (fun H => H)].
  - unfold text_sequencer_specific. destruct (rfind _ s) as [[|d [|m [|x [|? ?]]]]|]; try exact (fun H => H). intros [e H].
    apply bind_ok in H as (dl & D & H). apply bind_ok in H as (y & Y & H). apply bind_ok in H as (h & X & _). destruct (find_permuted t t' m P (ex_intro _ y Y)) as [y' Y'].
    rewrite D. cbn [bind]. rewrite Y'. cbn [bind]. rewrite X. cbn [bind]. eauto.
  - unfold text_sysex. destruct (rfind _ s) as [[|d [|m [|x [|? ?]]]]|]; try exact (fun H => H). intros [e H].
    apply bind_ok in H as (dl & D & H). apply bind_ok in H as (y & Y & H). apply bind_ok in H as (h & X & _). destruct (find_permuted t t' m P (ex_intro _ y Y)) as [y' Y'].
    rewrite D. cbn [bind]. rewrite Y'. cbn [bind]. rewrite X. cbn [bind]. eauto.
Qed.

Lemma line_ok : forall table t s, Permutation t table -> (exists e, unmarshal_text t s = Ok e) <-> exists e, exactly table s e.
Proof.
  intros table t s P. split.
  - intros H. apply (text_permuted _ _ _ P) in H as [e H]. exists e. apply exact_sound, H.
  - intros [e H]. apply (text_permuted table t s (Permutation_sym P)). exists e. apply exact_complete, H.
Qed.

(** ** Lines *)

Lemma event_line_is : forall l, is_bytes l -> is_event_line l = true <-> event_line l.
Proof.
  intros l B. unfold is_event_line, event_line. rewrite <- (blank_is l B), <- (comment_is l). destruct (has_prefix _ l), (TextAssemble.blank l); cbn [negb andb]; intuition congruence.
Qed.

Lemma stops_cons : forall table bad l r, stops_at table bad (l :: r) <-> (event_line l /\ bad l) \/ ((event_line l -> exists e, exactly table l e) /\ stops_at table bad r).
Proof.
  intros table bad l r. split.
  - intros ([|x a] & y & b & E & G & V & K); cbn [app] in E.
    + injection E as <- _. left. auto.
    + injection E as <- ->. right. apply Forall_cons_iff in G as [G1 G]. split; [exact G1|]. exists a, y, b. auto.
  - intros [[V K]|[G1 (a & y & b & -> & G & V & K)]].
    + exists [], l, r. split; [reflexivity|]. split; [constructor|auto].
    + exists (l :: a), y, b. split; [reflexivity|]. split; [constructor; assumption|auto].
Qed.

Lemma not_stops : forall table bad, ~ stops_at table bad [].
Proof. intros table bad ([|x a] & y & b & E & _); discriminate. Qed.

(** How something ends, by what is right and wrong *)
Definition ends_so {A} (o : outcome A) (well crash hang : Prop) : Prop :=
  ((exists x, o = Ok x) <-> well) /\ (o = Panic <-> crash) /\ (o = Loop <-> hang) /\ o <> Eof.

Lemma ends_line : forall table t s, Permutation t table -> ends_so (unmarshal_text t s) (exists e, exactly table s e) (line_crashes s) (line_hangs s).
Proof.
  intros table t s P. split; [apply line_ok, P|]. split; [split; [apply panic_sound|apply panic_complete]|]. split; [split; [apply loop_sound|apply loop_complete]|apply line_end].
Qed.

Lemma ends_lines : forall table r tables, Forall is_bytes r -> (forall i, Permutation (tables i) table) ->
  ends_so (parse_events tables r) (good_lines table r) (stops_at table line_crashes r) (stops_at table line_hangs r).
Proof.
  intros table r. induction r as [|l r IH]; intros tables B P; cbn [parse_events].
  - split; [split; [constructor|eauto]|]. split; [split; [discriminate|intros H; destruct (not_stops _ _ H)]|]. split; [split; [discriminate|intros H; destruct (not_stops _ _ H)]|discriminate].
  - apply Forall_cons_iff in B as [B1 B]. specialize (IH (fun i => tables (S i)) B (fun i => P (S i))). pose proof (event_line_is l B1) as V.
    unfold ends_so, good_lines in *. rewrite !stops_cons, Forall_cons_iff. destruct (is_event_line l).
    + pose proof (proj1 V eq_refl) as V'. pose proof (ends_line table (tables O) l (P O)) as (E1 & E2 & E3 & E4).
      destruct (unmarshal_text (tables O) l) as [e| | | |]; cbn [bind].
      * pose proof (proj1 E1 (ex_intro _ e eq_refl)) as X.
        assert (NC : ~ line_crashes l) by (intros K; apply E2 in K; discriminate). assert (NH : ~ line_hangs l) by (intros K; apply E3 in K; discriminate).
        destruct IH as (I1 & I2 & I3 & I4). destruct (parse_events _ r) as [es| | | |]; cbn [bind].
        -- split; [split; [intros _; split; [auto|apply I1; eauto]|eauto]|].
           split; [split; [discriminate|intros [[_ K]|[_ K]]; [contradiction|apply I2 in K; discriminate]]|].
           split; [split; [discriminate|intros [[_ K]|[_ K]]; [contradiction|apply I3 in K; discriminate]]|discriminate].
        -- split; [split; [intros [? ?]; discriminate|intros [_ K]; apply I1 in K as [? K]; discriminate]|].
           split; [split; [discriminate|intros [[_ K]|[_ K]]; [contradiction|apply I2 in K; discriminate]]|].
           split; [split; [discriminate|intros [[_ K]|[_ K]]; [contradiction|apply I3 in K; discriminate]]|discriminate].
        -- contradiction.
        -- split; [split; [intros [? ?]; discriminate|intros [_ K]; apply I1 in K as [? K]; discriminate]|].
           split; [split; [intros _; right; split; [auto|apply I2; reflexivity]|reflexivity]|].
           split; [split; [discriminate|intros [[_ K]|[_ K]]; [contradiction|apply I3 in K; discriminate]]|discriminate].
        -- split; [split; [intros [? ?]; discriminate|intros [_ K]; apply I1 in K as [? K]; discriminate]|].
           split; [split; [discriminate|intros [[_ K]|[_ K]]; [contradiction|apply I2 in K; discriminate]]|].
           split; [split; [intros _; right; split; [auto|apply I3; reflexivity]|reflexivity]|discriminate].
      * assert (NX : ~ exists e, exactly table l e) by (intros K; apply E1 in K as [? K]; discriminate).
        split; [split; [intros [? ?]; discriminate|intros [K _]; destruct (NX (K V'))]|].
        split; [split; [discriminate|intros [[_ K]|[K _]]; [apply E2 in K; discriminate|destruct (NX (K V'))]]|].
        split; [split; [discriminate|intros [[_ K]|[K _]]; [apply E3 in K; discriminate|destruct (NX (K V'))]]|discriminate].
      * contradiction.
      * assert (NX : ~ exists e, exactly table l e) by (intros K; apply E1 in K as [? K]; discriminate).
        split; [split; [intros [? ?]; discriminate|intros [K _]; destruct (NX (K V'))]|].
        split; [split; [intros _; left; split; [exact V'|apply E2; reflexivity]|reflexivity]|].
        split; [split; [discriminate|intros [[_ K]|[K _]]; [apply E3 in K; discriminate|destruct (NX (K V'))]]|discriminate].
      * assert (NX : ~ exists e, exactly table l e) by (intros K; apply E1 in K as [? K]; discriminate).
        split; [split; [intros [? ?]; discriminate|intros [K _]; destruct (NX (K V'))]|].
        split; [split; [discriminate|intros [[_ K]|[K _]]; [apply E2 in K; discriminate|destruct (NX (K V'))]]|].
        split; [split; [intros _; left; split; [exact V'|apply E3; reflexivity]|reflexivity]|discriminate].
    + assert (NV : ~ event_line l) by (intros K; apply V in K; discriminate). destruct IH as (I1 & I2 & I3 & I4).
      assert (G : event_line l -> exists e, exactly table l e) by (intros K; contradiction). tauto.
Qed.

Lemma some_events : forall r tables es, Forall is_bytes r -> parse_events tables r = Ok es -> (es = [] -> ~ Exists event_line r) /\ (es <> [] -> Exists event_line r).
Proof.
  intros r. induction r as [|l r IH]; intros tables es B H; cbn [parse_events] in H.
  - apply Ok_inj in H. subst. split; [intros _ K; inversion K|congruence].
  - apply Forall_cons_iff in B as [B1 B]. pose proof (event_line_is l B1) as V. destruct (is_event_line l).
    + apply bind_ok in H as (e & _ & H). apply bind_ok in H as (r' & _ & H). apply Ok_inj in H. subst es. split; [discriminate|]. intros _. left. apply V. reflexivity.
    + destruct (IH _ _ B H) as [I1 I2]. split; [intros E K; apply (I1 E)|intros E; right; apply (I2 E)].
      inversion K; [exfalso; assert (X : false = true) by (apply V; assumption); discriminate|assumption].
Qed.

(** ** Chunks *)

Definition has_header (s : smf) : Prop := f_mthd s <> None.

Lemma ends_chunk : forall table tables l r s, tag_line l -> Forall (fun l => ~ tag_line l) r -> Forall is_bytes r -> ~ comment_line l -> (forall i, Permutation (tables i) table) ->
  ends_so (assemble_chunk tables (l :: r) s (l :: r)) (good_header (l :: r) \/ good_track table (l :: r) /\ has_header s)
    (exists q, a_track (l :: r) q /\ ((good_lines table q /\ (~ has_header s \/ ~ Exists event_line q)) \/ stops_at table line_crashes q))
    (exists q, a_track (l :: r) q /\ stops_at table line_hangs q).
Proof.
  intros table tables l r s T N B NC P. rewrite one_line by assumption. destruct (has_prefix (str "%%") l) eqn:C; [exfalso; apply NC, comment_is, C|].
  pose proof (header_spec l) as H. destruct (contains l (str "MThd")).
  - pose proof (proj1 H eq_refl) as HL. clear H. pose proof (header_is_read l) as R. pose proof (only_mthd_line l) as O.
    assert (NT : forall q, ~ a_track (l :: r) q) by (intros q (l' & E & NL & _); injection E as <- _; contradiction).
    unfold ends_so. destruct (parse_mthd_line l) as [h| | | |]; cbn [bind only] in *; try contradiction.
    + split; [split; [intros _; left|eauto]|]. { destruct (proj1 (R h) eq_refl) as (f & d & HS & _). exists f, d, l, r. auto. }
      split; [split; [discriminate|intros (q & K & _); destruct (NT q K)]|]. split; [split; [discriminate|intros (q & K & _); destruct (NT q K)]|discriminate].
    + split; [split; [intros [? ?]; discriminate|intros [(f & d & l' & r' & E & _ & HS)|[(q & K & _) _]]; [|destruct (NT q K)]]|].
      { injection E as <- <-. assert (Q : Err = Ok (mthd_of 0 f d)) by (apply R; eauto). discriminate. }
      split; [split; [discriminate|intros (q & K & _); destruct (NT q K)]|]. split; [split; [discriminate|intros (q & K & _); destruct (NT q K)]|discriminate].
  - assert (NH : ~ header_line l) by (intros K; apply H in K; discriminate). clear H. destruct T as [T|T]; [contradiction|].
    assert (AT : forall q, a_track (l :: r) q <-> q = r).
    { intros q. split; [intros (l' & E & _); injection E as _ ->; reflexivity|]. intros ->. exists l. auto. }
    assert (NG : ~ good_header (l :: r)) by (intros (f & d & l' & r' & E & HL & _); injection E as <- _; contradiction).
    pose proof (ends_lines table r tables B P) as (I1 & I2 & I3 & I4). pose proof (fun es => some_events r tables es B) as SE.
    assert (G1 : good_track table (l :: r) <-> good_lines table r /\ Exists event_line r).
    { unfold good_track. split; [intros (q & A & G); apply AT in A; subst q; exact G|]. intros G. exists r. rewrite AT. auto. }
    assert (G2 : forall K : list bytes -> Prop, (exists q, a_track (l :: r) q /\ K q) <-> K r).
    { intros K. split; [intros (q & A & G); apply AT in A; subst q; exact G|]. intros G. exists r. rewrite AT. auto. }
    unfold ends_so. rewrite (G2 (fun q => _ \/ _)), (G2 (fun q => stops_at table line_hangs q)), G1. clear G1 G2 AT.
    destruct (parse_events tables r) as [es| | | |]; cbn [bind].
    + specialize (SE es eq_refl). assert (G : good_lines table r) by (apply I1; eauto).
      assert (N1 : ~ stops_at table line_crashes r) by (intros K; apply I2 in K; discriminate). assert (N2 : ~ stops_at table line_hangs r) by (intros K; apply I3 in K; discriminate).
      destruct es as [|e es]; cbn [fixups bind].
      * assert (NE : ~ Exists event_line r) by (apply SE; reflexivity). split; [split; [intros [? ?]; discriminate|tauto]|]. split; [split; [tauto|reflexivity]|]. split; [split; [discriminate|tauto]|discriminate].
      * assert (NE : Exists event_line r) by (apply SE; discriminate).
        unfold has_header. destruct (f_mthd s) as [m|].
        -- split; [split; [intros _; right; split; [split; assumption|discriminate]|eauto]|].
           split; [split; [discriminate|intros [[_ [K|K]]|K]; [destruct K; discriminate|contradiction|contradiction]]|]. split; [split; [discriminate|tauto]|discriminate].
        -- split; [split; [intros [? ?]; discriminate|intros [K|[_ K]]; [contradiction|congruence]]|]. split; [split; [intros _; left; split; [exact G|left; congruence]|reflexivity]|].
           split; [split; [discriminate|tauto]|discriminate].
    + assert (NG2 : ~ good_lines table r) by (intros K; apply I1 in K as [? K]; discriminate). split; [split; [intros [? ?]; discriminate|tauto]|].
      split; [split; [discriminate|intros [[K _]|K]; [contradiction|apply I2 in K; discriminate]]|]. split; [split; [discriminate|intros K; apply I3 in K; discriminate]|discriminate].
    + contradiction.
    + assert (NG2 : ~ good_lines table r) by (intros K; apply I1 in K as [? K]; discriminate). split; [split; [intros [? ?]; discriminate|tauto]|].
      split; [split; [intros _; right; apply I2; reflexivity|reflexivity]|]. split; [split; [discriminate|intros K; apply I3 in K; discriminate]|discriminate].
    + assert (NG2 : ~ good_lines table r) by (intros K; apply I1 in K as [? K]; discriminate). split; [split; [intros [? ?]; discriminate|tauto]|].
      split; [split; [discriminate|intros [[K _]|K]; [contradiction|apply I2 in K; discriminate]]|]. split; [split; [intros _; apply I3; reflexivity|reflexivity]|discriminate].
Qed.

Lemma ends_bind : forall A B (o : outcome A) (f : A -> outcome B) w c h w' c' h', ends_so o w c h -> (forall x, o = Ok x -> ends_so (f x) w' c' h') ->
  ends_so (bind o f) (w /\ w') (c \/ w /\ c') (h \/ w /\ h').
Proof.
  intros A B o f w c h w' c' h' (O1 & O2 & O3 & O4) F. unfold ends_so in *. destruct o as [x| | | |]; cbn [bind].
  - destruct (F x eq_refl) as (F1 & F2 & F3 & F4). assert (W : w) by (apply O1; eauto). assert (NC : ~ c) by (intros K; apply O2 in K; discriminate).
    assert (NH : ~ h) by (intros K; apply O3 in K; discriminate). tauto.
  - assert (W : ~ w) by (intros K; apply O1 in K as [? K]; discriminate). assert (NC : ~ c) by (intros K; apply O2 in K; discriminate).
    assert (NH : ~ h) by (intros K; apply O3 in K; discriminate). 
    split; [split; [intros [? ?]; discriminate|tauto]|]. split; [split; [discriminate|tauto]|]. split; [split; [discriminate|tauto]|discriminate].
  - congruence.
  - assert (W : ~ w) by (intros K; apply O1 in K as [? K]; discriminate). assert (C : c) by (apply O2; reflexivity).
    assert (NH : ~ h) by (intros K; apply O3 in K; discriminate). 
    split; [split; [intros [? ?]; discriminate|tauto]|]. split; [split; [tauto|reflexivity]|]. split; [split; [discriminate|tauto]|discriminate].
  - assert (W : ~ w) by (intros K; apply O1 in K as [? K]; discriminate). assert (NC : ~ c) by (intros K; apply O2 in K; discriminate).
    assert (H : h) by (apply O3; reflexivity). 
    split; [split; [intros [? ?]; discriminate|tauto]|]. split; [split; [discriminate|tauto]|]. split; [split; [tauto|reflexivity]|discriminate].
Qed.

Lemma ends_iff : forall A (o : outcome A) w c h w' c' h', ends_so o w c h -> (w <-> w') -> (c <-> c') -> (h <-> h') -> ends_so o w' c' h'.
Proof. unfold ends_so. intros. tauto. Qed.

(** Chunks in order, [m]: after a header *)
Definition starts_well (table : list (bytes * manufacturer)) (m : Prop) (cs : list (list bytes)) : Prop :=
  Forall (fun c => good_header c \/ good_track table c) cs /\ (m \/ forall c r, cs = c :: r -> good_header c).
Definition first_wrong (table : list (bytes * manufacturer)) (m : Prop) (wrong : Prop -> list bytes -> Prop) (cs : list (list bytes)) : Prop :=
  exists before c after, cs = before ++ c :: after /\ starts_well table m before /\ wrong (m \/ before <> []) c.

Lemma starts_cons : forall table m c cs, starts_well table m (c :: cs) <-> (good_header c \/ good_track table c /\ m) /\ starts_well table True cs.
Proof.
  intros table m c cs. unfold starts_well. rewrite Forall_cons_iff. split.
  - intros [[G F] [M|H]]; [tauto|]. specialize (H c cs eq_refl). tauto.
  - intros [G [F _]]. split; [tauto|]. destruct G as [G|[G M]]; [right|left; exact M]. intros c' r E. injection E as <- _. exact G.
Qed.

Lemma wrong_cons : forall table m (wrong : Prop -> list bytes -> Prop) c cs, (forall p q c, (p <-> q) -> wrong p c -> wrong q c) ->
  first_wrong table m wrong (c :: cs) <-> wrong m c \/ (good_header c \/ good_track table c /\ m) /\ first_wrong table True wrong cs.
Proof.
  intros table m wrong c cs P. split.
  - intros ([|b before] & c' & after & E & S & W); cbn [app] in E.
    + injection E as <- _. left. apply (P (m \/ [] <> @nil (list bytes))); [|exact W]. split; [intros [K|K]; [exact K|congruence]|auto].
    + injection E as <- ->. right. apply starts_cons in S as [G S]. split; [exact G|]. exists before, c', after. split; [reflexivity|]. split; [exact S|].
      apply (P _ (True \/ before <> [])) in W; [exact W|]. split; [auto|intros _; right; discriminate].
  - intros [W|[G (before & c' & after & -> & S & W)]].
    + exists [], c, cs. split; [reflexivity|]. split; [split; [constructor|right; discriminate]|]. apply (P m); [|exact W]. split; [auto|intros [K|K]; [exact K|congruence]].
    + exists (c :: before), c', after. split; [reflexivity|]. split; [apply starts_cons; auto|]. apply (P (True \/ before <> [])); [|exact W]. split; [intros _; right; discriminate|auto].
Qed.

Definition crash_chunk (table : list (bytes * manufacturer)) (m : Prop) (c : list bytes) : Prop :=
  exists q, a_track c q /\ ((good_lines table q /\ (~ m \/ ~ Exists event_line q)) \/ stops_at table line_crashes q).
Definition hang_chunk (table : list (bytes * manufacturer)) (m : Prop) (c : list bytes) : Prop := exists q, a_track c q /\ stops_at table line_hangs q.

Lemma crash_proper : forall table p q c, (p <-> q) -> crash_chunk table p c -> crash_chunk table q c.
Proof. intros table p q c E (r & A & K). exists r. split; [exact A|]. tauto. Qed.
Lemma hang_proper : forall table p q c, (p <-> q) -> hang_chunk table p c -> hang_chunk table q c.
Proof. intros table p q c E K. exact K. Qed.

Lemma chunk_next : forall tables l r s s', tag_line l -> Forall (fun l => ~ tag_line l) r -> fine s -> assemble_chunk tables (l :: r) s (l :: r) = Ok s' -> fine s' /\ (comment_line l -> s' = s) /\ (~ comment_line l -> has_header s').
Proof.
  intros tables l r s s' T N F H. pose proof (only_chunk tables (l :: r) s (ex_intro _ l (ex_intro _ r (conj eq_refl (conj T N)))) F) as O. rewrite H in O. cbn [only] in O. destruct O as [F' _].
  split; [exact F'|]. rewrite one_line in H by assumption. pose proof (comment_is l) as C. destruct (has_prefix (str "%%") l).
  - apply Ok_inj in H. split; [auto|]. intros K. destruct K. apply C. reflexivity.
  - split; [intros K; apply C in K; discriminate|]. intros _. destruct (contains l (str "MThd")).
    + apply bind_ok in H as (h & _ & H). apply Ok_inj in H. subst s'. discriminate.
    + apply bind_ok in H as (e0 & _ & H). apply bind_ok in H as (e1 & _ & H). destruct (f_mthd s); [|discriminate]. apply Ok_inj in H. subst s'. discriminate.
Qed.

Lemma ends_chunks : forall table cs us, uncommented cs us -> Forall one_chunk cs -> Forall (Forall is_bytes) cs -> forall tables s (m : Prop), (forall j i, Permutation (tables j i) table) -> fine s -> (has_header s <-> m) ->
  ends_so (assemble_chunks tables s cs) (starts_well table m us) (first_wrong table m (crash_chunk table) us) (first_wrong table m (hang_chunk table) us).
Proof.
  intros table cs us U. induction U as [|l r cs us C U IH|l r cs us C U IH]; intros O B tables s m P F M; cbn [assemble_chunks].
  - assert (NW : forall w, ~ first_wrong table m w []) by (intros w ([|? ?] & ? & ? & E & _); discriminate).
    split; [split; [intros _; split; [constructor|right; discriminate]|eauto]|]. split; [split; [discriminate|intros K; destruct (NW _ K)]|].
    split; [split; [discriminate|intros K; destruct (NW _ K)]|discriminate].
  - apply Forall_cons_iff in O as [(l' & r' & E & T & N) O]. injection E as <- <-. apply Forall_cons_iff in B as [_ B]. rewrite one_line by assumption.
    rewrite (proj2 (comment_is l) C). cbn [bind]. apply (IH O B (fun j => tables (Datatypes.S j))); [intros j i; apply P|exact F|exact M].
  - apply Forall_cons_iff in O as [(l' & r' & E & T & N) O]. injection E as <- <-. apply Forall_cons_iff in B as [B1 B]. apply Forall_cons_iff in B1 as [_ B1].
    pose proof (ends_chunk table (tables Datatypes.O) l r s T N B1 C (P Datatypes.O)) as EC.
    eapply ends_iff; [apply ends_bind with (w' := starts_well table True us) (c' := first_wrong table True (crash_chunk table) us) (h' := first_wrong table True (hang_chunk table) us); [exact EC|]|..].
    + intros s' E. destruct (chunk_next _ _ _ _ _ T N F E) as (F' & _ & H'). apply (IH O B (fun j => tables (Datatypes.S j))); [intros j i; apply P|exact F'|]. specialize (H' C). tauto.
    + rewrite starts_cons. rewrite M. reflexivity.
    + rewrite (wrong_cons table m (crash_chunk table) _ _ (crash_proper table)). fold (crash_chunk table (has_header s) (l :: r)).
      assert (E : crash_chunk table (has_header s) (l :: r) <-> crash_chunk table m (l :: r)) by (split; apply crash_proper; tauto). tauto.
    + rewrite (wrong_cons table m (hang_chunk table) _ _ (hang_proper table)). fold (hang_chunk table m (l :: r)). tauto.
Qed.

(** ** Texts *)

Lemma read_halts : forall text, read_chunks text <> Panic /\ read_chunks text <> Loop /\ read_chunks text <> Eof.
Proof. intros text. unfold read_chunks. destruct (scan_lines [] text) as [ls []]; repeat split; discriminate. Qed.

Lemma uncommented_all : forall cs, Forall one_chunk cs -> exists us, uncommented cs us.
Proof.
  intros cs H. induction H as [|c cs (l & r & -> & _ & _) _ [us U]]; [exists []; constructor|]. pose proof (comment_is l) as C. destruct (has_prefix (str "%%") l).
  - exists us. apply uc_comment; [apply C; reflexivity|exact U].
  - exists ((l :: r) :: us). apply uc_chunk; [intros K; apply C in K; discriminate|exact U].
Qed.

Lemma uncommented_same : forall cs us, uncommented cs us -> forall us', uncommented cs us' -> us = us'.
Proof. intros cs us U. induction U as [|l r cs us C U IH|l r cs us C U IH]; intros us' U'; inversion U'; subst; try contradiction; auto. f_equal. auto. Qed.

Lemma chunks_same : forall text us us', text_chunks text us -> text_chunks text us' -> us = us'.
Proof.
  intros text us us' (lines & before & cs & LL & L & D & BF & HD & U) (lines' & before' & cs' & LL' & L' & D' & BF' & HD' & U').
  assert (E : read_chunks text = Ok cs) by (apply read_chunks_ok; split; [exact LL|]; exists lines, before; rewrite first_chunk; auto).
  assert (E' : read_chunks text = Ok cs') by (apply read_chunks_ok; split; [exact LL'|]; exists lines', before'; rewrite first_chunk; auto).
  rewrite E in E'. apply Ok_inj in E'. subst cs'. exact (uncommented_same _ _ U _ U').
Qed.

Lemma tracks_count : forall table cs us, uncommented cs us -> Forall one_chunk cs -> Forall (Forall is_bytes) cs -> Forall (good_track table) us ->
  forall tables s h, (forall j i, Permutation (tables j i) table) -> fine s -> f_mthd s = Some h -> h_tracks h = zlen (f_tracks s) -> zlen (f_tracks s) + zlen us < 65536 ->
  exists s' h', assemble_chunks tables s cs = Ok s' /\ fine s' /\ f_mthd s' = Some h' /\ h_tracks h' = zlen (f_tracks s').
Proof.
  intros table cs us U. induction U as [|l r cs us C U IH|l r cs us C U IH]; intros O B G tables s h P F M K L; cbn [assemble_chunks].
  - exists s, h. auto.
  - apply Forall_cons_iff in O as [(l' & r' & E & T & N) O]. injection E as <- <-. apply Forall_cons_iff in B as [_ B]. rewrite one_line by assumption.
    rewrite (proj2 (comment_is l) C). cbn [bind]. apply (IH O B G (fun j => tables (Datatypes.S j)) s h); auto.
  - apply Forall_cons_iff in O as [(l' & r' & E & T & N) O]. injection E as <- <-. apply Forall_cons_iff in B as [B1 B]. apply Forall_cons_iff in B1 as [_ B1].
    apply Forall_cons_iff in G as [G1 G]. pose proof (ends_chunk table (tables Datatypes.O) l r s T N B1 C (P Datatypes.O)) as (EC & _).
    destruct (proj2 EC) as [s' E]; [right; split; [exact G1|unfold has_header; congruence]|]. destruct (chunk_next _ _ _ _ _ T N F E) as (F' & _ & _).
    pose proof E as E0. rewrite one_line in E by assumption. destruct (has_prefix (str "%%") l) eqn:Q; [exfalso; apply C, comment_is, Q|].
    destruct (contains l (str "MThd")) eqn:Q2; [exfalso; destruct G1 as (q & (l' & A1 & A2 & _) & _); injection A1 as <- _; apply A2, header_spec, Q2|].
    apply bind_ok in E as (e0 & _ & E). apply bind_ok in E as (e1 & _ & E). rewrite M in E. apply Ok_inj in E.
    assert (Z : zlen ((l :: r) :: us) = zlen us + 1) by (unfold zlen; cbn [length]; lia). pose proof (zlen_nonneg _ us) as Z1. pose proof (zlen_nonneg _ (f_tracks s)) as Z2.
    assert (LT : zlen (f_tracks s') = zlen (f_tracks s) + 1) by (subst s'; cbn [f_tracks]; unfold zlen; rewrite app_length; cbn [length]; lia).
    rewrite E0. cbn [bind].
    refine (IH O B G (fun j => tables (Datatypes.S j)) s' _ (fun j i => P (Datatypes.S j) i) F' (f_equal f_mthd (eq_sym E)) _ _); [|lia].
    rewrite LT. cbn [h_tracks]. rewrite K, Z.mod_small by lia. reflexivity.
Qed.

Lemma header_only : forall c, good_header c -> exists l r f d, c = l :: r /\ header_line l /\ header_says l f d.
Proof. intros c (f & d & l & r & H). exists l, r, f, d. exact H. Qed.

Lemma headers_count : forall table cs us, uncommented cs us -> Forall one_chunk cs -> Forall (Forall is_bytes) cs -> forall hs ts, us = hs ++ ts -> Forall good_header hs -> Forall (good_track table) ts -> zlen ts < 65536 ->
  forall tables s, (forall j i, Permutation (tables j i) table) -> f_tracks s = [] -> hs <> [] \/ (exists h, f_mthd s = Some h /\ h_tracks h = 0) ->
  exists s' h', assemble_chunks tables s cs = Ok s' /\ fine s' /\ f_mthd s' = Some h' /\ h_tracks h' = zlen (f_tracks s').
Proof.
  intros table cs us U. induction U as [|l r cs us C U IH|l r cs us C U IH]; intros O B hs ts A H T L tables s P F M; cbn [assemble_chunks].
  - destruct M as [M|(h & M & K)]; [destruct hs; [congruence|discriminate]|]. exists s, h. rewrite F. split; [reflexivity|]. split; [unfold fine; rewrite F; constructor|]. auto.
  - apply Forall_cons_iff in O as [(l' & r' & E & T' & N) O]. injection E as <- <-. apply Forall_cons_iff in B as [_ B]. rewrite one_line by assumption.
    rewrite (proj2 (comment_is l) C). cbn [bind]. apply (IH O B hs ts A H T L (fun j => tables (Datatypes.S j)) s); auto.
  - destruct hs as [|c hs].
    + destruct M as [M|(h & M & K)]; [congruence|]. cbn [app] in A. subst ts.
      apply (tracks_count table _ _ (uc_chunk l r cs us C U) O B T tables s h P); [unfold fine; rewrite F; constructor|exact M|rewrite F; exact K|rewrite F; exact L].
    + cbn [app] in A. injection A as <- ->. apply Forall_cons_iff in O as [(l' & r' & E & T' & N) O]. injection E as <- <-. apply Forall_cons_iff in B as [_ B].
      apply Forall_cons_iff in H as [(f & d & l' & r' & E & HL & HS) H]. injection E as <- <-. rewrite one_line by assumption.
      destruct (has_prefix (str "%%") l) eqn:Q; [exfalso; apply C, comment_is, Q|]. rewrite (proj2 (header_spec l) HL). rewrite (proj2 (header_is_read l (mthd_of 0 f d))) by eauto. cbn [bind].
      apply (IH O B hs ts eq_refl H T L (fun j => tables (Datatypes.S j))); [intros j i; apply P|exact F|].
      right. exists (mthd_of 0 f d). split; [reflexivity|]. apply (mthd_of_fields 0 f d). apply HS.
Qed.

Lemma lines_good : forall table (tables : nat -> nat -> list (bytes * manufacturer)) r es, (forall j i, Permutation (tables j i) table) ->
  lines_say (fun l e => exists j i, unmarshal_text (tables j i) l = Ok e) r es -> good_lines table r /\ (es <> [] -> Exists event_line r).
Proof.
  intros table tables r es P H. induction H as [|l r es C H [I1 I2]|l r es W H [I1 I2]|l e r es C W (j & i & E) H [I1 I2]].
  - split; [constructor|congruence].
  - split; [constructor; [intros [K _]; contradiction|exact I1]|]. intros N. right. auto.
  - split; [constructor; [intros [_ K]; contradiction|exact I1]|]. intros N. right. auto.
  - split; [constructor; [intros _; apply (line_ok table (tables j i) l (P j i)); eauto|exact I1]|]. intros _. left. split; assumption.
Qed.

Theorem text_written : forall table tables text, is_bytes text -> (forall j i, Permutation (tables j i) table) -> (exists bs, assemble_text tables text = Ok bs) <-> text_well table text.
Proof.
  intros table tables text B P. split.
  - intros [bs H]. apply (text_assembled_sound (fun l e => exists j i, unmarshal_text (tables j i) l = Ok e)) in H as (f & d & ess & ess' & J & C & E); [|exact B|eauto].
    pose proof (text_values _ _ _ _ _ J) as HV. assert (LE : zlen ess = zlen ess') by (unfold zlen; rewrite (FileProofs.forall2_length _ _ _ _ _ C); reflexivity).
    destruct J as (lines & before & cs & hs & h & ts & LL & L & D & BF & HD & U & R1 & X & T).
    exists (hs ++ [h]), ts. split; [exists lines, before, cs; rewrite <- app_assoc; auto 10|]. split; [intros K; apply app_eq_nil in K as [_ K]; discriminate|].
    split; [apply Forall_app; split; [exact R1|constructor; [exists f, d; exact X|constructor]]|]. split.
    + assert (G : Forall2 (fun c es => exists r, a_track c r /\ lines_say (fun l e => exists j i, unmarshal_text (tables j i) l = Ok e) r es) ts ess).
      { clear - T. induction T as [|c es ts ess (l & r & -> & NH & TL & S) T IH]; constructor; [|exact IH]. exists r. split; [exists l; auto|exact S]. }
      clear - G C P. revert ess' C. induction G as [|c es ts ess (r & A & S) G IH]; intros ess' C; [constructor|]. inversion C as [|? ? ? ? C1 C2]; subst. constructor; [|apply (IH _ C2)].
      destruct (lines_good table tables r es P S) as [G1 G2]. exists r. split; [exact A|]. split; [exact G1|]. apply G2. intros ->. inversion C1.
    + assert (LT : zlen ts = zlen ess) by (unfold zlen; rewrite (FileProofs.forall2_length _ _ _ _ _ T); reflexivity). rewrite LT, LE. apply (smf_of_encoded _ _ _ _ HV E).
  - intros (hs & ts & (lines & before & cs & LL & L & D & BF & HD & U) & NE & H & T & Z). unfold assemble_text.
    rewrite (proj2 (read_chunks_ok text cs)) by (split; [exact LL|]; exists lines, before; rewrite first_chunk; auto). cbn [bind].
    assert (CB : Forall (Forall is_bytes) cs) by (eapply chunks_bytes; [exact D|eapply lines_bytes; eassumption]).
    destruct (headers_count table cs _ U (proj2 D) CB hs ts eq_refl H T Z tables (SMF None []) P eq_refl (or_introl NE)) as (s' & h' & E & F & M & K). rewrite E. cbn [bind].
    apply (encode_all s' F h' M), K.
Qed.

Lemma ends_text : forall table tables text, is_bytes text -> (forall j i, Permutation (tables j i) table) ->
  (assemble_text tables text = Panic <-> exists us, text_chunks text us /\ first_wrong table False (crash_chunk table) us) /\
  (assemble_text tables text = Loop <-> exists us, text_chunks text us /\ first_wrong table False (hang_chunk table) us) /\ assemble_text tables text <> Eof.
Proof.
  intros table tables text B P. unfold assemble_text. pose proof (read_chunks_ok text) as R. pose proof (read_halts text) as (R1 & R2 & R3).
  destruct (read_chunks text) as [cs| | | |]; cbn [bind]; try congruence.
  - specialize (R cs). pose proof (proj1 R eq_refl) as (LL & lines & before & L & D & BF & HD). clear R. destruct (uncommented_all cs (proj2 D)) as [us U].
    assert (CB : Forall (Forall is_bytes) cs) by (eapply chunks_bytes; [exact D|eapply lines_bytes; eassumption]).
    assert (TC : text_chunks text us) by (exists lines, before, cs; rewrite first_chunk in HD; auto 10).
    assert (F0 : fine (SMF None [])) by constructor.
    pose proof (ends_chunks table cs us U (proj2 D) CB tables (SMF None []) False P F0 ltac:(unfold has_header; cbn [f_mthd]; tauto)) as (_ & E2 & E3 & E4).
    assert (G : forall W : list (list bytes) -> Prop, (exists us, text_chunks text us /\ W us) <-> W us).
    { intros W. split; [intros (us' & T & K); rewrite (chunks_same _ _ _ TC T); exact K|]. intros K. exists us. auto. }
    rewrite !G, <- E2, <- E3.
    destruct (assemble_chunks tables (SMF None []) cs) as [s| | | |] eqn:A; cbn [bind]; try (repeat split; (discriminate || congruence)).
    assert (F : fine s).
    { assert (FA : forall cs tables s s', Forall one_chunk cs -> fine s -> assemble_chunks tables s cs = Ok s' -> fine s').
      { clear. induction cs as [|c cs IH]; intros tables s s' O F H; cbn [assemble_chunks] in H; [apply Ok_inj in H; subst; exact F|]. apply Forall_cons_iff in O as [(l & r & -> & T & N) O].
        apply bind_ok in H as (s1 & H1 & H). destruct (chunk_next _ _ _ _ _ T N F H1) as (F1 & _). apply (IH _ _ _ O F1 H). }
      exact (FA cs tables (SMF None []) s (proj2 D) F0 A). }
    pose proof (only_encode s F) as OE. split; [split; [intros E; rewrite E in OE; destruct OE|discriminate]|]. split; [split; [intros E; rewrite E in OE; destruct OE|discriminate]|].
    intros E. rewrite E in OE. exact OE.
  - assert (NT : forall us, ~ text_chunks text us).
    { intros us (lines & before & cs & LL & L & D & BF & HD & U). assert (E : Err = Ok cs) by (apply R; split; [exact LL|]; exists lines, before; rewrite first_chunk; auto). discriminate. }
    split; [split; [discriminate|intros (us & K & _); destruct (NT us K)]|]. split; [split; [discriminate|intros (us & K & _); destruct (NT us K)]|discriminate].
Qed.

Theorem text_ends : forall table tables text, is_bytes text -> (forall j i, Permutation (tables j i) table) ->
  ((exists bs, assemble_text tables text = Ok bs) <-> text_well table text) /\ (assemble_text tables text = Panic <-> text_crashes table text) /\
  (assemble_text tables text = Loop <-> text_hangs table text) /\ assemble_text tables text <> Eof.
Proof.
  intros table tables text B P. split; [apply text_written; assumption|]. destruct (ends_text table tables text B P) as (E1 & E2 & E3). split; [|split; [|exact E3]].
  - rewrite E1. split.
    + intros (us & T & before & c & after & -> & [S1 S2] & q & A & K). exists before, c, after, q. split; [exact T|]. split; [split; [exact S1|tauto]|]. split; [exact A|].
      destruct K as [[G [K|K]]|K]; [left; split; [exact G|left]|left; split; [exact G|right; exact K]|right; exact K]. destruct before; [reflexivity|]. destruct K. right. discriminate.
    + intros (before & c & after & q & T & [S1 S2] & A & K). eexists. split; [exact T|]. exists before, c, after. split; [reflexivity|]. split; [split; [exact S1|right; exact S2]|]. exists q. split; [exact A|].
      destruct K as [[G [K|K]]|K]; [left; split; [exact G|left]|left; split; [exact G|right; exact K]|right; exact K]. subst before. intros [[]|K]. congruence.
  - rewrite E2. split.
    + intros (us & T & before & c & after & -> & [S1 S2] & q & A & K). exists before, c, after, q. split; [exact T|]. split; [split; [exact S1|tauto]|]. auto.
    + intros (before & c & after & q & T & [S1 S2] & A & K). eexists. split; [exact T|]. exists before, c, after. split; [reflexivity|]. split; [split; [exact S1|right; exact S2]|]. exists q. auto.
Qed.
