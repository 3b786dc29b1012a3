(** * NotesLogProofs: the warnings of the notes command (C101). *)
From Coq Require Import Permutation Sorted.
From Verif Require Import Base Strings Tables Event Track File Utf8 Tsv Transpose TransposeProofs SpecNote Notes SpecTranspose SpecHistory SpecDecimal DecimalProofs SpecDuration NotesPrint
  ValidateProofs DurationProofs NotesPrintProofs HistoryProofs NoteProofs TrackProofs SpecNotes NotesTimeProofs NotesProofs Log NotesLog SpecNotesLog.

(** The entries for the complaints. *)
Definition reports (es : list nevent) (c : complaint) (l : log_entry) : Prop :=
  match c, l with
  | Twice i, LTwice e => nth_error es i = Some e /\ exists ch k, starts_key (ne_body e) ch k
  | Alone i, LAlone e => nth_error es i = Some e /\ ne_body e <> EndOfTrack /\ exists ch k, ends_key (ne_body e) ch k
  | Unended i _, LEnded ch p | Hanging i, LIncomplete ch p => nth_error es i = Some p /\ exists k, starts_key (ne_body p) ch k
  | _, _ => False
  end.

Definition is_warning (l : log_entry) : bool := match l with LOff _ => false | _ => true end.

Lemma pending_positions : forall entry order es q, (forall l, Permutation l (order l)) ->
  Forall (fun x : (Z * Z) * nat => In (fst (fst x)) channels16) q ->
  exists J, Permutation J q /\ pending_log entry order (pend es q) = map (fun x => entry (fst (fst x)) (nth (snd x) es ev0)) J.
Proof.
  intros entry order es q Ho F. unfold pending_log.
  assert (G : forall cs, exists J, Permutation J (flat_map (fun c => filter (fun x => fst (fst x) =? c) q) cs) /\
    flat_map (fun ch => map (entry ch) (order (map snd (filter (fun x => fst (fst x) =? ch) (pend es q))))) cs =
    map (fun x => entry (fst (fst x)) (nth (snd x) es ev0)) J).
  { induction cs as [|c cs (J & P & E)]; [exists []; split; reflexivity|]. cbn [flat_map]. rewrite E.
    assert (X : map snd (filter (fun x => fst (fst x) =? c) (pend es q)) = map (fun x => nth (snd x) es ev0) (filter (fun x => fst (fst x) =? c) q)).
    { clear. unfold pend. induction q as [|x q IH]; [reflexivity|]. cbn [map filter fst]. destruct (_ =? c); cbn [map snd]; rewrite IH; reflexivity. }
    rewrite X. pose proof (Ho (map (fun x => nth (snd x) es ev0) (filter (fun x => fst (fst x) =? c) q))) as Hp.
    apply Permutation_sym in Hp. apply Permutation_map_inv in Hp as (K & EK & PK). exists (K ++ J). split.
    - apply Permutation_app; [apply Permutation_sym; exact PK|exact P].
    - rewrite map_app, EK, map_map. f_equal. apply map_ext_in. intros x Hx. apply (Permutation_in _ (Permutation_sym PK)) in Hx. apply filter_In in Hx as [_ Hx].
      apply Z.eqb_eq in Hx. rewrite Hx. reflexivity. }
  destruct (G channels16) as (J & P & E). exists J. split; [|exact E]. rewrite P.
  apply filter_partition; [|exact F]. unfold channels16. repeat (constructor; [cbn [In]; lia|]). constructor.
Qed.


Lemma filter_warnings : forall A (f : A -> log_entry) J, (forall x, is_warning (f x) = true) -> filter is_warning (map f J) = map f J.
Proof. intros A f J H. induction J as [|x J IH]; [reflexivity|]. cbn [map filter]. rewrite H, IH. reflexivity. Qed.

Lemma reports_map : forall A es (g : A -> complaint) (f : A -> log_entry) J, (forall x, In x J -> reports es (g x) (f x)) -> Forall2 (reports es) (map g J) (map f J).
Proof.
  intros A es g f J. induction J as [|x J IH]; intro H; [constructor|]. cbn [map]. constructor; [apply H; left; reflexivity|]. apply IH. intros y Hy. apply H. right. exact Hy.
Qed.

Lemma nodup_inj_map : forall A B C (g : A -> B) (h : A -> C) l, (forall x y, g x = g y -> h x = h y) -> NoDup (map h l) -> NoDup (map g l).
Proof.
  intros A B C g h l H. induction l as [|x l IH]; intro N; [constructor|]. cbn [map] in *. inversion N as [|? ? N1 N2]; subst. constructor; [|auto].
  intro I. apply N1. apply in_map_iff in I as (y & E & I). apply H in E. rewrite <- E. apply in_map. exact I.
Qed.

Lemma sorted_app : forall n l1 l2, Forall (fun x => x = n) l1 -> Forall (fun x => (n < x)%nat) l2 -> StronglySorted le l2 -> StronglySorted le (l1 ++ l2).
Proof.
  intros n l1 l2 F1 F2 H. induction F1 as [|x l1 Hx F1 IH]; [exact H|]. cbn [app]. constructor; [exact IH|]. subst x. apply Forall_app. split.
  - eapply Forall_impl; [|exact F1]. cbv beta. lia.
  - eapply Forall_impl; [|exact F2]. cbv beta. lia.
Qed.

Lemma sorted_same : forall n l, Forall (fun x => x = n) l -> StronglySorted le l.
Proof. intros n l F. rewrite <- (app_nil_r l). eapply sorted_app; [exact F| |]; constructor. Qed.

Lemma note_log_complaints : forall order es, (forall l, Permutation l (order l)) -> notes_in_range es ->
  forall suf pre q, es = pre ++ suf -> good (map ne_body es) (length pre) q ->
  exists cs, Forall2 (reports es) cs (filter is_warning (note_log order (pend es q) suf)) /\ NoDup cs /\
    (forall c, In c cs <-> (length pre <= noticed (length es) c)%nat /\ due (map ne_body es) c) /\ StronglySorted le (map (noticed (length es)) cs).
Proof.
  intros order es Ho R. set (bs := map ne_body es).
  assert (Lb : length bs = length es) by apply map_length.
  assert (F16 : forall n q, (forall ch k i, In ((ch, k), i) q <-> opens bs n ch k i) -> Forall (fun x : (Z * Z) * nat => In (fst (fst x)) channels16) q).
  { intros n q G3. apply Forall_forall. intros [[c k] i] H. cbn [fst]. apply G3 in H as (_ & (b & Bb & Sb) & _). unfold bs in Bb. rewrite nth_error_map in Bb.
    destruct (nth_error es i) as [a|] eqn:Ea; [|discriminate]. cbn [option_map] in Bb. injection Bb as <-.
    unfold notes_in_range in R. rewrite Forall_forall in R. specialize (R a (nth_error_In _ _ Ea)). unfold starts_key in Sb. destruct (ne_body a); try contradiction.
    unfold channels16. cbn [In]. lia. }
  assert (St : forall ch k i, starts_at bs ch k i -> nth_error es i = Some (nth i es ev0) /\ starts_key (ne_body (nth i es ev0)) ch k).
  { intros ch k i (b & B & K). unfold bs in B. rewrite nth_error_map in B. destruct (nth_error es i) as [a|] eqn:Ea; [|discriminate]. cbn [option_map] in B. injection B as <-.
    rewrite (nth_error_nth es i ev0 Ea). auto. }
  induction suf as [|e suf IH]; intros pre q E G.
  - destruct G as (G1 & G2 & G3). assert (Hl : length pre = length es) by (rewrite E, app_nil_r; reflexivity). rewrite Hl in *.
    cbn [note_log]. destruct (pending_positions LIncomplete order es q Ho (F16 _ _ G3)) as (J & P & ->). rewrite filter_warnings by reflexivity.
    exists (map (fun x => Hanging (snd x)) J). split; [|split; [|split]].
    + apply reports_map. intros [[ch k] i] Hx. apply (Permutation_in _ P) in Hx. apply G3 in Hx as (_ & O2 & _). apply St in O2. cbn [reports fst snd]. split; [tauto|]. exists k. tauto.
    + apply (nodup_inj_map _ _ _ _ snd); [intros x y H; injection H; auto|]. eapply Permutation_NoDup; [apply Permutation_sym, Permutation_map, P|exact G2].
    + intro c. split.
      * intro H. apply in_map_iff in H as ([[ch k] i] & <- & H). cbn [snd noticed due]. split; [lia|]. apply (Permutation_in _ P) in H. apply G3 in H as (O1 & O2 & O3 & O4).
        exists ch, k. split; [exact O2|]. split; [exact O3|]. intros m Hm N. apply (O4 m); [|exact N]. split; [exact Hm|].
        destruct N as (b & B & _). rewrite <- Lb. apply nth_error_Some. congruence.
      * intros [L D]. destruct c as [i|i|i j|i]; cbn [noticed due] in *.
        -- exfalso. destruct D as (ch & k & (b & B & _) & _). assert (i < length bs)%nat by (apply nth_error_Some; congruence). lia.
        -- exfalso. destruct D as (b & ch & k & B & _). assert (i < length bs)%nat by (apply nth_error_Some; congruence). lia.
        -- exfalso. destruct D as (ch & k & _ & B). assert (j < length bs)%nat by (apply nth_error_Some; congruence). lia.
        -- destruct D as (ch & k & D1 & D2 & D3). apply in_map_iff. exists ((ch, k), i). split; [reflexivity|]. apply (Permutation_in _ (Permutation_sym P)). apply G3.
           assert (i < length bs)%nat by (destruct D1 as (b & B & _); apply nth_error_Some; congruence).
           split; [lia|]. split; [exact D1|]. split; [exact D2|]. intros m Hm. apply D3. lia.
    + apply (sorted_same (length es)). apply Forall_forall. intros x H. apply in_map_iff in H as (c & <- & H). apply in_map_iff in H as (y & <- & _). reflexivity.
  - set (n := length pre) in *.
    assert (He : nth_error es n = Some e) by (rewrite E; unfold n; rewrite nth_error_app2 by lia; rewrite Nat.sub_diag; reflexivity).
    assert (Hb : nth_error bs n = Some (ne_body e)) by (unfold bs; rewrite nth_error_map, He; reflexivity).
    assert (Hn : (n < length es)%nat) by (apply nth_error_Some; congruence).
    assert (E' : es = (pre ++ [e]) ++ suf) by (rewrite <- app_assoc; exact E).
    assert (Hl : length (pre ++ [e]) = S n) by (rewrite app_length; cbn [length]; lia).
    destruct G as (G1 & G2 & G3).
    assert (Re : match ne_body e with NoteOn ch nt _ => 0 <= ch < 16 /\ 0 <= n_value nt < 256 | NoteOff ch nt _ => 0 <= ch < 16 /\ 0 <= n_value nt < 256 | _ => True end).
    { unfold notes_in_range in R. rewrite Forall_forall in R. apply R. eapply nth_error_In. exact He. }
    assert (SA : forall ch k, starts_at bs ch k n <-> starts_key (ne_body e) ch k).
    { intros ch k. unfold starts_at. split; [intros (b & B1 & B2); congruence|]. eauto. }
    assert (EA : forall ch k, ends_at bs ch k n <-> ends_key (ne_body e) ch k).
    { intros ch k. unfold ends_at. split; [intros (b & B1 & B2); congruence|]. eauto. }
    assert (DA : forall ch k, down_before bs ch k n <-> exists i, In ((ch, k), i) q).
    { intros ch k. split; [intro D; apply down_opens in D as [i D]; exists i; apply G3; exact D|]. intros [i D]. apply G3 in D. eapply opens_down. exact D. }
    (* what is due here *)
    assert (Due : forall c, noticed (length es) c = n /\ due bs c <->
      match c with
      | Twice i => i = n /\ exists ch k, starts_key (ne_body e) ch k /\ down_before bs ch k n
      | Alone i => i = n /\ exists ch k, ne_body e <> EndOfTrack /\ ends_key (ne_body e) ch k /\ ~ down_before bs ch k n
      | Unended i j => j = n /\ ne_body e = EndOfTrack /\ exists ch k, In ((ch, k), i) q
      | Hanging _ => False
      end).
    { intros [i|i|i j|i]; cbn [noticed due].
      - split; intros [-> (ch & k & A & B)]; (split; [reflexivity|]); exists ch, k; (split; [apply SA; exact A|exact B]).
      - split.
        + intros [-> (b & ch & k & A1 & A2 & A3 & A4)]. assert (b = ne_body e) by congruence. subst b. split; [reflexivity|]. exists ch, k. auto.
        + intros [-> (ch & k & A2 & A3 & A4)]. split; [reflexivity|]. exists (ne_body e), ch, k. auto.
      - split.
        + intros [-> (ch & k & A & B)]. split; [reflexivity|]. split; [congruence|]. exists ch, k. apply G3. apply sounds_opens in A. tauto.
        + intros (-> & B & ch & k & A). split; [reflexivity|]. exists ch, k. split; [|congruence]. apply sounds_opens. split; [apply G3; exact A|]. apply EA. rewrite B. exact I.
      - split; [|intros []]. intros [A _]. lia. }
    (* the continuation for a new state [q'] and complaints [cs0] due here *)
    assert (K : forall q' cs0 out,
      NoDup (map fst q') -> NoDup (map snd q') ->
      (forall ch k i, In ((ch, k), i) q' <-> (In ((ch, k), i) q /\ ~ ends_key (ne_body e) ch k) \/ (i = n /\ starts_key (ne_body e) ch k /\ ~ down_before bs ch k n)) ->
      NoDup cs0 -> (forall c, In c cs0 <-> noticed (length es) c = n /\ due bs c) -> Forall2 (reports es) cs0 (filter is_warning out) ->
      exists cs, Forall2 (reports es) cs (filter is_warning (out ++ note_log order (pend es q') suf)) /\ NoDup cs /\
        (forall c, In c cs <-> (n <= noticed (length es) c)%nat /\ due bs c) /\ StronglySorted le (map (noticed (length es)) cs)).
    { intros q' cs0 out N1 N2 H1 NI H2 H3. specialize (IH (pre ++ [e]) q' E'). rewrite Hl in IH. destruct IH as (cs & L1 & L2 & L3 & L4).
      { split; [exact N1|]. split; [exact N2|]. intros ch k i. rewrite H1, opens_step, G3, EA, SA. reflexivity. }
      exists (cs0 ++ cs). split; [|split; [|split]].
      - rewrite filter_app. apply Forall2_app; assumption.
      - apply NoDup_app_intro; [exact NI|exact L2|]. intros c A B. apply H2 in A as [A _]. apply L3 in B as [B _]. lia.
      - intro c. rewrite in_app_iff, H2, L3. split; [intros [[A B]|[A B]]; (split; [lia|exact B])|]. intros [A B].
        assert (noticed (length es) c = n \/ S n <= noticed (length es) c)%nat as [L|L] by lia; [left|right]; auto.
      - rewrite map_app. apply (sorted_app n).
        + apply Forall_forall. intros x H. apply in_map_iff in H as (c & <- & H). apply H2 in H. tauto.
        + apply Forall_forall. intros x H. apply in_map_iff in H as (c & <- & H). apply L3 in H. lia.
        + exact L4. }
    (* an event that ends one key *)
    assert (One : forall ch0 k0 off, (forall ch k, ends_key (ne_body e) ch k <-> ch = ch0 /\ k = k0) -> (forall ch k, ~ starts_key (ne_body e) ch k) -> ne_body e <> EndOfTrack ->
      filter is_warning off = [] ->
      exists cs, Forall2 (reports es) cs (filter is_warning ((off ++ finish_log (pend es q) (ch0, k0) e) ++ note_log order (drop_key (ch0, k0) (pend es q)) suf)) /\ NoDup cs /\
        (forall c, In c cs <-> (n <= noticed (length es) c)%nat /\ due bs c) /\ StronglySorted le (map (noticed (length es)) cs)).
    { intros ch0 k0 off He0 Hs0 Hne Hoff. rewrite drop_pend.
      assert (Q' : forall ch k j, In ((ch, k), j) (filter (fun x => negb (key_eqb (ch0, k0) (fst x))) q) <->
        (In ((ch, k), j) q /\ ~ ends_key (ne_body e) ch k) \/ (j = n /\ starts_key (ne_body e) ch k /\ ~ down_before bs ch k n)).
      { intros ch k j. rewrite filter_In. cbn [fst]. rewrite He0. split.
        * intros [A B]. left. split; [exact A|]. intros [-> ->]. rewrite (proj2 (key_eqb_spec (ch0, k0) (ch0, k0)) eq_refl) in B. discriminate.
        * intros [[A B]|(_ & A & _)]; [|exfalso; eapply Hs0; exact A]. split; [exact A|]. destruct (key_eqb (ch0, k0) (ch, k)) eqn:Ek; [|reflexivity].
          apply key_eqb_spec in Ek. injection Ek as -> ->. exfalso. apply B. auto. }
      unfold finish_log. destruct (find_pend es q (ch0, k0) G1) as [(i & I1 & ->)|[I1 ->]].
      - apply (K _ []); [apply filter_nodup; exact G1|apply filter_nodup; exact G2|exact Q'|constructor| |rewrite filter_app, Hoff; constructor].
        intro c. rewrite Due. split; [intros []|]. destruct c as [x|x|x y|x]; [| | |intros []].
        + intros (_ & ch & k & A & _). exact (Hs0 ch k A).
        + intros (_ & ch & k & _ & A & B). apply He0 in A as [-> ->]. apply B. apply DA. exists i. exact I1.
        + intros (_ & A & _). exact (Hne A).
      - apply (K _ [Alone n]); [apply filter_nodup; exact G1|apply filter_nodup; exact G2|exact Q'|constructor; [intros []|constructor]| |].
        + intro c. rewrite Due. split.
          * intros [<-|[]]. split; [reflexivity|]. exists ch0, k0. split; [exact Hne|]. split; [apply He0; auto|]. rewrite DA. intros [j J]. exact (I1 j J).
          * destruct c as [x|x|x y|x]; [| | |intros []].
            -- intros (_ & ch & k & A & _). exfalso. exact (Hs0 ch k A).
            -- intros (-> & _). left. reflexivity.
            -- intros (_ & A & _). exfalso. exact (Hne A).
        + rewrite filter_app, Hoff. cbn [app filter is_warning]. constructor; [|constructor]. cbn [reports]. split; [exact He|]. split; [exact Hne|]. exists ch0, k0. apply He0. auto. }
    (* an event that is not about notes *)
    assert (None_ : (forall ch k, ~ ends_key (ne_body e) ch k) -> (forall ch k, ~ starts_key (ne_body e) ch k) -> ne_body e <> EndOfTrack ->
      exists cs, Forall2 (reports es) cs (filter is_warning (note_log order (pend es q) suf)) /\ NoDup cs /\
        (forall c, In c cs <-> (n <= noticed (length es) c)%nat /\ due bs c) /\ StronglySorted le (map (noticed (length es)) cs)).
    { intros He0 Hs0 Hne. apply (K q [] []); [exact G1|exact G2| |constructor| |constructor].
      - intros ch k j. split; [intro A; left; split; [exact A|apply He0]|]. intros [[A _]|(_ & A & B)]; [exact A|]. exfalso. exact (Hs0 _ _ A).
      - intro c. rewrite Due. split; [intros []|]. destruct c as [x|x|x y|x]; [| | |intros []].
        + intros (_ & ch & k & A & _). exact (Hs0 ch k A).
        + intros (_ & ch & k & _ & A & _). exact (He0 ch k A).
        + intros (_ & A & _). exact (Hne A). }
    cbn [note_log]. destruct (ne_body e) as [ch nt v|ch nt v| | | | | | | | | | | | | | | | | |] eqn:B;
      try (apply None_; [intros ? ? []|intros ? ? []|discriminate]; fail).
    + change (LOff e :: finish_log (pend es q) (ch, n_value nt) e ++ note_log order (drop_key (ch, n_value nt) (pend es q)) suf)
        with (([LOff e] ++ finish_log (pend es q) (ch, n_value nt) e) ++ note_log order (drop_key (ch, n_value nt) (pend es q)) suf).
      apply One; [|intros ? ? []|discriminate|reflexivity]. intros c k. cbn [ends_key]. intuition congruence.
    + destruct (Z.ltb_spec 0 v) as [Hv|Hv].
      * destruct (find_pend es q (ch, n_value nt) G1) as [(i & I1 & ->)|[I1 ->]].
        -- assert (DB : down_before bs ch (n_value nt) n) by (apply DA; exists i; exact I1).
           apply (K q [Twice n] [LTwice e]); [exact G1|exact G2| |constructor; [intros []|constructor]| |].
           ++ intros c k j. cbn [starts_key ends_key]. split; [intro A; left; split; [exact A|lia]|]. intros [[A _]|(_ & (-> & <- & _) & A)]; [exact A|]. exfalso. exact (A DB).
           ++ intro c. rewrite Due. split.
              ** intros [<-|[]]. split; [reflexivity|]. exists ch, (n_value nt). cbn [starts_key]. auto.
              ** destruct c as [x|x|x y|x]; [| | |intros []].
                 --- intros (-> & _). left. reflexivity.
                 --- intros (_ & c & k & _ & A & _). cbn [ends_key] in A. lia.
                 --- intros (_ & A & _). discriminate.
           ++ cbn [filter is_warning]. constructor; [|constructor]. cbn [reports]. split; [exact He|]. exists ch, (n_value nt). rewrite B. cbn [starts_key]. auto.
        -- replace (ch <? 16) with true by lia.
           assert (ND : ~ down_before bs ch (n_value nt) n) by (rewrite DA; intros [i D]; exact (I1 i D)).
           assert (X : ((ch, n_value nt), e) :: pend es q = pend es (((ch, n_value nt), n) :: q)).
           { unfold pend. cbn [map fst snd]. rewrite (nth_error_nth es n ev0 He). reflexivity. }
           rewrite X. apply (K (((ch, n_value nt), n) :: q) [] []).
           ++ cbn [map fst]. constructor; [|exact G1]. intro H. apply in_map_iff in H as ([k' i] & Ek & H). cbn [fst] in Ek. subst k'. eapply I1. exact H.
           ++ cbn [map snd]. constructor; [|exact G2]. intro H. apply in_map_iff in H as ([[c k] i] & Ek & H). cbn [snd] in Ek. subst i. apply G3 in H as [H _]. lia.
           ++ intros c k j. cbn [In starts_key ends_key]. split.
              ** intros [H|H]; [injection H as <- <- <-; right; repeat split; auto; lia|left; split; [exact H|lia]].
              ** intros [[H _]|(-> & (-> & <- & _) & _)]; auto.
           ++ constructor.
           ++ intro c. rewrite Due. split; [intros []|]. destruct c as [x|x|x y|x]; [| | |intros []].
              ** intros (_ & c & k & (-> & <- & _) & A). exact (ND A).
              ** intros (_ & c & k & _ & A & _). cbn [ends_key] in A. lia.
              ** intros (_ & A & _). discriminate.
           ++ constructor.
      * apply (One ch (n_value nt) []); [|intros c k; cbn [starts_key]; lia|discriminate|reflexivity]. intros c k. cbn [ends_key]. intuition (try congruence; lia).
    + (* EndOfTrack *)
      assert (X : filter (fun x : Z * Z * nevent => negb (existsb (Z.eqb (fst (fst x))) channels16)) (pend es q) = pend es []).
      { pose proof (F16 _ _ G3) as F. clear - F. unfold pend. induction F as [|x q Hx F IH]; [reflexivity|]. cbn [map filter fst].
        assert (Y : existsb (Z.eqb (fst (fst x))) channels16 = true) by (apply existsb_exists; exists (fst (fst x)); split; [exact Hx|apply Z.eqb_refl]).
        rewrite Y. exact IH. }
      destruct (pending_positions LEnded order es q Ho (F16 _ _ G3)) as (J & P & ->). rewrite X.
      apply (K [] (map (fun x => Unended (snd x) n) J)).
      * constructor.
      * constructor.
      * intros c k i. cbn [ends_key starts_key]. split; [intros []|]. intros [[_ H]|(_ & [] & _)]. exfalso. apply H. exact I.
      * apply (nodup_inj_map _ _ _ _ snd); [intros x y H; injection H; auto|]. eapply Permutation_NoDup; [apply Permutation_sym, Permutation_map, P|exact G2].
      * intro c. rewrite Due. split.
        -- intro H. apply in_map_iff in H as ([[ch k] i] & <- & H). split; [reflexivity|]. split; [reflexivity|]. exists ch, k. apply (Permutation_in _ P). exact H.
        -- destruct c as [x|x|x y|x]; [| | |intros []].
           ++ intros (_ & ch & k & [] & _).
           ++ intros (_ & ch & k & A & _). exfalso. apply A. reflexivity.
           ++ intros (-> & _ & ch & k & A). apply in_map_iff. exists ((ch, k), x). split; [reflexivity|]. apply (Permutation_in _ (Permutation_sym P)). exact A.
      * rewrite filter_warnings by reflexivity. apply reports_map. intros [[ch k] i] Hx. apply (Permutation_in _ P) in Hx. apply G3 in Hx as (_ & O2 & _).
        apply St in O2. cbn [reports fst snd]. split; [tauto|]. exists k. tauto.
Qed.

(** ** Texts *)

Lemma hex_text_hexes : forall s, hexes s (hex_text s).
Proof. intros [|c s] H; [congruence|reflexivity]. Qed.

Lemma report_line : forall es c l, reports es c l -> exists t, complains es c t /\ log_line Warn (str "notes") (entry_text l) = t ++ [10].
Proof.
  assert (W : forall m, log_line Warn (str "notes") m = (str "WARN   notes      " ++ m) ++ [10]) by (intro m; rewrite <- app_assoc; reflexivity).
  assert (A : forall b, (exists ch k, starts_key b ch k) \/ (b <> EndOfTrack /\ exists ch k, ends_key b ch k) -> about b (channel_note b)).
  { intros b H. assert (exists ch n v, b = NoteOn ch n v \/ b = NoteOff ch n v) as (ch & n & v & [->| ->]).
    { destruct H as [(ch & k & H)|[N (ch & k & H)]]; destruct b; try contradiction; eauto; congruence. }
    all: exists (dec ch), (hex_text (n_name n)), (hex_text (n_alias n)); split; [apply dec_decimal|]; split; [apply hex_text_hexes|]; split; [apply hex_text_hexes|];
      cbn [channel_note]; unfold hex_note; reflexivity. }
  assert (P : forall p ch k, starts_key (ne_body p) ch k -> about_started p (pending_text ch p)).
  { intros p ch k H. unfold starts_key in H. destruct (ne_body p) as [|c n v| | | | | | | | | | | | | | | | | |] eqn:B; try contradiction. destruct H as (-> & <- & _).
    exists ch, n, v, (dec ch), (dec (ne_tick p)), (duration_string (ne_at p)). split; [exact B|]. split; [apply dec_decimal|]. split; [apply dec_decimal|]. split; [apply duration_text|].
    unfold pending_text. rewrite B. reflexivity. }
  intros es c l H. destruct c as [i|i|i j|i], l as [dt tick|e|e|e|ch p|ch p]; cbn [reports] in H; try contradiction; cbn [entry_text]; rewrite W.
  - destruct H as [H1 H2]. eexists. split; [|reflexivity]. exists e, (channel_note (ne_body e)). split; [exact H1|]. split; [apply A; left; exact H2|reflexivity].
  - destruct H as [H1 H2]. eexists. split; [|reflexivity]. exists e, (channel_note (ne_body e)). split; [exact H1|]. split; [apply A; right; exact H2|reflexivity].
  - destruct H as [H1 (k & H2)]. eexists. split; [|reflexivity]. exists p, (pending_text ch p). split; [exact H1|]. split; [apply (P p ch k H2)|reflexivity].
  - destruct H as [H1 (k & H2)]. eexists. split; [|reflexivity]. exists p, (pending_text ch p). split; [exact H1|]. split; [apply (P p ch k H2)|reflexivity].
Qed.

Definition quiet (setting : level) : Prop := setting = Warn \/ setting = Info.

Lemma stderr_warnings : forall setting l, quiet setting -> notes_stderr setting l = flat_map (fun x => log_line Warn (str "notes") (entry_text x)) (filter is_warning l).
Proof.
  intros setting l Q. unfold notes_stderr. induction l as [|x l IH]; [reflexivity|]. cbn [flat_map filter]. rewrite IH.
  destruct Q as [-> | ->], x; reflexivity.
Qed.

Lemma stderr_app : forall setting a b, notes_stderr setting (a ++ b) = notes_stderr setting a ++ notes_stderr setting b.
Proof. intros. unfold notes_stderr. apply flat_map_app. Qed.

Theorem complaints_due : forall setting order es, quiet setting -> (forall l, Permutation l (order l)) -> notes_in_range es ->
  complaints es (notes_stderr setting (note_log order [] es)).
Proof.
  intros setting order es Q Ho R. destruct (note_log_complaints order es Ho R es [] []) as (cs & F & N & D & S0).
  - reflexivity.
  - split; [constructor|]. split; [constructor|]. intros ch k i. split; [intros []|]. intros (H & _). cbn [length] in H. lia.
  - rewrite stderr_warnings by exact Q. change (pend es []) with (@nil (Z * Z * nevent)) in F.
    assert (exists lines, Forall2 (complains es) cs lines /\ flat_map (fun x => log_line Warn (str "notes") (entry_text x)) (filter is_warning (note_log order [] es)) = flat_map (fun l => l ++ [10]) lines)
      as (lines & F1 & E).
    { clear - F. induction F as [|c l cs ls H F (lines & F1 & E)]; [exists []; split; [constructor|reflexivity]|].
      destruct (report_line es c l H) as (t & T & L). exists (t :: lines). split; [constructor; assumption|]. cbn [flat_map]. rewrite L, E. reflexivity. }
    exists cs, lines. split; [exact N|]. split; [|split; [exact S0|split; [exact F1|exact E]]].
    intro c. rewrite D. cbn [length]. split; [tauto|]. intro H. split; [lia|exact H].
Qed.

Theorem silent_paired : forall setting order es, quiet setting -> (forall l, Permutation l (order l)) -> notes_in_range es ->
  (notes_stderr setting (note_log order [] es) = [] <-> well_paired (map ne_body es)).
Proof.
  intros setting order es Q Ho R. destruct (complaints_due setting order es Q Ho R) as (cs & lines & _ & D & _ & F & ->). split.
  - intros E c H. apply D in H. destruct F as [|c' l cs lines _ F]; [destruct H|]. cbn [flat_map] in E. destruct l; discriminate.
  - intro W. destruct F as [|c' l cs lines _ F]; [reflexivity|]. exfalso. apply (W c'). apply D. left. reflexivity.
Qed.

(** ** Files *)

Lemma timestamps_log_entries : forall ppqn l tempo, Forall (fun x => exists dt e, x = LPrecision dt (ne_tick e) /\ 0 < dt /\ In e l) (timestamps_log tempo ppqn l).
Proof.
  intros ppqn l. induction l as [|e l IH]; intro tempo; cbn [timestamps_log]; [constructor|]. destruct (delta_time _ _ _) as [d| | | |]; [|constructor..]. cbv zeta.
  apply Forall_app. split.
  - destruct (Z.ltb_spec 0 ((d mod 18446744073709551616 * tempo) mod 18446744073709551616 mod ppqn)); [|constructor]. constructor; [|constructor]. do 2 eexists. split; [reflexivity|]. split; [assumption|left; reflexivity].
  - eapply Forall_impl; [|apply IH]. cbv beta. intros x (dt & e' & E & P & I). exists dt, e'. split; [exact E|]. split; [exact P|right; exact I].
Qed.

Lemma loss_lines : forall setting ppqn l tempo, setting <> Fatal -> setting <> Error ->
  exists lines, notes_stderr setting (timestamps_log tempo ppqn l) = concat lines /\ Forall (fun line => exists e, In e l /\ loss_line (ne_tick e) line) lines.
Proof.
  intros setting ppqn l tempo N1 N2. pose proof (timestamps_log_entries ppqn l tempo) as F. induction F as [|x ls (dt & e & -> & P & I) F (lines & E & G)]; [exists []; split; [reflexivity|constructor]|].
  exists (log_line Warn (str "notes") (entry_text (LPrecision dt (ne_tick e))) :: lines). split.
  - unfold notes_stderr in *. cbn [flat_map entry_level concat]. rewrite E. destruct setting; try congruence; reflexivity.
  - constructor; [|exact G]. exists e. split; [exact I|]. exists dt, (dec dt), (Z.to_nat (5 - zlen (runes (dec dt)))), (dec (ne_tick e)). split; [exact P|]. split; [apply dec_decimal|]. split; [apply dec_decimal|].
    cbn [entry_text]. unfold left_justify. change (log_line Warn (str "notes")) with (fun m => str "WARN   notes      " ++ m ++ [10]). cbv beta. rewrite <- !app_assoc. reflexivity.
Qed.

Lemma tracks_built : forall env steps order s notes h t0 ts, f_tracks s = t0 :: ts -> f_mthd s = Some h -> extract env steps order s = Ok notes ->
  Forall (fun t => exists es, build_track_events (t_events t) (tempo_events (t_events t0)) (h_ppqn h) = Ok es) ts.
Proof.
  intros env steps order s notes h t0 ts E Hh H. unfold extract in H. rewrite E, Hh in H. destruct ts as [|t1 ts']; [constructor|]. apply tracks_notes_inv in H as (nss & _ & F).
  clear E. induction F as [|t ns ts nss (es & B & _) F IH]; [constructor|]. constructor; [eauto|exact IH].
Qed.

Theorem file_complaints : forall env steps order setting r s notes, quiet setting -> (forall l, Permutation l (order l)) -> is_bytes r -> decode env r = Ok s ->
  extract env steps order s = Ok notes ->
  exists texts, notes_stderr setting (extract_log order s) = concat (map (fun x => fst x ++ snd x) texts) /\
    Forall2 (fun t x => exists es lines, complaints es (snd x) /\
       fst x = concat lines /\ Forall (fun line => exists e, In e (concat (map t_events (f_tracks s))) /\ loss_line (e_tick e) line) lines /\
       (total_delta (t_events t) < 4294967296 -> (forall t0, nth_error (f_tracks s) 0 = Some t0 -> total_delta (t_events t0) < 4294967296) ->
        map (fun e => (ne_tick e, ne_body e)) es = own_notes (t_events t))) (tl (f_tracks s)) texts.
Proof.
  intros env steps order setting r s notes Q Ho Hr D H. destruct (decoded_header env r s D) as (h & Hh & _).
  pose proof (decoded_ticks env r s Hr D) as T. pose proof (decoded_notes_range env r s) as R. pose proof (tracks_built env steps order s notes h) as TB.
  unfold extract_log. rewrite Hh. assert (NE : f_tracks s <> []) by (unfold extract in H; destruct (f_tracks s); [discriminate|discriminate]).
  destruct (f_tracks s) as [|t0 ts]; [congruence|]. cbn [tl]. clear NE. specialize (TB t0 ts eq_refl Hh H). clear H.
  set (all := concat (map t_events (t0 :: ts))). assert (All : forall t, In t (t0 :: ts) -> forall e, In e (t_events t) -> In e all).
  { intros t Ht e He. unfold all. apply in_concat. exists (t_events t). split; [apply in_map; exact Ht|exact He]. }
  clearbody all. inversion T as [|? ? [T0 T0'] T']; subst. clear T.
  revert All R T'. induction TB as [|t ts (es & B) TB IH]; intros All R T'; [exists []; split; [reflexivity|constructor]|]. inversion T' as [|? ? [T1 T1'] T'']; subst.
  destruct IH as (texts & E & F).
  { intros t' I' e I''. apply (All t'); [|exact I'']. destruct I' as [I'|I']; [left; exact I'|right; right; exact I']. }
  { intros t' t'' ppqn es' Hr' D' I1 I2 B'. apply (R t' t'' ppqn es' Hr' D'); [| |exact B'].
    * destruct I1 as [I1|I1]; [left; exact I1|right; right; exact I1].
    * destruct I2 as [I2|I2]; [left; exact I2|right; right; exact I2]. }
  { exact T''. }
  cbn [flat_map]. rewrite stderr_app, E. unfold track_log. rewrite B, stderr_app.
  destruct (loss_lines setting (h_ppqn h) (sort_ticks (unsorted (t_events t) (tempo_events (t_events t0)))) 50000) as (lines & EL & FL); [destruct Q; congruence..|].
  eexists ((_, _) :: texts). split; [cbn [map concat fst snd]; reflexivity|]. constructor; [|exact F]. exists es, lines. cbn [fst snd]. split; [|split; [exact EL|split]].
  - apply complaints_due; [exact Q|exact Ho|]. apply (R t t0 _ es Hr D (or_intror (or_introl eq_refl)) (or_introl eq_refl) B).
  - eapply Forall_impl; [|exact FL]. cbv beta. intros line (e & I & L). apply (Permutation_in _ (sort_permutation _)) in I. unfold unsorted in I.
    apply in_app_or in I as [I|I]; apply in_map_iff in I as (x & <- & I); exists x; (split; [|exact L]).
    + apply (All t); [right; left; reflexivity|exact I].
    + apply (All t0); [left; reflexivity|]. apply filter_In in I. tauto.
  - intros H1 H2. assert (A0 : ascending 0 (map e_tick (tempo_events (t_events t0)))) by (apply ascending_filter, ticks_ascending, T0', H2; reflexivity).
    exact (track_events_order (t_events t) (t_events t0) _ es (ticks_ascending _ _ (T1' H1)) A0 B).
Qed.
