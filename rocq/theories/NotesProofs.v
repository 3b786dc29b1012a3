(** * NotesProofs: the pairing of notes. *)
From Coq Require Import Permutation.
From Verif Require Import Base Strings Tables Event Track File Transpose TransposeProofs SpecNote NoteProofs Notes SpecTranspose SpecNotes.

(** ** Lists *)

Lemma filter_split : forall A (f : A -> Z) x q cs, NoDup cs -> In (f x) cs ->
  Permutation (flat_map (fun c => filter (fun y => f y =? c) (x :: q)) cs) (x :: flat_map (fun c => filter (fun y => f y =? c) q) cs).
Proof.
  intros A f x q cs N. induction N as [|c cs Hc N IH]; intro I; [destruct I|]. cbn [flat_map filter].
  destruct (Z.eqb_spec (f x) c) as [E|E].
  - cbn [app]. apply perm_skip. apply Permutation_app_head.
    assert (H : forall cs', ~ In (f x) cs' -> flat_map (fun c0 => if f x =? c0 then x :: filter (fun y => f y =? c0) q else filter (fun y => f y =? c0) q) cs' =
      flat_map (fun c0 => filter (fun y => f y =? c0) q) cs').
    { induction cs' as [|d ds IHd]; intro Hn; [reflexivity|]. cbn [flat_map]. destruct (Z.eqb_spec (f x) d); [exfalso; apply Hn; left; auto|].
      rewrite IHd; [reflexivity|]. intro; apply Hn; right; assumption. }
    rewrite H; [reflexivity|]. rewrite E. exact Hc.
  - destruct I as [I|I]; [congruence|]. rewrite Permutation_middle. apply Permutation_app_head. apply IH. exact I.
Qed.

Lemma filter_partition : forall A (f : A -> Z) cs q, NoDup cs -> Forall (fun x => In (f x) cs) q ->
  Permutation (flat_map (fun c => filter (fun y => f y =? c) q) cs) q.
Proof.
  intros A f cs q N. induction q as [|x q IH]; intro F.
  - cbn [filter]. clear. induction cs; [reflexivity|exact IHcs].
  - inversion F; subst. rewrite filter_split by assumption. apply perm_skip. auto.
Qed.

Lemma flat_map_Permutation : forall A B (f : A -> list B) (g : A -> list B) l, (forall x, Permutation (f x) (g x)) -> Permutation (flat_map f l) (flat_map g l).
Proof. intros A B f g l H. induction l; [reflexivity|]. cbn [flat_map]. apply Permutation_app; [apply H|assumption]. Qed.

Lemma flat_map_map : forall A B C (g : B -> C) (f : A -> list B) l, flat_map (fun x => map g (f x)) l = map g (flat_map f l).
Proof. intros. induction l; [reflexivity|]. cbn [flat_map]. rewrite IHl, map_app. reflexivity. Qed.

Lemma NoDup_app_intro : forall A (l l' : list A), NoDup l -> NoDup l' -> (forall x, In x l -> In x l' -> False) -> NoDup (l ++ l').
Proof.
  intros A l l' N N' D. induction N as [|x l Hx N IH]; [exact N'|]. cbn [app]. constructor.
  - intro H. apply in_app_iff in H as [H|H]; [contradiction|]. eapply D; [left; reflexivity|exact H].
  - apply IH. intros y Hy. apply D. right. exact Hy.
Qed.

(** ** Sounding notes *)

Definition opens (bs : list body) (n : nat) (ch k : Z) (i : nat) : Prop :=
  (i < n)%nat /\ starts_at bs ch k i /\ ~ down_before bs ch k i /\ forall m, (i < m < n)%nat -> ~ ends_at bs ch k m.

Lemma start_not_end : forall bs ch k ch' k' i, starts_at bs ch k i -> ~ ends_at bs ch' k' i.
Proof.
  intros bs ch k ch' k' i (b & E & S) (b' & E' & T). assert (b' = b) by congruence. subst b'.
  unfold starts_key, ends_key in *. destruct b; try contradiction. lia.
Qed.

Lemma start_key_unique : forall bs ch k ch' k' i, starts_at bs ch k i -> starts_at bs ch' k' i -> ch = ch' /\ k = k'.
Proof.
  intros bs ch k ch' k' i (b & E & S) (b' & E' & T). assert (b' = b) by congruence. subst b'. unfold starts_key in *. destruct b; try contradiction. lia.
Qed.

Lemma down_opens : forall bs ch k n, down_before bs ch k n -> exists i, opens bs n ch k i.
Proof.
  intros bs ch k n (i & Hi & S & N). revert Hi S N. induction i as [i IH] using (well_founded_induction lt_wf). intros Hi S N.
  assert (D : down_before bs ch k i \/ ~ down_before bs ch k i).
  { (* decidable: a finite search *)
    assert (De : forall m, ends_at bs ch k m \/ ~ ends_at bs ch k m).
    { intro m. unfold ends_at. destruct (nth_error bs m) as [b|] eqn:E; [|right; intros (b & H & _); discriminate].
      assert (ends_key b ch k \/ ~ ends_key b ch k) as [H|H] by (unfold ends_key; destruct b; try (right; tauto); try (left; tauto); lia).
      - left. eauto.
      - right. intros (b' & H1 & H2). congruence. }
    assert (Ds : forall m, starts_at bs ch k m \/ ~ starts_at bs ch k m).
    { intro m. unfold starts_at. destruct (nth_error bs m) as [b|] eqn:E; [|right; intros (b & H & _); discriminate].
      assert (starts_key b ch k \/ ~ starts_key b ch k) as [H|H] by (unfold starts_key; destruct b; try (right; tauto); lia).
      - left. eauto.
      - right. intros (b' & H1 & H2). congruence. }
    clear - De Ds. induction i as [|i IH]; [right; intros (x & H & _); lia|].
    destruct (Ds i) as [S|S].
    - left. exists i. split; [lia|]. split; [exact S|]. intros m Hm. lia.
    - destruct (De i) as [E|E].
      + right. intros (x & Hx & Sx & Nx). assert (x = i \/ x < i)%nat as [->|L] by lia; [contradiction|]. apply (Nx i); [lia|exact E].
      + destruct IH as [(x & Hx & Sx & Nx)|IH].
        * left. exists x. split; [lia|]. split; [exact Sx|]. intros m Hm. assert (m = i \/ m < i)%nat as [->|L] by lia; [exact E|]. apply Nx. lia.
        * right. intros (x & Hx & Sx & Nx). assert (x = i \/ x < i)%nat as [->|L] by lia; [contradiction|]. apply IH. exists x. split; [lia|]. split; [exact Sx|].
          intros m Hm. apply Nx. lia. }
  destruct D as [(i' & Hi' & S' & N')|D].
  - apply (IH i' Hi'); [lia|exact S'|]. intros m Hm. assert (m < i \/ m = i \/ i < m)%nat as [L|[->|L]] by lia.
    + apply N'. lia.
    + eapply start_not_end. exact S.
    + apply N. lia.
  - exists i. split; [lia|]. auto.
Qed.

Lemma opens_down : forall bs ch k n i, opens bs n ch k i -> down_before bs ch k n.
Proof. intros bs ch k n i (H1 & H2 & H3 & H4). exists i. auto. Qed.

Lemma sounds_opens : forall bs ch k i n, sounds bs ch k i n <-> opens bs n ch k i /\ ends_at bs ch k n.
Proof. intros bs ch k i n. unfold sounds, opens. tauto. Qed.

Lemma opens_step : forall bs n ch k i, opens bs (S n) ch k i <->
  (opens bs n ch k i /\ ~ ends_at bs ch k n) \/ (i = n /\ starts_at bs ch k n /\ ~ down_before bs ch k n).
Proof.
  intros bs n ch k i. unfold opens. split.
  - intros (H1 & H2 & H3 & H4). assert (i = n \/ i < n)%nat as [->|L] by lia; [right; auto|]. left. split; [|apply H4; lia]. repeat split; auto. intros m Hm. apply H4. lia.
  - intros [[(H1 & H2 & H3 & H4) H5]|(-> & H2 & H3)].
    + split; [lia|]. split; [exact H2|]. split; [exact H3|]. intros m Hm. assert (m = n \/ m < n)%nat as [->|L] by lia; [exact H5|]. apply H4. lia.
    + split; [lia|]. split; [exact H2|]. split; [exact H3|]. intros m Hm. lia.
Qed.

(** ** The loop *)

Definition ev0 : nevent := NEvent 0 0 0 EndOfTrack false.

Definition tracked := list ((Z * Z) * nat).

(** The pending map, by positions in the whole list. *)
Definition pend (es : list nevent) (q : tracked) : pending := map (fun x => (fst x, nth (snd x) es ev0)) q.

Definition good (bs : list body) (n : nat) (q : tracked) : Prop :=
  NoDup (map fst q) /\ NoDup (map snd q) /\ forall ch k i, In ((ch, k), i) q <-> opens bs n ch k i.

Lemma key_eqb_spec : forall a b, key_eqb a b = true <-> a = b.
Proof. intros [a b] [c d]. unfold key_eqb. cbn [fst snd]. rewrite andb_true_iff, !Z.eqb_eq. split; [intros [-> ->]; reflexivity|]. intro E. injection E as -> ->. auto. Qed.

Lemma find_pend : forall es q k, NoDup (map fst q) ->
  (exists i, In (k, i) q /\ find_key k (pend es q) = Some (nth i es ev0)) \/ ((forall i, ~ In (k, i) q) /\ find_key k (pend es q) = None).
Proof.
  intros es q k. induction q as [|[k' i] q IH]; intro N; [right; split; [intros i []|reflexivity]|]. cbn [map fst] in N. inversion N as [|? ? N1 N2]; subst.
  cbn [pend map fst snd find_key]. destruct (key_eqb k k') eqn:E.
  - apply key_eqb_spec in E. subst k'. left. exists i. split; [left; reflexivity|reflexivity].
  - destruct (IH N2) as [(j & J1 & J2)|[J1 J2]].
    + left. exists j. split; [right; exact J1|exact J2].
    + right. split; [|exact J2]. intros j [H|H]; [|eapply J1; exact H]. injection H as -> ->. rewrite (proj2 (key_eqb_spec k k) eq_refl) in E. discriminate.
Qed.

Lemma drop_pend : forall es q k, drop_key k (pend es q) = pend es (filter (fun x => negb (key_eqb k (fst x))) q).
Proof.
  intros es q k. unfold drop_key, pend. induction q as [|x q IH]; [reflexivity|]. cbn [map filter fst]. destruct (negb (key_eqb k (fst x))); cbn [map]; rewrite IH; reflexivity.
Qed.

Lemma filter_nodup : forall A B (g : A -> B) f (l : list A), NoDup (map g l) -> NoDup (map g (filter f l)).
Proof.
  intros A B g f l. induction l as [|x l IH]; intro N; [constructor|]. cbn [map] in N. inversion N as [|? ? N1 N2]; subst. cbn [filter]. destruct (f x); [|auto].
  cbn [map]. constructor; [|auto]. intro H. apply N1. apply in_map_iff in H as (y & E & I). apply filter_In in I as [I _]. rewrite <- E. apply in_map. exact I.
Qed.

Definition out_ok (env : env) (steps : Z) (es : list nevent) (p : nat * nat) (o : note_out) : Prop :=
  exists a b, nth_error es (fst p) = Some a /\ nth_error es (snd p) = Some b /\ lists env steps a b o.

Lemma note_transpose_limited : forall v steps, 0 <= v < 256 -> reasonable steps -> note_transpose v steps = Z.max 0 (Z.min 255 (v + steps)).
Proof.
  intros v steps Hv Hs. unfold note_transpose, reasonable in *. rewrite wrap64_id by lia.
  destruct (Z.ltb_spec (v + steps) 0); [lia|]. destruct (Z.ltb_spec 255 (v + steps)); lia.
Qed.


Lemma finished_ok : forall env steps es i j, notes_in_range es -> reasonable steps -> (i < j)%nat -> (j < length es)%nat ->
  (exists ch k, starts_at (map ne_body es) ch k i) -> out_ok env steps es (i, j) (finished env steps (nth i es ev0) (nth j es ev0)).
Proof.
  intros env steps es i j R Hs Hij Hj (ch & k & b & E & S). rewrite nth_error_map in E. destruct (nth_error es i) as [a|] eqn:A; [|discriminate].
  cbn [option_map] in E. injection E as <-. exists a, (nth j es ev0). cbn [fst snd]. split; [exact A|]. split; [apply nth_error_nth'; exact Hj|].
  rewrite (nth_error_nth es i ev0 A). unfold finished, starts_key in *. unfold notes_in_range in R. rewrite Forall_forall in R. specialize (R a (nth_error_In _ _ A)).
  destruct (ne_body a) as [|c n v| | | | | | | | | | | | | | | | | |] eqn:B; try contradiction.
  unfold lists. exists c, n, v. rewrite B. cbn [o_ch o_vel o_note o_name o_start_tick o_end_tick o_start o_end].
  repeat (split; [reflexivity|]). split; [apply note_transpose_limited; [lia|assumption]|]. split; [apply format_note_name|]. auto.
Qed.

Lemma finish_all_positions : forall env steps order es q e, (forall l, Permutation l (order l)) ->
  Forall (fun x : (Z * Z) * nat => In (fst (fst x)) channels16) q ->
  exists I, Permutation I (map snd q) /\ finish_all env steps order (pend es q) e = map (fun i => finished env steps (nth i es ev0) e) I.
Proof.
  intros env steps order es q e Ho F. unfold finish_all.
  assert (G : forall cs, exists I, Permutation I (flat_map (fun c => map snd (filter (fun x => fst (fst x) =? c) q)) cs) /\
    flat_map (fun ch => map (fun on => finished env steps on e) (order (map snd (filter (fun x => fst (fst x) =? ch) (pend es q))))) cs =
    map (fun i => finished env steps (nth i es ev0) e) I).
  { induction cs as [|c cs (I & P & E)]; [exists []; split; reflexivity|]. cbn [flat_map]. rewrite E.
    assert (X : map snd (filter (fun x => fst (fst x) =? c) (pend es q)) = map (fun i => nth i es ev0) (map snd (filter (fun x => fst (fst x) =? c) q))).
    { clear. unfold pend. induction q as [|x q IH]; [reflexivity|]. cbn [map filter fst]. destruct (_ =? c); cbn [map snd]; rewrite IH; reflexivity. }
    rewrite X. pose proof (Ho (map (fun i => nth i es ev0) (map snd (filter (fun x => fst (fst x) =? c) q)))) as Hp.
    apply Permutation_sym in Hp. apply Permutation_map_inv in Hp as (J & EJ & PJ). exists (J ++ I). split.
    - apply Permutation_app; [apply Permutation_sym; exact PJ|exact P].
    - rewrite map_app, EJ, map_map. reflexivity. }
  destruct (G channels16) as (I & P & E). exists I. split; [|exact E]. rewrite P. rewrite flat_map_map. apply Permutation_map.
  apply filter_partition; [|exact F]. unfold channels16. repeat (constructor; [cbn [In]; lia|]). constructor.
Qed.

Definition later (n : nat) (ps : list (nat * nat)) : Prop := Forall (fun p => (n <= snd p)%nat) ps.

Lemma note_list_pairs : forall env steps order es, (forall l, Permutation l (order l)) -> notes_in_range es -> reasonable steps ->
  forall suf pre q, es = pre ++ suf -> good (map ne_body es) (length pre) q ->
  exists notes ps, note_list env steps order (pend es q) suf = Ok notes /\ Forall2 (out_ok env steps es) ps notes /\ NoDup ps /\
    (forall i j, In (i, j) ps <-> (length pre <= j)%nat /\ exists ch k, sounds (map ne_body es) ch k i j).
Proof.
  intros env steps order es Ho R Hs. set (bs := map ne_body es). induction suf as [|e suf IH]; intros pre q E G.
  - exists [], []. split; [reflexivity|]. split; [constructor|]. split; [constructor|]. intros i j. split; [intros []|].
    intros [L (ch & k & S)]. destruct S as (_ & _ & _ & (b & B & _) & _). exfalso. assert (j < length bs)%nat by (apply nth_error_Some; congruence).
    unfold bs in *. rewrite map_length, E, app_nil_r in *. lia.
  - set (n := length pre) in *.
    assert (He : nth_error es n = Some e) by (rewrite E; unfold n; rewrite nth_error_app2 by lia; rewrite Nat.sub_diag; reflexivity).
    assert (Hb : nth_error bs n = Some (ne_body e)) by (unfold bs; rewrite nth_error_map, He; reflexivity).
    assert (Hn : (n < length es)%nat) by (apply nth_error_Some; congruence).
    assert (E' : es = (pre ++ [e]) ++ suf) by (rewrite <- app_assoc; exact E).
    assert (Hl : length (pre ++ [e]) = S n) by (rewrite app_length; cbn [length]; lia).
    destruct G as (G1 & G2 & G3).
    assert (Re : match ne_body e with NoteOn ch nt _ => 0 <= ch < 16 /\ 0 <= n_value nt < 256 | NoteOff ch nt _ => 0 <= ch < 16 /\ 0 <= n_value nt < 256 | _ => True end).
    { unfold notes_in_range in R. rewrite Forall_forall in R. apply R. eapply nth_error_In. exact He. }
    assert (SA : forall ch k, starts_at bs ch k n <-> starts_key (ne_body e) ch k).
    { intros ch k. unfold starts_at. split; [intros (b & B1 & B2); congruence|]. eauto. }
    assert (EA : forall ch k, ends_at bs ch k n <-> ends_key (ne_body e) ch k).
    { intros ch k. unfold ends_at. split; [intros (b & B1 & B2); congruence|]. eauto. }
    (* the continuation for a new state [q'] and pairs [outs] ending here *)
    assert (K : forall q' (I : list nat) out,
      NoDup (map fst q') -> NoDup (map snd q') ->
      (forall ch k i, In ((ch, k), i) q' <-> (In ((ch, k), i) q /\ ~ ends_key (ne_body e) ch k) \/ (i = n /\ starts_key (ne_body e) ch k /\ ~ down_before bs ch k n)) ->
      NoDup I -> (forall i, In i I <-> exists ch k, In ((ch, k), i) q /\ ends_key (ne_body e) ch k) ->
      out = map (fun i => finished env steps (nth i es ev0) e) I ->
      exists notes' ps, note_list env steps order (pend es q') suf = Ok notes' /\ Forall2 (out_ok env steps es) ps (out ++ notes') /\ NoDup ps /\
       (forall i j, In (i, j) ps <-> (n <= j)%nat /\ exists ch k, sounds bs ch k i j)).
    { intros q' I out N1 N2 H1 NI H2 ->. specialize (IH (pre ++ [e]) q' E'). rewrite Hl in IH. destruct IH as (notes' & ps & L1 & L2 & L3 & L4).
      { split; [exact N1|]. split; [exact N2|]. intros ch k i. rewrite H1, opens_step, G3, EA, SA. reflexivity. }
      exists notes', (map (fun i => (i, n)) I ++ ps). split; [exact L1|]. split; [|split].
      - apply Forall2_app; [|exact L2]. assert (HI : forall i, In i I -> out_ok env steps es (i, n) (finished env steps (nth i es ev0) e)).
        { intros i Hi. apply H2 in Hi as (ch & k & Hq & _). apply G3 in Hq as (O1 & O2 & _). rewrite <- (nth_error_nth es n ev0 He). apply finished_ok; auto. eauto. }
        clear - HI. induction I as [|i I IH]; [constructor|]. cbn [map]. constructor; [apply HI; left; reflexivity|]. apply IH. intros j Hj. apply HI. right. exact Hj.
      - apply NoDup_app_intro.
        + clear - NI. induction NI as [|i I Hi NI IH]; [constructor|]. cbn [map]. constructor; [|exact IH]. intro H. apply in_map_iff in H as (y & Ey & Hy). injection Ey as ->. contradiction.
        + exact L3.
        + intros [i j] A B. apply in_map_iff in A as (y & Ey & _). injection Ey as -> <-. apply L4 in B as [B _]. lia.
      - intros i j. rewrite in_app_iff, L4. split.
        + intros [A|[A B]]; [|split; [lia|exact B]]. apply in_map_iff in A as (y & Ey & Hy). injection Ey as -> <-. split; [lia|].
          apply H2 in Hy as (ch & k & Hq & He'). exists ch, k. apply sounds_opens. split; [apply G3; exact Hq|apply EA; exact He'].
        + intros [A (ch & k & B)]. assert (j = n \/ S n <= j)%nat as [->|L] by lia; [left|right; split; [exact L|eauto]].
          apply in_map_iff. exists i. split; [reflexivity|]. apply sounds_opens in B as [B1 B2]. apply H2. exists ch, k. split; [apply G3; exact B1|apply EA; exact B2]. }
    assert (Same : forall ch k, ~ starts_key (ne_body e) ch k -> ~ ends_key (ne_body e) ch k -> True) by auto.
    (* an event that ends one key *)
    assert (One : forall ch0 k0, (forall ch k, ends_key (ne_body e) ch k <-> ch = ch0 /\ k = k0) -> (forall ch k, ~ starts_key (ne_body e) ch k) ->
      exists notes ps, (let (out, p') := finish env steps (pend es q) (ch0, k0) e in do ns <- note_list env steps order p' suf; Ok (out ++ ns)) = Ok notes /\
       Forall2 (out_ok env steps es) ps notes /\ NoDup ps /\ (forall i j, In (i, j) ps <-> (n <= j)%nat /\ exists ch k, sounds bs ch k i j)).
    { intros ch0 k0 He0 Hs0. unfold finish. destruct (find_pend es q (ch0, k0) G1) as [(i & I1 & ->)|[I1 ->]].
      - rewrite drop_pend.
        destruct (K (filter (fun x => negb (key_eqb (ch0, k0) (fst x))) q) [i] [finished env steps (nth i es ev0) e]) as (notes' & ps & A1 & A2 & A3 & A4).
        + apply filter_nodup. exact G1.
        + apply filter_nodup. exact G2.
        + intros ch k j. rewrite filter_In. cbn [fst]. rewrite He0. split.
          * intros [A B]. left. split; [exact A|]. intros [-> ->]. rewrite (proj2 (key_eqb_spec (ch0, k0) (ch0, k0)) eq_refl) in B. discriminate.
          * intros [[A B]|(_ & A & _)]; [|exfalso; eapply Hs0; exact A]. split; [exact A|]. destruct (key_eqb (ch0, k0) (ch, k)) eqn:Ek; [|reflexivity].
            apply key_eqb_spec in Ek. injection Ek as -> ->. exfalso. apply B. auto.
        + constructor; [intros []|constructor].
        + intro j. split.
          * intros [<-|[]]. exists ch0, k0. split; [exact I1|]. apply He0. auto.
          * intros (ch & k & A & B). apply He0 in B as [-> ->]. left.
            clear - G1 I1 A. induction q as [|[k' x] q' IHq]; [destruct A|]. cbn [map fst] in G1. inversion G1 as [|? ? N1 N2]; subst.
            destruct I1 as [I1|I1], A as [A|A]; try congruence; auto.
            -- exfalso. injection I1 as -> ->. apply N1. change (ch0, k0) with (fst ((ch0, k0), j)). apply in_map. exact A.
            -- exfalso. injection A as -> ->. apply N1. change (ch0, k0) with (fst ((ch0, k0), i)). apply in_map. exact I1.
        + reflexivity.
        + rewrite A1. cbn [bind]. eexists. exists ps. split; [reflexivity|]. auto.
      - destruct (K q [] []) as (notes' & ps & A1 & A2 & A3 & A4).
        + exact G1.
        + exact G2.
        + intros ch k j. rewrite He0. split; [intro A; left; split; [exact A|]; intros [-> ->]; eapply I1; exact A|].
          intros [[A _]|(_ & A & _)]; [exact A|]. exfalso. eapply Hs0. exact A.
        + constructor.
        + intro j. split; [intros []|]. intros (ch & k & A & B). apply He0 in B as [-> ->]. exfalso. eapply I1. exact A.
        + reflexivity.
        + rewrite A1. cbn [bind]. eexists. exists ps. split; [reflexivity|]. auto. }
    (* an event that neither starts nor ends anything *)
    assert (None_ : (forall ch k, ~ ends_key (ne_body e) ch k) -> (forall ch k, starts_key (ne_body e) ch k -> down_before bs ch k n) ->
      exists notes ps, note_list env steps order (pend es q) suf = Ok notes /\
       Forall2 (out_ok env steps es) ps notes /\ NoDup ps /\ (forall i j, In (i, j) ps <-> (n <= j)%nat /\ exists ch k, sounds bs ch k i j)).
    { intros He0 Hs0. destruct (K q [] []) as (notes' & ps & A1 & A2 & A3 & A4).
      - exact G1.
      - exact G2.
      - intros ch k j. split; [intro A; left; split; [exact A|apply He0]|]. intros [[A _]|(_ & A & B)]; [exact A|]. exfalso. apply B. apply Hs0. exact A.
      - constructor.
      - intro j. split; [intros []|]. intros (ch & k & _ & B). exfalso. eapply He0. exact B.
      - reflexivity.
      - exists notes', ps. auto. }
    cbn [note_list]. destruct (ne_body e) as [ch nt v|ch nt v| | | | | | | | | | | | | | | | | |] eqn:B;
      try (apply None_; [intros ? ? []|intros ? ? []]; fail).
    + apply One; [|intros ? ? []]. intros c k. cbn [ends_key]. intuition congruence.
    + destruct (Z.ltb_spec 0 v) as [Hv|Hv].
      * destruct (find_pend es q (ch, n_value nt) G1) as [(i & I1 & ->)|[I1 ->]].
        -- apply None_; [intros c k; cbn [ends_key]; lia|]. intros c k. cbn [starts_key]. intros (-> & <- & _). eapply opens_down. apply G3. exact I1.
        -- replace (ch <? 16) with true by lia.
           assert (ND : ~ down_before bs ch (n_value nt) n).
           { intro D. apply down_opens in D as [i D]. apply G3 in D. eapply I1. exact D. }
           assert (X : ((ch, n_value nt), e) :: pend es q = pend es (((ch, n_value nt), n) :: q)).
           { unfold pend. cbn [map fst snd]. rewrite (nth_error_nth es n ev0 He). reflexivity. }
           rewrite X. destruct (K (((ch, n_value nt), n) :: q) [] []) as (notes' & ps & A1 & A2 & A3 & A4).
           ++ cbn [map fst]. constructor; [|exact G1]. intro H. apply in_map_iff in H as ([k' i] & Ek & H). cbn [fst] in Ek. subst k'. eapply I1. exact H.
           ++ cbn [map snd]. constructor; [|exact G2]. intro H. apply in_map_iff in H as ([[c k] i] & Ek & H). cbn [snd] in Ek. subst i. apply G3 in H as [H _]. lia.
           ++ intros c k j. cbn [In starts_key ends_key]. split.
              ** intros [H|H]; [injection H as <- <- <-; right; repeat split; auto; lia|left; split; [exact H|lia]].
              ** intros [[H _]|(-> & (-> & <- & _) & _)]; auto.
           ++ constructor.
           ++ intro j. split; [intros []|]. intros (c & k & _ & Bk). cbn [ends_key] in Bk. lia.
           ++ reflexivity.
           ++ exists notes', ps. auto.
      * apply One; [|intros c k; cbn [starts_key]; lia]. intros c k. cbn [ends_key]. intuition (try congruence; lia).
    + (* EndOfTrack *)
      assert (F16 : Forall (fun x : (Z * Z) * nat => In (fst (fst x)) channels16) q).
      { apply Forall_forall. intros [[c k] i] H. cbn [fst]. apply G3 in H as (_ & (b & Bb & Sb) & _). unfold bs in Bb. rewrite nth_error_map in Bb.
        destruct (nth_error es i) as [a|] eqn:Ea; [|discriminate]. cbn [option_map] in Bb. injection Bb as <-.
        unfold notes_in_range in R. rewrite Forall_forall in R. specialize (R a (nth_error_In _ _ Ea)). unfold starts_key in Sb. destruct (ne_body a); try contradiction.
        unfold channels16. cbn [In]. lia. }
      assert (X : filter (fun x : Z * Z * nevent => negb (existsb (Z.eqb (fst (fst x))) channels16)) (pend es q) = pend es []).
      { clear - F16. unfold pend. induction F16 as [|x q Hx F IH]; [reflexivity|]. cbn [map filter fst].
        assert (Y : existsb (Z.eqb (fst (fst x))) channels16 = true) by (apply existsb_exists; exists (fst (fst x)); split; [exact Hx|apply Z.eqb_refl]).
        rewrite Y. exact IH. }
      destruct (finish_all_positions env steps order es q e Ho F16) as (J & PJ & EJ). rewrite X.
      destruct (K [] J (finish_all env steps order (pend es q) e)) as (notes' & ps & A1 & A2 & A3 & A4).
      * constructor.
      * constructor.
      * intros c k i. cbn [ends_key starts_key]. split; [intros []|]. intros [[_ H]|(_ & [] & _)]. exfalso. apply H. exact I.
      * eapply Permutation_NoDup; [apply Permutation_sym; exact PJ|exact G2].
      * intro i. split.
        -- intro Hi. apply (Permutation_in _ PJ) in Hi. apply in_map_iff in Hi as ([[c k] x] & Ex & Hx). cbn [snd] in Ex. subst x. exists c, k. split; [exact Hx|exact I].
        -- intros (c & k & Hq & _). apply (Permutation_in _ (Permutation_sym PJ)). change i with (snd ((c, k), i)). apply in_map. exact Hq.
      * exact EJ.
      * rewrite A1. cbn [bind]. eexists. exists ps. split; [reflexivity|]. auto.
Qed.

Theorem notes_paired : forall env steps order es, (forall l, Permutation l (order l)) -> notes_in_range es -> reasonable steps ->
  exists notes ps, note_list env steps order [] es = Ok notes /\ Forall2 (out_ok env steps es) ps notes /\ NoDup ps /\
    (forall i j, In (i, j) ps <-> exists ch k, sounds (map ne_body es) ch k i j).
Proof.
  intros env steps order es Ho R Hs. destruct (note_list_pairs env steps order es Ho R Hs es [] []) as (notes & ps & A1 & A2 & A3 & A4).
  - reflexivity.
  - split; [constructor|]. split; [constructor|]. intros ch k i. split; [intros []|]. intros (H & _). cbn [length] in H. lia.
  - exists notes, ps. split; [exact A1|]. split; [exact A2|]. split; [exact A3|]. intros i j. rewrite A4. cbn [length]. split; [intros [_ H]; exact H|]. intro H. split; [lia|exact H].
Qed.
