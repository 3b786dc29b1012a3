(** * ValidateTextProofs: the report says what is found, in order. *)
From Coq Require Import Sorted.
From Verif Require Import Base Strings Tables Event Track File Validate SpecDecimal SpecTable SpecValidate DecimalProofs ValidateProofs SameReportsProofs
  NotesPrintProofs NotesLevelProofs SpecNotesLog SpecValidate ValidateText SpecValidateText.

(** Which error stands for which fact. *)
Definition tallies (tracks : list mtrk) (x : nat * fact) (v : verror) : Prop :=
  match v with
  | VTrackCount n => exists m, x = (O, Count m) /\ n = Z.of_nat m
  | VTrack0Unexpected e => exists i t, x = (i, Stray 0 (kind_title (e_body e))) /\ nth_error tracks 0 = Some t /\ nth_error (t_events t) i = Some e
  | VTrackUnexpected n e => exists i k t, x = (i, Stray (S k) (kind_title (e_body e))) /\ n = Z.of_nat (S k) /\ nth_error tracks (S k) = Some t /\ nth_error (t_events t) i = Some e
  | VEotNotLast n p e => exists i k, x = (i, EarlyEnd k (S i)) /\ n = Z.of_nat k /\ p = Z.of_nat (S i) /\ e_body e = EndOfTrack
  | VEotMissing n => exists k t, x = (length (t_events t), NoEnd k) /\ n = Z.of_nat k /\ nth_error tracks k = Some t
  | VMsbMissingLsb n p => exists i k, x = (i, Bank k (S i) Msb Alone) /\ n = Z.of_nat k /\ p = Z.of_nat (S i)
  | VLsbMissingMsb n p => exists i k, x = (i, Bank k (S i) Lsb Alone) /\ n = Z.of_nat k /\ p = Z.of_nat (S i)
  | VMsbOtherChannel n p => exists i k, x = (i, Bank k (S i) Msb Apart) /\ n = Z.of_nat k /\ p = Z.of_nat (S i)
  | VLsbOtherChannel n p => exists i k, x = (i, Bank k (S i) Lsb Apart) /\ n = Z.of_nat k /\ p = Z.of_nat (S i)
  end.

Lemma sorted_join : forall A (R : A -> A -> Prop) a b, StronglySorted R a -> StronglySorted R b -> (forall x y, In x a -> In y b -> R x y) -> StronglySorted R (a ++ b).
Proof.
  intros A R a b Ha Hb H. induction Ha as [|x a Ha IH F]; [exact Hb|]. cbn [app]. constructor.
  - apply IH. intros y z Hy Hz. apply H; [right; exact Hy|exact Hz].
  - apply Forall_app. split; [exact F|]. apply Forall_forall. intros z Hz. apply H; [left; reflexivity|exact Hz].
Qed.

Lemma f2_impl : forall A B (P Q : A -> B -> Prop) l m, (forall x y, P x y -> Q x y) -> Forall2 P l m -> Forall2 Q l m.
Proof. intros A B P Q l m H F. induction F; constructor; auto. Qed.

(** Facts of one section and track, from event [lo] on. *)
Definition within (sec k lo : nat) (x : nat * fact) : Prop := section (snd x) = sec /\ track_in (snd x) = k /\ (lo <= fst x)%nat.

Lemma within_weaken : forall sec k lo lo' xs, (lo' <= lo)%nat -> Forall (within sec k lo) xs -> Forall (within sec k lo') xs.
Proof. intros sec k lo lo' xs H F. eapply Forall_impl; [|exact F]. intros x (A & B & C). repeat split; try assumption. lia. Qed.

Lemma cons_sorted : forall sec k lo x xs, section (snd x) = sec -> track_in (snd x) = k -> (fst x < lo)%nat -> Forall (within sec k lo) xs -> StronglySorted before xs -> StronglySorted before (x :: xs).
Proof.
  intros sec k lo x xs S1 T1 L F H. constructor; [exact H|]. eapply Forall_impl; [|exact F]. intros y (S2 & T2 & L2). unfold before. right. split; [congruence|]. right. split; [congruence|lia].
Qed.

(** ** Events that do not belong *)

Lemma strays : forall (p : event -> bool) k es j, exists xs,
  Forall2 (fun x e => exists i, x = (j + i, Stray k (kind_title (e_body e)))%nat /\ nth_error es i = Some e) xs (filter p es) /\
  StronglySorted before xs /\ Forall (within 0 k j) xs /\
  forall i e, nth_error es i = Some e -> p e = true -> In (j + i, Stray k (kind_title (e_body e)))%nat xs.
Proof.
  intros p k es. induction es as [|e es IH]; intro j.
  { exists []. repeat split; try constructor. intros [|i] e H; discriminate. }
  destruct (IH (S j)) as (xs & F & O & W & C).
  assert (F' : Forall2 (fun x e0 => exists i, x = (j + i, Stray k (kind_title (e_body e0)))%nat /\ nth_error (e :: es) i = Some e0) xs (filter p es)).
  { eapply f2_impl; [|exact F]. intros x e0 (i & -> & H). exists (S i). split; [f_equal; lia|exact H]. }
  cbn [filter]. destruct (p e) eqn:P.
  - exists ((j, Stray k (kind_title (e_body e))) :: xs). repeat split.
    + constructor; [|exact F']. exists 0%nat. split; [f_equal; lia|reflexivity].
    + apply (cons_sorted 0 k (S j)); try reflexivity; try assumption. cbn [fst]. lia.
    + constructor; [repeat split; cbn [fst]; lia|]. apply (within_weaken 0 k (S j)); [lia|exact W].
    + intros [|i] e0 H P0; [injection H as <-; left; f_equal; lia|]. right. replace (j + S i)%nat with (S j + i)%nat by lia. apply C; assumption.
  - exists xs. repeat split; [exact F'|exact O|apply (within_weaken 0 k (S j)); [lia|exact W]|].
    intros [|i] e0 H P0; [injection H as <-; congruence|]. replace (j + S i)%nat with (S j + i)%nat by lia. apply C; assumption.
Qed.

(** ** Ends *)

Lemma ends : forall tracks k n es j errs b, eot_scan (Z.of_nat k) n (Z.of_nat j) es = (errs, b) -> exists xs,
  Forall2 (tallies tracks) xs errs /\ StronglySorted before xs /\ Forall (within 1 k j) xs /\ Forall (fun x => (fst x < j + length es)%nat) xs.
Proof.
  intros tracks k n es. induction es as [|e es IH]; intros j errs b H; cbn [eot_scan] in H.
  { apply pair_equal_spec in H as [<- <-]. exists []. repeat split; constructor. }
  replace (Z.of_nat j + 1) with (Z.of_nat (S j)) in H by lia.
  destruct (eot_scan (Z.of_nat k) n (Z.of_nat (S j)) es) as [errs' b'] eqn:E. destruct (IH _ _ _ E) as (xs & F & O & W & L).
  assert (L' : Forall (fun x : nat * fact => (fst x < j + length (e :: es))%nat) xs) by (eapply Forall_impl; [|exact L]; cbn [length]; intros; lia).
  pose proof (within_weaken 1 k (S j) j xs ltac:(lia) W) as W'.
  destruct (is_eot e) eqn:T; [|apply pair_equal_spec in H as [<- <-]; exists xs; auto].
  apply pair_equal_spec in H as [<- <-]. destruct (Z.of_nat (S j) =? n) eqn:N; cbn [app]; [exists xs; auto|].
  exists ((j, EarlyEnd k (S j)) :: xs). repeat split.
  - constructor; [|exact F]. exists j, k. repeat split. apply eot_event. exact T.
  - apply (cons_sorted 1 k (S j)); try reflexivity; try assumption. cbn [fst]. lia.
  - constructor; [repeat split; cbn [fst]; lia|exact W'].
  - constructor; [cbn [fst length]; lia|exact L'].
Qed.

Lemma track_ends : forall tracks k t, nth_error tracks k = Some t -> t_number t = Z.of_nat k -> exists xs,
  Forall2 (tallies tracks) xs (validate_eot t) /\ StronglySorted before xs /\ Forall (within 1 k 0) xs.
Proof.
  intros tracks k t H N. unfold validate_eot. rewrite N. destruct (eot_scan _ _ 0 _) as [errs b] eqn:E. apply (ends tracks k _ _ O) in E as (xs & F & O & W & L).
  destruct b; [exists xs; rewrite app_nil_r; auto|]. exists (xs ++ [(length (t_events t), NoEnd k)]). repeat split.
  - apply Forall2_app; [exact F|]. constructor; [|constructor]. exists k, t. auto.
  - apply sorted_join; [exact O|repeat constructor|]. intros x y Hx [<-|[]]. rewrite Forall_forall in W, L. destruct (W x Hx) as (S1 & T1 & _). specialize (L x Hx).
    unfold before. right. split; [exact S1|]. right. split; [exact T1|]. cbn [fst]. lia.
  - apply Forall_app. split; [exact W|]. constructor; [repeat split; cbn [fst]; lia|constructor].
Qed.

(** ** Bank selects *)

Lemma check_cases : forall track i c0 c1,
  bank_check track i c0 c1 = [] \/
  (exists ch, msb_of c0 = Some ch) /\ bank_check track i c0 c1 = [VMsbMissingLsb track i] \/
  (exists ch, lsb_of c1 = Some ch) /\ bank_check track i c0 c1 = [VLsbMissingMsb track (i + 1)] \/
  (exists ch, msb_of c0 = Some ch) /\ (exists ch, lsb_of c1 = Some ch) /\ bank_check track i c0 c1 = [VMsbOtherChannel track i; VLsbOtherChannel track (i + 1)].
Proof.
  intros track i c0 c1. rewrite bank_check_eq. destruct (msb_of c0) as [a|], (lsb_of c1) as [b|]; eauto 8.
  destruct (a =? b); eauto 10.
Qed.

Lemma banks : forall tracks k es j last, (j = O -> last = None) -> exists xs,
  Forall2 (tallies tracks) xs (bank_scan (Z.of_nat k) (Z.of_nat j) last es) /\ StronglySorted before xs /\
  Forall (within 2 k (pred j)) xs /\ ((forall ch, msb_of last <> Some ch) -> Forall (within 2 k j) xs).
Proof.
  intros tracks k es. induction es as [|e es IH]; intros j last Hj; cbn [bank_scan].
  { exists []. repeat split; constructor. }
  replace (Z.of_nat j + 1) with (Z.of_nat (S j)) by lia. set (c := as_controller (e_body e)).
  destruct (IH (S j) c ltac:(lia)) as (xs & F & O & W & W2). cbn [pred] in W.
  assert (ML : forall ch, lsb_of c = Some ch -> Forall (within 2 k (S j)) xs).
  { intros ch L. apply W2. intros ch' M. unfold lsb_of, msb_of in *. destruct c as [[x y]|]; [|discriminate]. destruct (Z.eqb_spec y 32); [|discriminate]. destruct (Z.eqb_spec y 0); [lia|discriminate]. }
  assert (J : forall ch, msb_of last = Some ch -> exists i, j = S i).
  { intros ch M. destruct j; [rewrite Hj in M by reflexivity; discriminate|eauto]. }
  pose proof (within_weaken 2 k j (pred j) xs ltac:(lia) W) as Wp.
  destruct (check_cases (Z.of_nat k) (Z.of_nat j) last c) as [->|[((ch & M) & ->)|[((ch & L) & ->)|((ch & M) & (ch' & L) & ->)]]]; cbn [app].
  - exists xs. repeat split; auto.
  - destruct (J _ M) as (i & ->). cbn [pred] in *. exists ((i, Bank k (S i) Msb Alone) :: xs). repeat split.
    + constructor; [exists i, k; repeat split|exact F].
    + apply (cons_sorted 2 k (S i)); try reflexivity; try assumption. cbn [fst]. lia.
    + constructor; [repeat split; cbn [fst]; lia|exact Wp].
    + intro X. exfalso. exact (X _ M).
  - exists ((j, Bank k (S j) Lsb Alone) :: xs). repeat split.
    + constructor; [exists j, k; repeat split; lia|exact F].
    + apply (cons_sorted 2 k (S j)); try reflexivity; try assumption; [cbn [fst]; lia|]. exact (ML _ L).
    + constructor; [repeat split; cbn [fst]; lia|exact Wp].
    + intros _. constructor; [repeat split; cbn [fst]; lia|exact W].
  - destruct (J _ M) as (i & ->). cbn [pred] in *. exists ((i, Bank k (S i) Msb Apart) :: (S i, Bank k (S (S i)) Lsb Apart) :: xs). repeat split.
    + constructor; [exists i, k; repeat split|]. constructor; [exists (S i), k; repeat split; lia|exact F].
    + apply (cons_sorted 2 k (S i)); try reflexivity; [cbn [fst]; lia| |].
      * constructor; [repeat split; cbn [fst]; lia|exact W].
      * apply (cons_sorted 2 k (S (S i))); try reflexivity; try assumption; [cbn [fst]; lia|]. exact (ML _ L).
    + constructor; [repeat split; cbn [fst]; lia|]. constructor; [repeat split; cbn [fst]; lia|exact Wp].
    + intro X. exfalso. exact (X _ M).
Qed.

(** ** Tracks *)

Lemma by_track : forall (T : nat * fact -> verror -> Prop) sec (f : mtrk -> list verror) (C : nat -> mtrk -> list (nat * fact) -> Prop) ts k,
  (forall j t, nth_error ts j = Some t -> exists xs, Forall2 T xs (f t) /\ StronglySorted before xs /\ Forall (within sec (k + j) 0) xs /\ C (k + j)%nat t xs) ->
  exists xs, Forall2 T xs (concat (map f ts)) /\ StronglySorted before xs /\ Forall (fun x => section (snd x) = sec /\ (k <= track_in (snd x))%nat) xs /\
    forall j t, nth_error ts j = Some t -> exists ys, incl ys xs /\ C (k + j)%nat t ys.
Proof.
  intros T sec f C ts. induction ts as [|t ts IH]; intros k H.
  { exists []. repeat split; try constructor. intros [|j] t H1; discriminate. }
  destruct (H O t eq_refl) as (xs & F & O & W & Cx). rewrite Nat.add_0_r in W, Cx.
  destruct (IH (S k)) as (ys & G & P & V & Cy).
  { intros j t' H1. replace (S k + j)%nat with (k + S j)%nat by lia. apply (H (S j)). exact H1. }
  exists (xs ++ ys). cbn [map concat]. repeat split.
  - apply Forall2_app; assumption.
  - apply sorted_join; [exact O|exact P|]. intros x y Hx Hy. rewrite Forall_forall in W, V. destruct (W x Hx) as (S1 & T1 & _). destruct (V y Hy) as (S2 & T2).
    unfold before. right. split; [congruence|]. left. lia.
  - apply Forall_app. split; [eapply Forall_impl; [|exact W]; intros x (A & B & _); split; [exact A|lia]|].
    eapply Forall_impl; [|exact V]. intros x (A & B). split; [exact A|lia].
  - intros [|j] t' H1.
    + injection H1 as <-. exists xs. rewrite Nat.add_0_r. split; [apply incl_appl, incl_refl|exact Cx].
    + destruct (Cy j t' H1) as (zs & I & Cz). exists zs. replace (k + S j)%nat with (S k + j)%nat by lia. split; [apply incl_appr; exact I|exact Cz].
Qed.

(** ** The whole list *)

Definition numbered (ts : list mtrk) : Prop := forall i t, nth_error ts i = Some t -> t_number t = Z.of_nat i.

Lemma format1_facts : forall s h e1, numbered (f_tracks s) -> (if h_format h =? 1 then validate_format1 s else Ok []) = Ok e1 -> exists xs,
  Forall2 (tallies (f_tracks s)) xs e1 /\ StronglySorted before xs /\ Forall (fun x => section (snd x) = 0%nat) xs /\
  forall i k kind, found h (f_tracks s) (i, Stray k kind) -> In (i, Stray k kind) xs.
Proof.
  intros s h e1 N E. destruct (Z.eqb_spec (h_format h) 1) as [F1|F1].
  2:{ apply Ok_inj in E. subst e1. exists []. repeat split; try constructor. intros i k kind (X & _). contradiction. }
  unfold validate_format1 in E. destruct (f_tracks s) as [|t0 ts] eqn:Ht; [discriminate|]. apply Ok_inj in E. subst e1.
  destruct (strays (fun e => negb (is_track0_event e)) 0 (t_events t0) 0) as (xs & F & O1 & W & C).
  destruct (by_track (tallies (t0 :: ts)) 0 (fun t => map (VTrackUnexpected (t_number t)) (filter (fun e => negb (is_track1_event e)) (t_events t)))
    (fun k t ys => forall i e, nth_error (t_events t) i = Some e -> is_track1_event e = false -> In (i, Stray k (kind_title (e_body e))) ys) ts 1) as (ys & G & P & V & D).
  { intros j t H. destruct (strays (fun e => negb (is_track1_event e)) (S j) (t_events t) 0) as (zs & F2 & O2 & W2 & C2). exists zs. repeat split; try assumption.
    - rewrite (N (S j) t H). clear - F2 H. induction F2 as [|x e zs es (i & -> & Hi) F2 IH]; [constructor|]. cbn [map]. constructor; [|exact IH].
      exists i, j, t. repeat split; assumption.
    - intros i e Hi X. apply (C2 i e Hi). rewrite X. reflexivity. }
  exists (xs ++ ys). repeat split.
  - apply Forall2_app; [|exact G]. clear - F. induction F as [|x e xs es (i & -> & Hi) F IH]; [constructor|]. cbn [map]. constructor; [|exact IH]. exists i, t0. repeat split. exact Hi.
  - apply sorted_join; [exact O1|exact P|]. intros x y Hx Hy. rewrite Forall_forall in W, V. destruct (W x Hx) as (S1 & T1 & _). destruct (V y Hy) as (S2 & T2).
    unfold before. right. split; [congruence|]. left. lia.
  - apply Forall_app. split; [eapply Forall_impl; [|exact W]; intros x (A & _); exact A|eapply Forall_impl; [|exact V]; intros x (A & _); exact A].
  - intros i k kind (_ & t & b & Ht1 & (e & He & <-) & -> & K). apply in_or_app. destruct k as [|k].
    + left. injection Ht1 as <-. destruct K as [(_ & K)|(K & _)]; [|contradiction]. apply (C i e He). rewrite <- track0_event in K. destruct (is_track0_event e); [exfalso; apply K|]; reflexivity.
    + right. destruct K as [(K & _)|(_ & K)]; [discriminate|]. destruct (D k t Ht1) as (zs & I & Cz). apply I. apply (Cz i e He). apply track1_event. exact K.
Qed.

Lemma facts : forall s h errs, f_mthd s = Some h -> numbered (f_tracks s) -> validate s = Ok errs -> exists xs,
  Forall2 (tallies (f_tracks s)) xs errs /\ StronglySorted before xs /\
  forall i k kind, found h (f_tracks s) (i, Stray k kind) -> In (i, Stray k kind) xs.
Proof.
  intros s h errs Hh N H. unfold validate in H. rewrite Hh in H.
  destruct (if h_format h =? 1 then validate_format1 s else Ok []) as [e1| | | |] eqn:E; try discriminate. cbn [bind] in H. apply Ok_inj in H. subst errs.
  destruct (format1_facts s h e1 N E) as (xs & F & O1 & W & C).
  destruct (by_track (tallies (f_tracks s)) 1 validate_eot (fun _ _ _ => True) (f_tracks s) 0) as (ys & G & P & V & _).
  { intros j t Hj. destruct (track_ends (f_tracks s) j t Hj (N j t Hj)) as (zs & A & B & D). exists zs. auto. }
  destruct (by_track (tallies (f_tracks s)) 2 (fun t => bank_scan (t_number t) 0 None (t_events t)) (fun _ _ _ => True) (f_tracks s) 0) as (zs & G2 & P2 & V2 & _).
  { intros j t Hj. rewrite (N j t Hj). destruct (banks (f_tracks s) j (t_events t) 0 None (fun _ => eq_refl)) as (us & A & B & D & _). exists us. auto. }
  assert (J : StronglySorted before (xs ++ ys ++ zs)).
  { rewrite Forall_forall in W, V, V2. apply sorted_join; [exact O1| |].
    - apply sorted_join; [exact P|exact P2|]. intros x y Hx Hy. destruct (V x Hx) as (A & _). destruct (V2 y Hy) as (B & _). left. lia.
    - intros x y Hx Hy. pose proof (W x Hx) as A. left. apply in_app_or in Hy as [Hy|Hy]; [destruct (V y Hy) as (B & _)|destruct (V2 y Hy) as (B & _)]; lia. }
  destruct (Z.eqb_spec (h_format h) 0) as [F0|F0].
  - assert (X : e1 = []) by (rewrite F0 in E; cbn in E; apply Ok_inj in E; auto). subst e1. inversion F; subst xs. cbn [app] in *.
    unfold validate_format0. destruct (Z.eqb_spec (zlen (f_tracks s)) 1) as [L|L]; cbn [app].
    + exists (ys ++ zs). repeat split; [apply Forall2_app; assumption|exact J|]. intros i k kind (X & _). lia.
    + exists ((0%nat, Count (length (f_tracks s))) :: ys ++ zs). repeat split.
      * constructor; [|apply Forall2_app; assumption]. exists (length (f_tracks s)). split; reflexivity.
      * constructor; [exact J|]. rewrite Forall_forall in V, V2. apply Forall_forall. intros y Hy. left. cbn [snd section].
        apply in_app_or in Hy as [Hy|Hy]; [destruct (V y Hy) as (B & _)|destruct (V2 y Hy) as (B & _)]; lia.
      * intros i k kind (X & _). lia.
  - cbn [app]. exists (xs ++ ys ++ zs). repeat split; [|exact J|].
    + apply Forall2_app; [exact F|]. apply Forall2_app; assumption.
    + intros i k kind X. apply in_or_app. left. apply C. exact X.
Qed.

(** ** What is listed is found, and conversely *)

Lemma f2_in_l : forall A B (P : A -> B -> Prop) l m x, Forall2 P l m -> In x l -> exists y, In y m /\ P x y.
Proof. intros A B P l m x F. induction F as [|a b l m H F IH]; intro I; [contradiction|]. destruct I as [->|I]; [exists b; split; [left; reflexivity|exact H]|]. destruct (IH I) as (y & J & K). exists y. split; [right; exact J|exact K]. Qed.
Lemma f2_in_r : forall A B (P : A -> B -> Prop) l m y, Forall2 P l m -> In y m -> exists x, In x l /\ P x y.
Proof. intros A B P l m y F. induction F as [|a b l m H F IH]; intro I; [contradiction|]. destruct I as [->|I]; [exists a; split; [left; reflexivity|exact H]|]. destruct (IH I) as (x & J & K). exists x. split; [right; exact J|exact K]. Qed.

Lemma same_track_at : forall ts k t t', numbered ts -> In t ts -> t_number t = Z.of_nat k -> nth_error ts k = Some t' -> t = t'.
Proof. intros ts k t t' N I E H. apply In_nth_error in I as (j & I). rewrite (N _ _ I) in E. apply Nat2Z.inj in E. subst j. congruence. Qed.

Lemma tally_track : forall ts t k, numbered ts -> In t ts -> t_number t = Z.of_nat k -> nth_error ts k = Some t.
Proof. intros ts t k N I E. apply In_nth_error in I as (j & I). rewrite (N _ _ I) in E. apply Nat2Z.inj in E. subst j. exact I. Qed.

Lemma tally_found : forall h ts x v, numbered ts -> tallies ts x v -> due h ts v -> found h ts x.
Proof.
  intros h ts x v N T D. destruct D as [F L|t e F H I M|k t e F H I M|t i e I H B L|t I M|t i ch I M L A|t i ch I M A|t i ch ch' I M L A|t i ch ch' I M L A]; cbn [tallies] in T.
  - destruct T as (m & -> & E). cbn [found]. unfold zlen in E. apply Nat2Z.inj in E. subst m. auto.
  - destruct T as (i & t' & -> & H1 & H2). cbn [found]. split; [exact F|]. exists t', (e_body e). repeat split; try assumption; [exists e; auto|]. left. auto.
  - destruct T as (i & k' & t' & -> & E & H1 & H2). cbn [found]. split; [exact F|]. exists t', (e_body e). repeat split; try assumption; [exists e; auto|]. right. split; [discriminate|exact M].
  - destruct T as (j & k & -> & E & P & _). cbn [found]. split; [reflexivity|]. assert (i = j) by lia. subst j. exists t. split; [apply tally_track; assumption|]. split; [exists e; auto|exact L].
  - destruct T as (k & t' & -> & E & H). cbn [found]. exists t'. split; [exact H|]. split; [reflexivity|]. rewrite <- (same_track_at ts k t t' N I E H). exact M.
  - destruct T as (j & k & -> & E & P). assert (i = j) by lia. subst j. cbn [found]. split; [reflexivity|]. exists t, ch. split; [apply tally_track; assumption|]. auto.
  - destruct T as (j & k & -> & E & P). assert (i = j) by lia. subst j. cbn [found]. split; [reflexivity|]. exists t, ch. split; [apply tally_track; assumption|]. auto.
  - destruct T as (j & k & -> & E & P). assert (i = j) by lia. subst j. cbn [found]. split; [reflexivity|]. exists t, ch, ch'. split; [apply tally_track; assumption|]. auto.
  - destruct T as (j & k & -> & E & P). assert (j = S i) by lia. subst j. cbn [found]. split; [reflexivity|]. exists t, ch, ch', i. split; [reflexivity|]. split; [apply tally_track; assumption|]. auto.
Qed.

Lemma found_tally : forall h ts x, numbered ts -> found h ts x -> (exists i k kind, x = (i, Stray k kind)) \/
  exists v, due h ts v /\ tallies ts x v /\ forall y, tallies ts y v -> y = x.
Proof.
  assert (U : forall (a b : nat), Z.of_nat a = Z.of_nat b -> a = b) by (intros a b; lia).
  intros h ts (i, f) N H. destruct f as [n|k kind|k p|k|k p hf tr]; cbn [found] in H; [right|left; eauto|right|right|right].
  - destruct H as (-> & F & -> & L). exists (VTrackCount (zlen ts)). split; [apply due_count; assumption|]. split; [exists (length ts); split; reflexivity|].
    intros y (m & -> & E). unfold zlen in E. apply U in E. subst m. reflexivity.
  - destruct H as (-> & t & Ht & (e & He & B) & L). exists (VEotNotLast (t_number t) (Z.of_nat i + 1) e). split; [apply due_not_last; auto; eapply nth_error_In; exact Ht|]. split.
    + exists i, k. repeat split; try assumption; [apply N; exact Ht|lia].
    + intros y (i' & k' & -> & E & P & _). rewrite (N _ _ Ht) in E. apply U in E. assert (i = i') by lia. subst. reflexivity.
  - destruct H as (t & Ht & -> & M). exists (VEotMissing (t_number t)). split; [apply due_missing; [eapply nth_error_In; exact Ht|exact M]|]. split.
    + exists k, t. repeat split; [apply N|]; exact Ht.
    + intros y (k' & t' & -> & E & H'). rewrite (N _ _ Ht) in E. apply U in E. subst k'. congruence.
  - destruct hf, tr.
    + destruct H as (-> & t & c & Ht & M & L & A). exists (VMsbMissingLsb (t_number t) (Z.of_nat i + 1)). split; [eapply due_msb; eauto; eapply nth_error_In; exact Ht|]. split.
      * exists i, k. repeat split; [apply N; exact Ht|lia].
      * intros y (i' & k' & -> & E & P). rewrite (N _ _ Ht) in E. apply U in E. assert (i = i') by lia. subst. reflexivity.
    + destruct H as (-> & t & c & c' & Ht & M & L & A). exists (VMsbOtherChannel (t_number t) (Z.of_nat i + 1)). split; [eapply due_msb_channel; eauto; eapply nth_error_In; exact Ht|]. split.
      * exists i, k. repeat split; [apply N; exact Ht|lia].
      * intros y (i' & k' & -> & E & P). rewrite (N _ _ Ht) in E. apply U in E. assert (i = i') by lia. subst. reflexivity.
    + destruct H as (-> & t & c & Ht & M & A). exists (VLsbMissingMsb (t_number t) (Z.of_nat i + 1)). split; [eapply due_lsb; eauto; eapply nth_error_In; exact Ht|]. split.
      * exists i, k. repeat split; [apply N; exact Ht|lia].
      * intros y (i' & k' & -> & E & P). rewrite (N _ _ Ht) in E. apply U in E. assert (i = i') by lia. subst. reflexivity.
    + destruct H as (-> & t & c & c' & j & -> & Ht & M & L & A). exists (VLsbOtherChannel (t_number t) (Z.of_nat j + 2)). split; [eapply due_lsb_channel; eauto; eapply nth_error_In; exact Ht|]. split.
      * exists (S j), k. repeat split; [apply N; exact Ht|lia].
      * intros y (i' & k' & -> & E & P). rewrite (N _ _ Ht) in E. apply U in E. assert (i' = S j) by lia. subst. reflexivity.
Qed.

(** ** The text *)

Lemma title_clean : forall b, clean b = kind_title b.
Proof. intros []; reflexivity. Qed.

Definition letterb (c : Z) : bool := (65 <=? c) && (c <=? 90) || (97 <=? c) && (c <=? 122).
Lemma letters_bool : forall s, forallb letterb s = true -> Forall letter s.
Proof. intros s H. apply Forall_forall. intros c Hc. rewrite forallb_forall in H. specialize (H c Hc). unfold letterb in H. unfold letter. lia. Qed.
Lemma title_letters : forall b, Forall letter (kind_title b).
Proof. intro b. apply letters_bool. destruct b; try reflexivity. destruct k; reflexivity. Qed.

Lemma tally_line : forall ts x v, tallies ts x v -> fact_line (snd x) (message v).
Proof.
  intros ts x v T. destruct v; cbn [tallies] in T; cbn [message].
  - destruct T as (m & -> & ->). exists (dec (Z.of_nat m)). split; [apply dec_decimal|reflexivity].
  - destruct T as (i & t & -> & _). cbn [snd]. exists (dec 0). split; [apply dec_decimal|]. split; [apply title_letters|]. rewrite title_clean. reflexivity.
  - destruct T as (i & k & t & -> & -> & _). eexists. split; [apply dec_decimal|]. split; [apply title_letters|]. rewrite title_clean. reflexivity.
  - destruct T as (j & k & -> & -> & -> & B). rewrite B. do 2 eexists. split; [apply dec_decimal|]. split; [apply dec_decimal|]. reflexivity.
  - destruct T as (k & t & -> & -> & _). eexists. split; [apply dec_decimal|]. reflexivity.
  - destruct T as (j & k & -> & -> & ->). do 2 eexists. split; [apply dec_decimal|]. split; [apply dec_decimal|]. reflexivity.
  - destruct T as (j & k & -> & -> & ->). do 2 eexists. split; [apply dec_decimal|]. split; [apply dec_decimal|]. reflexivity.
  - destruct T as (j & k & -> & -> & ->). do 2 eexists. split; [apply dec_decimal|]. split; [apply dec_decimal|]. reflexivity.
  - destruct T as (j & k & -> & -> & ->). do 2 eexists. split; [apply dec_decimal|]. split; [apply dec_decimal|]. reflexivity.
Qed.

Lemma report_reads : forall ts xs errs, Forall2 (tallies ts) xs errs -> fact_report (map snd xs) (validation_report errs).
Proof.
  intros ts xs errs F. exists (map message errs). split.
  - induction F as [|x v xs errs H F IH]; [constructor|]. constructor; [eapply tally_line; exact H|exact IH].
  - destruct F as [|x v xs errs H F]; [left; auto|]. right. split; [discriminate|]. unfold validation_report.
    do 3 f_equal. f_equal. generalize (v :: errs). intro l. induction l as [|w l IH]; [reflexivity|]. cbn [map flat_map]. rewrite IH. reflexivity.
Qed.

Theorem report_file : forall env r s h text, decode env r = Ok s -> f_mthd s = Some h -> validation_warning s = Ok text -> reports_file h (f_tracks s) text.
Proof.
  intros env r s h text D Hh H. unfold validation_warning in H. destruct (validate s) as [errs| | | |] eqn:E; try discriminate. cbn [bind] in H. apply Ok_inj in H. subst text.
  pose proof (decoded_numbers env r s D) as N. fold (numbered (f_tracks s)) in N. destruct (facts s h errs Hh N E) as (xs & F & O1 & C). exists xs. split; [|split; [exact O1|eapply report_reads; exact F]].
  intro x. split.
  - intro I. destruct (f2_in_l _ _ _ _ _ x F I) as (v & J & T). apply (tally_found h _ x v N T). apply (reports_due s h errs Hh E). exact J.
  - intro X. destruct (found_tally h _ x N X) as [(i & k & kind & ->)|(v & Dv & T & U)]; [apply C; exact X|].
    apply (reports_due s h errs Hh E) in Dv. destruct (f2_in_r _ _ _ _ _ v F Dv) as (y & J & K). rewrite <- (U y K). exact J.
Qed.

(** Nothing is written for valid files only. *)
Theorem report_silent : forall s, validation_warning s = Ok [] <-> valid_file s.
Proof.
  intro s. rewrite <- validate_exact. unfold validation_warning. split; intro H; [|rewrite H; reflexivity].
  destruct (validate s) as [errs| | | |]; try discriminate. cbn [bind] in H. apply Ok_inj in H. destruct errs; [reflexivity|discriminate].
Qed.

(** ** One reading *)

(** Numbers end where something other than a digit follows. *)
Definition stops (s : bytes) : Prop := match s with [] => True | c :: _ => c < 48 \/ 57 < c end.

Lemma nat_decimal : forall n s, decimal (Z.of_nat n) s -> Forall is_digit s /\ digits_value s = Z.of_nat n.
Proof.
  intros n s D. remember (Z.of_nat n) as m eqn:E. destruct D as [|s H _|s H H1]; [split; [repeat constructor; unfold is_digit; lia|reflexivity]|auto|].
  exfalso. pose proof (value_pos s H H1). lia.
Qed.

Lemma digits_cut : forall s x s' x', Forall is_digit s -> Forall is_digit s' -> stops x -> stops x' -> s ++ x = s' ++ x' -> s = s' /\ x = x'.
Proof.
  induction s as [|c s IH]; intros x s' x' F F' X X' E; destruct s' as [|c' s']; cbn [app] in E.
  - auto.
  - subst x. inversion F'; subst. unfold is_digit in *. cbn in X. lia.
  - subst x'. inversion F; subst. unfold is_digit in *. cbn in X'. lia.
  - injection E as <- E. inversion F; inversion F'; subst. apply IH in E as [-> ->]; auto.
Qed.

Lemma number_cut : forall n s n' s' x x', decimal (Z.of_nat n) s -> decimal (Z.of_nat n') s' -> stops x -> stops x' -> s ++ x = s' ++ x' -> n = n' /\ x = x'.
Proof.
  intros n s n' s' x x' D D' X X' E. apply nat_decimal in D as (F & V). apply nat_decimal in D' as (F' & V'). apply digits_cut in E as (-> & ->); auto. split; [lia|reflexivity].
Qed.

Lemma app_cancel_l : forall (a b c : bytes), a ++ b = a ++ c -> b = c.
Proof. intros a b c. apply app_inv_head. Qed.

(** What follows the number of the track. *)
Definition line_rest (f : fact) (r : bytes) : Prop :=
  match f with
  | Count _ => False
  | Stray _ kind => Forall letter kind /\ r = str ": unexpected event (" ++ kind ++ str ")"
  | EarlyEnd _ p => exists e, decimal (Z.of_nat p) e /\ r = str ": EndOfTrack @" ++ e ++ str " (EndOfTrack) is not last event"
  | NoEnd _ => r = str ": missing EndOfTrack event"
  | Bank _ p h t => exists e, decimal (Z.of_nat p) e /\ r = str ": 'Bank Select " ++ half_name h ++ str "' event @" ++ e ++
        (match t with Alone => str " missing " ++ half_name (other h) | Apart => str " " ++ half_name (other h) ++ str " on another channel" end) ++ str " (Controller)"
  end.

Lemma line_split : forall f l, fact_line f l -> (exists n d, f = Count n /\ decimal (Z.of_nat n) d /\ l = str "File contains " ++ d ++ str " tracks (expected 1 track for FORMAT 0)") \/
  exists d r, decimal (Z.of_nat (track_in f)) d /\ line_rest f r /\ l = str "Track " ++ d ++ r /\ (forall n, f <> Count n).
Proof.
  intros f l H. destruct f as [n|k kind|k p|k|k p h t]; cbn [fact_line] in H; [left|right|right|right|right].
  - destruct H as (d & D & ->). exists n, d. auto.
  - destruct H as (d & D & F & ->). do 2 eexists. split; [exact D|]. split; [split; [exact F|reflexivity]|]. split; [reflexivity|discriminate].
  - destruct H as (d & e & D & E & ->). do 2 eexists. split; [exact D|]. split; [exists e; split; [exact E|reflexivity]|]. split; [reflexivity|discriminate].
  - destruct H as (d & D & ->). do 2 eexists. split; [exact D|]. split; [reflexivity|]. split; [reflexivity|discriminate].
  - destruct H as (d & e & D & E & ->). do 2 eexists. split; [exact D|]. split; [exists e; split; [exact E|reflexivity]|]. split; [reflexivity|discriminate].
Qed.

Lemma rest_stops : forall f r, line_rest f r -> stops r.
Proof. intros [n|k kind|k p|k|k p h t] r H; cbn [line_rest] in H; [contradiction|destruct H as (_ & ->)|destruct H as (e & _ & ->)|subst r|destruct H as (e & _ & ->)]; right; reflexivity. Qed.

Lemma rest_inj : forall f f' r, line_rest f r -> line_rest f' r -> track_in f = track_in f' -> f = f'.
Proof.
  assert (ST : forall s c x, s = c :: x -> (c < 48 \/ 57 < c) -> stops s) by (intros s c x -> H; exact H).
  intros [n|k kind|k p|k|k p h t] [n'|k' kind'|k' p'|k'|k' p' h' t'] r H H' K; cbn [line_rest] in H, H'; cbn [track_in] in K; subst; try contradiction;
    repeat match goal with H : _ /\ _ |- _ => destruct H | H : exists e, _ |- _ => destruct H as (? & ?) end; subst; try discriminate; try reflexivity;
    try (destruct h; discriminate); try (destruct h'; discriminate).
  - match goal with E : _ ++ kind ++ _ = _ |- _ => apply app_inv_head in E; apply app_inv_tail in E; subst; reflexivity
    | E : _ = _ ++ kind ++ _ |- _ => apply app_inv_head in E; apply app_inv_tail in E; subst; reflexivity end.
  - match goal with E : _ ++ ?a ++ _ = _ ++ ?b ++ _ |- _ => apply app_inv_head in E; eapply number_cut in E as (E & _); [| | |left; reflexivity|left; reflexivity]; [|eassumption|eassumption] end. congruence.
  - destruct h, h'; try discriminate; cbn [half_name other] in *;
    match goal with E : _ |- _ => apply app_inv_head in E; apply app_inv_head in E; apply app_inv_head in E; eapply number_cut in E as (E & T);
      [| | |destruct t; left; reflexivity|destruct t'; left; reflexivity]; [|eassumption|eassumption] end; subst; destruct t, t'; try discriminate; reflexivity.
Qed.

Lemma line_inj : forall f f' l, fact_line f l -> fact_line f' l -> f = f'.
Proof.
  intros f f' l H H'. apply line_split in H as [(n & d & -> & D & ->)|(d & r & D & R & -> & _)]; apply line_split in H' as [(n' & d' & -> & D' & E)|(d' & r' & D' & R' & E & _)].
  - apply app_inv_head in E. apply (number_cut _ _ _ _ _ _ D D') in E as (-> & _); [reflexivity|left; reflexivity|left; reflexivity].
  - discriminate.
  - discriminate.
  - apply app_inv_head in E. apply (number_cut _ _ _ _ _ _ D D') in E as (K & ->); [|eapply rest_stops; exact R|eapply rest_stops; exact R'].
    eapply rest_inj; eassumption.
Qed.

Lemma letters_no_newline : forall s, Forall letter s -> ~ In 10 s.
Proof. intros s F I. rewrite Forall_forall in F. specialize (F 10 I). unfold letter in F. lia. Qed.

Lemma line_no_newline : forall f l, fact_line f l -> ~ In 10 l.
Proof.
  intros f l H. destruct f as [n|k kind|k p|k|k p h t]; cbn [fact_line] in H.
  - destruct H as (d & D & ->). repeat (apply no_newline_app; [first [eapply decimal_no_newline; eassumption|apply label_no_newline; reflexivity]|]). apply label_no_newline; reflexivity.
  - destruct H as (d & D & F & ->). repeat (apply no_newline_app; [first [eapply decimal_no_newline; eassumption|apply letters_no_newline; exact F|apply label_no_newline; reflexivity]|]). apply label_no_newline; reflexivity.
  - destruct H as (d & e & D & E & ->). repeat (apply no_newline_app; [first [eapply decimal_no_newline; eassumption|apply label_no_newline; reflexivity]|]). apply label_no_newline; reflexivity.
  - destruct H as (d & D & ->). repeat (apply no_newline_app; [first [eapply decimal_no_newline; eassumption|apply label_no_newline; reflexivity]|]). apply label_no_newline; reflexivity.
  - destruct H as (d & e & D & E & ->). repeat (apply no_newline_app; [first [eapply decimal_no_newline; eassumption|destruct h, t; apply label_no_newline; reflexivity|apply label_no_newline; reflexivity]|]). apply label_no_newline; reflexivity.
Qed.

Lemma body_lines : forall fs lines, Forall2 fact_line fs lines ->
  text_lines (flat_map (fun l => str "         ** " ++ l ++ [10]) lines ++ [10]) = map (fun l => str "         ** " ++ l ++ [10]) lines ++ [[10]].
Proof.
  intros fs lines F. induction F as [|f l fs lines H F IH]; [reflexivity|]. cbn [flat_map map]. rewrite <- app_assoc.
  replace (str "         ** " ++ l ++ [10]) with ((str "         ** " ++ l) ++ [10]) by (rewrite <- app_assoc; reflexivity). rewrite text_lines_app.
  - rewrite IH. reflexivity.
  - apply no_newline_app; [apply label_no_newline; reflexivity|eapply line_no_newline; exact H].
Qed.

Theorem report_one_reading : forall fs fs' text, fact_report fs text -> fact_report fs' text -> fs = fs'.
Proof.
  assert (G : forall fs lines fs' lines', Forall2 fact_line fs lines -> Forall2 fact_line fs' lines' -> lines = lines' -> fs = fs').
  { intros fs lines fs' lines' F. revert fs' lines'. induction F as [|f l fs lines H F IH]; intros fs' lines' F' E; inversion F' as [|f' l' fs2 lines2 H' F2]; subst; try discriminate; [reflexivity|].
    match goal with X : _ :: _ = _ :: _ |- _ => injection X as E1 E2 end. subst. f_equal; [eapply line_inj; eassumption|]. eapply IH; [eassumption|reflexivity]. }
  intros fs fs' text (lines & F & C) (lines' & F' & C'). destruct C as [(-> & ->)|(N & ->)]; destruct C' as [(-> & E)|(N' & E)]; try discriminate; [reflexivity|].
  apply app_inv_head in E. apply app_inv_head in E. apply app_inv_head in E. apply (f_equal text_lines) in E. rewrite (body_lines fs lines F), (body_lines fs' lines' F') in E.
  apply app_inv_tail in E. eapply G; [exact F|exact F'|]. clear - E. revert lines' E. induction lines as [|l lines IH]; intros [|l' lines'] E; try discriminate; [reflexivity|].
  cbn [map] in E. pose proof (f_equal (hd []) E) as E1. pose proof (f_equal (@tl bytes) E) as E2. cbn [hd] in E1. cbn [tl] in E2. apply app_inv_head in E1. apply app_inv_tail in E1. subst l'. f_equal. apply IH. exact E2.
Qed.
