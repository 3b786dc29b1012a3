(** * TextShapeProofs: the patterns of the assembler match the texts of the shape of their kind. *)
From Verif Require Import Base Strings Tables Event SpecTable SpecDecimal SpecKey SpecAssemble SpecSurvive SpecRead SpecTrack SpecLine SpecTextEnd
  Regex TextEvent RegexProofs TextProofs LineProofs.

(** Where a pattern can end. *)
Fixpoint way (r : re) (s s' : bytes) : Prop :=
  match r with
  | Eps => s' = s
  | One p => p s = Some s'
  | Star _ c => exists u, s = u ++ s' /\ forallb c u = true
  | Cat a b => exists t, way a s t /\ way b t s'
  | Alt a b => way a s s' \/ way b s s'
  | Group a => way a s s'
  end.

Lemma some_blind : forall k : list bytes -> bytes -> option (list bytes), blind k -> forall c1 c2 s, k c1 s <> None -> k c2 s <> None.
Proof. intros k B c1 c2 s H E. apply H. exact (B c2 c1 s E). Qed.

Lemma star_way : forall g c k, blind k -> forall caps s, star g c caps k s <> None <-> exists u s', s = u ++ s' /\ forallb c u = true /\ k [] s' <> None.
Proof.
  intros g c k B caps s. split.
  - intros H. destruct (star g c caps k s) as [y|] eqn:E; [|congruence]. destruct g.
    + apply star_greedy in E as (u & v & -> & U & K & _). exists u, v. split; [reflexivity|]. split; [exact U|]. apply (some_blind k B caps). congruence.
    + apply star_shortest in E as (u & v & -> & U & K & _). exists u, v. split; [reflexivity|]. split; [exact U|]. apply (some_blind k B caps). congruence.
  - intros (u & v & -> & U & K). apply (some_blind k B [] caps) in K. destruct g; [apply greedy_some|apply lazy_some]; assumption.
Qed.

Lemma rmatch_way : forall r k, blind k -> forall caps s, rmatch r caps s k <> None <-> exists s', way r s s' /\ k [] s' <> None.
Proof.
  induction r as [|p|g c|a IHa b IHb|a IHa b IHb|a IHa]; intros k B caps s; cbn [rmatch way].
  - split; [intros H; exists s; split; [reflexivity|revert H; apply some_blind, B]|]. intros (s' & -> & H). revert H. apply some_blind, B.
  - destruct (p s) as [s1|]; [|split; [congruence|intros (s' & Q & _); discriminate]]. split.
    + intros H. exists s1. split; [reflexivity|revert H; apply some_blind, B].
    + intros (s' & Q & H). injection Q as <-. revert H. apply some_blind, B.
  - rewrite (star_way g c k B). split.
    + intros (u & s' & E & U & K). exists s'. split; [exists u; auto|exact K].
    + intros (s' & (u & E & U) & K). exists u, s'. auto.
  - assert (B' : blind (fun c t => rmatch b c t k)) by (intros c1 c2 t; apply rmatch_blind, B). rewrite (IHa _ B'). split.
    + intros (t & T & H). apply (IHb k B) in H as (s' & W & H). exists s'. split; [exists t; auto|exact H].
    + intros (s' & (t & T & W) & H). exists t. split; [exact T|]. apply (IHb k B). exists s'. auto.
  - assert (E : match rmatch a caps s k with Some x => Some x | None => rmatch b caps s k end <> None <-> rmatch a caps s k <> None \/ rmatch b caps s k <> None).
    { destruct (rmatch a caps s k); [split; [intros _; left; discriminate|intros _; discriminate]|]. split; [auto|]. intros [H|H]; congruence. }
    rewrite E, (IHa k B), (IHb k B). split.
    + intros [(s' & W & H)|(s' & W & H)]; exists s'; auto.
    + intros (s' & [W|W] & H); [left|right]; exists s'; auto.
  - assert (B' : blind (fun c t => k (c ++ [firstn (length s - length t) s]) t)) by (intros c1 c2 t; apply B). rewrite (IHa _ B'). split; intros (s' & W & H); exists s'; (split; [exact W|]); revert H; apply some_blind, B.
Qed.

Definition ways (rs : list re) (s : bytes) : Prop := exists s', way (cat rs) s s'.

Lemma fits_ways : forall t s, fits t s <-> ways (rests t) s.
Proof.
  intros t s. unfold fits, ways. rewrite (rmatch_way _ _ fin_blind). split; [intros (s' & W & _); eauto|]. intros (s' & W). exists s'. split; [exact W|discriminate].
Qed.

Lemma ways_nil : forall s, ways [] s.
Proof. intros s. exists s. reflexivity. Qed.

Lemma ways_cons : forall (P : bytes -> Prop) a, (forall s s', way a s s' <-> exists u, s = u ++ s' /\ P u) ->
  forall rs s, ways (a :: rs) s <-> exists u v, s = u ++ v /\ P u /\ ways rs v.
Proof.
  intros P a A rs s. unfold ways. cbn [cat fold_right way]. fold (cat rs). split.
  - intros (s' & t & T & W). apply A in T as (u & -> & U). exists u, t. split; [reflexivity|]. split; [exact U|]. exists s'. exact W.
  - intros (u & v & -> & U & s' & W). exists s', v. split; [apply A; exists u; auto|exact W].
Qed.

Lemma way_plus : forall c s s', way (plus c) s s' <-> exists u, s = u ++ s' /\ u <> [] /\ forallb c u = true.
Proof.
  intros c s s'. unfold plus. cbn [way cls]. split.
  - intros (t & B & u & -> & U). destruct s as [|x s]; [discriminate|]. cbn [byte1] in B. destruct (c x) eqn:X; [|discriminate]. injection B as ->.
    exists (x :: u). split; [reflexivity|]. split; [discriminate|]. cbn [forallb]. rewrite X. exact U.
  - intros (u & -> & N & U). destruct u as [|x u]; [congruence|]. cbn [forallb] in U. apply andb_prop in U as [X U]. exists (u ++ s'). cbn [app byte1]. rewrite X. split; [reflexivity|]. exists u. auto.
Qed.

Lemma w_sp : forall rs s, ways (spaces_re :: rs) s <-> exists w v, s = w ++ v /\ blank w /\ ways rs v.
Proof.
  apply ways_cons. intros s s'. unfold spaces_re. rewrite way_plus. split; intros (u & E & N & U); exists u; (split; [exact E|]).
  - split; [exact N|apply whites_are, U].
  - split; [exact N|apply whites_are, U].
Qed.
Lemma w_num : forall rs s, ways (number :: rs) s <-> exists n v, s = n ++ v /\ digits n /\ ways rs v.
Proof.
  apply ways_cons. intros s s'. unfold number. cbn [way]. fold (plus digit). rewrite (way_plus digit). split; intros (u & E & N & U); exists u; (split; [exact E|]).
  - split; [exact N|apply digits_are, U].
  - split; [exact N|apply digits_are, U].
Qed.
Lemma w_word : forall l rs s, ways (ilit l :: rs) s <-> exists x v, s = x ++ v /\ spelled l x /\ ways rs v.
Proof.
  intros l. apply ways_cons. intros s s'. cbn [way ilit]. split.
  - intros H. apply strip_says in H as (x & -> & X). exists x. auto.
  - intros (x & -> & X). apply strip_spelled, X.
Qed.
Lemma w_ws : forall rs s, ways (star_of white :: rs) s <-> exists w v, s = w ++ v /\ blanks w /\ ways rs v.
Proof. apply ways_cons. intros s s'. cbn [way star_of]. split; intros (u & E & U); exists u; (split; [exact E|apply whites_are, U]). Qed.
Lemma w_dots : forall g rs s, ways (Star g dot :: rs) s <-> exists a v, s = a ++ v /\ ~ In 10 a /\ ways rs v.
Proof. intros g. apply ways_cons. intros s s'. cbn [way]. split; intros (u & E & U); exists u; (split; [exact E|apply dots_are, U]). Qed.
Lemma w_group_dots : forall g rs s, ways (Group (Star g dot) :: rs) s <-> exists a v, s = a ++ v /\ ~ In 10 a /\ ways rs v.
Proof. intros g. apply ways_cons. intros s s'. cbn [way]. split; intros (u & E & U); exists u; (split; [exact E|apply dots_are, U]). Qed.
Lemma w_skip : forall rs s, ways (opt (star_of dot) :: rs) s <-> exists a v, s = a ++ v /\ ~ In 10 a /\ ways rs v.
Proof.
  apply ways_cons. intros s s'. unfold opt. cbn [way star_of]. split.
  - intros [(u & E & U)| ->]; [exists u; split; [exact E|apply dots_are, U]|]. exists []. split; [reflexivity|intros []].
  - intros (u & E & U). left. exists u. split; [exact E|apply dots_are, U].
Qed.

Lemma w_lead : forall (p : Z -> bool) (P : Z -> Prop), (forall c, p c = true <-> is_digit c /\ P c) -> forall rs s,
  ways (Group (cat [cls (fun c => (49 <=? c) && (c <=? 57)); star_of p]) :: rs) s <-> exists n v, s = n ++ v /\ (digits n /\ 49 <= hd 0 n /\ Forall P (tl n)) /\ ways rs v.
Proof.
  intros p P PP. apply ways_cons. intros s s'. cbn [way cat fold_right cls star_of]. split.
  - intros (t & B & t' & (u & -> & U) & ->). destruct s as [|c s]; [discriminate|]. cbn [byte1] in B. destruct ((49 <=? c) && (c <=? 57)) eqn:C; [|discriminate]. injection B as ->.
    rewrite forallb_forall in U. exists (c :: u). split; [reflexivity|]. split; [split; [discriminate|constructor; [unfold is_digit; lia|]]|].
    + apply Forall_forall. intros x I. apply PP, U, I.
    + cbn [hd tl]. split; [lia|]. apply Forall_forall. intros x I. apply PP, U, I.
  - intros (n & -> & (N & D) & H & T). destruct n as [|c u]; [congruence|]. cbn [hd tl] in *. pose proof (Forall_inv D) as C. apply Forall_inv_tail in D. unfold is_digit in C.
    exists (u ++ s'). split; [cbn [app byte1]; replace ((49 <=? c) && (c <=? 57)) with true by lia; reflexivity|]. exists s'. split; [|reflexivity]. exists u. split; [reflexivity|].
    rewrite forallb_forall. rewrite Forall_forall in D, T. intros x I. apply PP. auto.
Qed.
Lemma w_lead9 : forall rs s, ways (Group (cat [cls (fun c => (49 <=? c) && (c <=? 57)); star_of digit]) :: rs) s <-> exists n v, s = n ++ v /\ (digits n /\ 49 <= hd 0 n /\ Forall (fun _ => True) (tl n)) /\ ways rs v.
Proof. apply w_lead. intros c. rewrite digit_is. tauto. Qed.
Lemma w_lead8 : forall rs s, ways (Group (cat [cls (fun c => (49 <=? c) && (c <=? 57)); star_of (fun c => (48 <=? c) && (c <=? 56))]) :: rs) s <->
  exists n v, s = n ++ v /\ (digits n /\ 49 <= hd 0 n /\ Forall (fun c => c <> 57) (tl n)) /\ ways rs v.
Proof. apply w_lead. intros c. unfold is_digit. lia. Qed.

Lemma way_sign : forall s s', way (opt (One accidental)) s s' <-> exists a k, s = a ++ s' /\ sign a k.
Proof.
  intros s s'. unfold opt. cbn [way]. split.
  - intros [A| ->]; [|exists [], 0; split; [reflexivity|constructor]]. apply accidental_says in A as (a & k & E & S & _). exists a, k. auto.
  - intros (a & k & -> & S). destruct S; [right; reflexivity|left; reflexivity|left; reflexivity].
Qed.

Lemma letter_is : forall c, note_letter_i c = true <-> exists l, 65 <= l <= 71 /\ same_letter l c.
Proof. intros c. split; [apply letter_says|]. intros (l & L & S). unfold note_letter_i, note_letter, same_letter in *. lia. Qed.

Lemma w_tonic : forall rs s, ways (Group (cat [cls note_letter_i; opt (One accidental)]) :: rs) s <->
  exists n v, s = n ++ v /\ (exists l c a k, n = c :: a /\ 65 <= l <= 71 /\ same_letter l c /\ sign a k) /\ ways rs v.
Proof.
  apply ways_cons. intros s s'. split.
  - intros (t & B & t' & S & Q). cbn in Q. subst t'. apply way_sign in S as (a & k & -> & S). destruct s as [|c s]; [discriminate|]. cbn [way cls byte1] in B.
    destruct (note_letter_i c) eqn:C; [|discriminate]. injection B as ->. apply letter_is in C as (l & L & C). exists (c :: a). split; [reflexivity|]. exists l, c, a, k. auto.
  - intros (n & -> & l & c & a & k & -> & L & C & S). exists (a ++ s'). split; [|exists s'; split; [apply way_sign; exists a, k; auto|reflexivity]].
    cbn [way cls byte1 app]. rewrite (proj2 (letter_is c)) by eauto. reflexivity.
Qed.

Lemma w_note : forall rs s, ways (note_field :: rs) s <->
  exists n v, s = n ++ v /\ (exists l c a k o, n = c :: a ++ [o] /\ 65 <= l <= 71 /\ same_letter l c /\ sign a k /\ is_digit o) /\ ways rs v.
Proof.
  apply ways_cons. intros s s'. unfold note_field. split.
  - intros (t & B & t' & S & t2 & D & Q). cbn in Q. subst t2. apply way_sign in S as (a & k & -> & S). destruct s as [|c s]; [discriminate|]. cbn [way cls byte1] in B.
    destruct (note_letter_i c) eqn:C; [|discriminate]. injection B as ->. apply letter_is in C as (l & L & C).
    destruct t' as [|o t']; [discriminate|]. cbn [way cls byte1] in D. destruct (digit o) eqn:O; [|discriminate]. injection D as ->. apply digit_is in O.
    exists (c :: a ++ [o]). split; [cbn [app]; rewrite <- app_assoc; reflexivity|]. exists l, c, a, k, o. auto.
  - intros (n & -> & l & c & a & k & o & -> & L & C & S & O). exists ((a ++ [o]) ++ s'). split; [cbn [way cls byte1 app]; rewrite (proj2 (letter_is c)) by eauto; reflexivity|].
    exists (o :: s'). split; [apply way_sign; exists a, k; rewrite <- app_assoc; auto|]. exists s'. split; [|reflexivity]. cbn [way cls byte1]. rewrite (proj2 (digit_is o) O). reflexivity.
Qed.

Lemma w_mode : forall rs s, ways (Group (Alt (ilit (str "major")) (ilit (str "minor"))) :: rs) s <->
  exists x v, s = x ++ v /\ (spelled (str "major") x \/ spelled (str "minor") x) /\ ways rs v.
Proof.
  apply ways_cons. intros s s'. cbn [way ilit]. split.
  - intros [H|H]; apply strip_says in H as (x & -> & X); exists x; auto.
  - intros (x & -> & [X|X]); [left|right]; apply strip_spelled, X.
Qed.

Lemma w_channel : forall rs s, ways (channel_re ++ rs) s <-> exists c v, s = c ++ v /\ channel_place c /\ ways rs v.
Proof.
  intros rs s. unfold channel_re. cbn [app]. rewrite w_sp. split.
  - intros (w & v & -> & W & H). apply w_word in H as (x & v1 & -> & X & H). apply w_num in H as (d & v2 & -> & D & H). apply w_sp in H as (w2 & v3 & -> & W2 & H).
    exists (w ++ x ++ d ++ w2), v3. split; [rewrite <- !app_assoc; reflexivity|]. split; [exists w, x, d, w2; auto|exact H].
  - intros (c & v & -> & (w & x & d & w2 & -> & W & X & D & W2) & H). exists w, (x ++ d ++ w2 ++ v). split; [rewrite <- !app_assoc; reflexivity|]. split; [exact W|].
    apply w_word. exists x, (d ++ w2 ++ v). split; [reflexivity|]. split; [exact X|]. apply w_num. exists d, (w2 ++ v). split; [reflexivity|]. split; [exact D|].
    apply w_sp. exists w2, v. auto.
Qed.

Lemma w_control : forall s, ways (star_of dot :: channel_re ++ [number; opt (star_of dot); ilit (str "value:"); number]) s <-> exists a y, control_place s a y.
Proof.
  intros s. unfold star_of at 1. rewrite w_dots. split.
  - intros (a & v & -> & A & H). apply w_channel in H as (c & v1 & -> & C & H). apply w_num in H as (n & v2 & -> & N & H). apply w_skip in H as (b & v3 & -> & B & H).
    apply w_word in H as (x & v4 & -> & X & H). apply w_num in H as (d & r & -> & D & _). exists a, (x ++ d ++ r), c, n, b, x, d, r. auto 10.
  - intros (a & y & c & n & b & x & d & r & -> & -> & A & C & N & B & X & D). exists a, (c ++ n ++ b ++ x ++ d ++ r). split; [reflexivity|]. split; [exact A|].
    apply w_channel. exists c, (n ++ b ++ x ++ d ++ r). split; [reflexivity|]. split; [exact C|]. apply w_num. exists n, (b ++ x ++ d ++ r). split; [reflexivity|]. split; [exact N|].
    apply w_skip. exists b, (x ++ d ++ r). split; [reflexivity|]. split; [exact B|]. apply w_word. exists x, (d ++ r). split; [reflexivity|]. split; [exact X|].
    apply w_num. exists d, r. split; [reflexivity|]. split; [exact D|]. apply ways_nil.
Qed.

Lemma comma_spelled : forall x, spelled (str ",") x <-> x = [44].
Proof. intros x. split; [apply comma_says|]. intros ->. constructor; [left; reflexivity|constructor]. Qed.
Lemma slash_spelled : forall x, spelled (str "/") x <-> x = [47].
Proof. intros x. split; [apply spelled_one; [discriminate|discriminate|reflexivity]|]. intros ->. constructor; [left; reflexivity|constructor]. Qed.
Lemma space_spelled : forall x, spelled (str " ") x <-> x = [32].
Proof. intros x. split; [apply spelled_one; [discriminate|discriminate|reflexivity]|]. intros ->. constructor; [left; reflexivity|constructor]. Qed.

Ltac rests_are l := match goal with
  | |- context [rests ?t] => change (rests t) with l
  | H : context [rests ?t] |- _ => change (rests t) with l in H end.
Ltac peel := repeat lazymatch goal with
  | |- ways (channel_re ++ _) _ => apply w_channel; eexists _, _; split; [reflexivity|]; split; [eassumption|]
  | |- ways (spaces_re :: _) _ => apply w_sp; eexists _, _; split; [reflexivity|]; split; [eassumption|]
  | |- ways (number :: _) _ => apply w_num; eexists _, _; split; [reflexivity|]; split; [eassumption|]
  | |- ways (star_of white :: _) _ => apply w_ws; eexists _, _; split; [reflexivity|]; split; [eassumption|]
  | |- ways (ilit _ :: _) _ => apply w_word; eexists _, _; split; [reflexivity|]; split; [first [eassumption|apply comma_spelled; reflexivity|apply slash_spelled; reflexivity|apply space_spelled; reflexivity]|]
  | |- ways [] _ => apply ways_nil
  end.

Ltac each I := cbn [In] in I; repeat (destruct I as [<-|I]); [..|contradiction].

Lemma shape_fits : forall t s, shape t s -> fits t s.
Proof.
  intros t s H. rewrite fits_ways. destruct H as [t w n r I W N|t w r I W|w x n r W X N|w n1 n2 w2 n3 x w3 n4 y r W N1 N2 H2 W2 N3 X W3 N4 H4 T4 Y
    |w l c a k w2 x r W L C A W2 X|w1 n1 w2 n2 w3 n3 w4 n4 w5 n5 w6 n6 r W1 W2 W3 W4 W5 W6 N1 N2 N3 N4 N5 N6|r|t w name r I W N|t c x l k a i o w z n r I C X L K A O W Z N
    |t c x n r I C X N|a y s C|c x n w z m r C X N W Z M|c x n r C X N].
  - each I; rests_are [spaces_re; number]; peel.
  - each I; rests_are [spaces_re; rest_re]; (apply w_sp; exists w, r; split; [reflexivity|]; split; [exact W|]; apply (w_group_dots true); exists [], r; split; [reflexivity|]; split; [intros []|apply ways_nil]).
  - rests_are [spaces_re; ilit (str "tempo:"); number]; peel.
  - rests_are [spaces_re; number; ilit (str "/"); Group (cat [cls (fun c => (49 <=? c) && (c <=? 57)); star_of digit]); ilit (str ","); star_of white;
     ilit (str " "); number; ilit (str " ticks per click,"); star_of white;
     Group (cat [cls (fun c => (49 <=? c) && (c <=? 57)); star_of (fun c => (48 <=? c) && (c <=? 56))]); ilit (str "/32 per quarter")]; peel.
    apply w_lead9. eexists _, _. split; [reflexivity|]. split; [split; [exact N2|]; split; [exact H2|]; apply Forall_forall; auto|]. peel.
    apply w_lead8. eexists _, _. split; [reflexivity|]. split; [auto|]. peel.
  - rests_are [spaces_re; Group (cat [cls note_letter_i; opt (One accidental)]); spaces_re; Group (Alt (ilit (str "major")) (ilit (str "minor")))]; peel.
    apply w_tonic. exists (c :: a), (w2 ++ x ++ r). split; [reflexivity|]. split; [exists l, c, a, k; auto|]. peel. apply w_mode. exists x, r. split; [reflexivity|]. split; [exact X|apply ways_nil].
  - rests_are [spaces_re; number; spaces_re; number; spaces_re; number; spaces_re; number; spaces_re; number; spaces_re; number]; peel.
  - apply ways_nil.
  - each I; rests_are (spaces_re :: comma_re); peel; (apply (w_group_dots false); exists name, ([44] ++ r); split; [reflexivity|]; split; [exact N|]; peel;
      apply (w_group_dots true); exists [], r; split; [reflexivity|]; split; [intros []|apply ways_nil]).
  - each I; rests_are (channel_re ++ [ilit (str "note:"); note_field; ilit (str ","); star_of white; ilit (str "velocity:"); number]); peel;
    (apply w_note; eexists _, _; split; [reflexivity|]; split; [exists l, k, a, i, o; auto|]; peel).
  - each I; rests_are (channel_re ++ [ilit (str "pressure:"); number]); peel.
  - rests_are (star_of dot :: channel_re ++ [number; opt (star_of dot); ilit (str "value:"); number]). apply w_control. exists a, y. exact C.
  - rests_are (channel_re ++ [ilit (str "bank:"); number; ilit (str ","); star_of white; ilit (str "program:"); number]). peel.
  - rests_are (channel_re ++ [ilit (str "bend:"); number]). peel.
Qed.

Lemma w_comma : forall rs s, ways (ilit (str ",") :: rs) s <-> exists v, s = [44] ++ v /\ ways rs v.
Proof.
  intros rs s. rewrite w_word. split; [intros (x & v & -> & X & H); apply comma_spelled in X; subst x; eauto|]. intros (v & -> & H). exists [44], v. split; [reflexivity|]. split; [apply comma_spelled; reflexivity|exact H].
Qed.

Lemma fits_shape : forall t s, In t tag_order -> fits t s -> shape t s.
Proof.
  intros t s I H. rewrite fits_ways in H. unfold tag_order in I. cbn [In] in I.
  assert (NU : forall s, ways [spaces_re; number] s -> exists w n r, s = w ++ n ++ r /\ blank w /\ digits n).
  { clear. intros s H. apply w_sp in H as (w & v & -> & W & H). apply w_num in H as (n & r & -> & N & _). exists w, n, r. auto. }
  assert (TX : forall s, ways [spaces_re; rest_re] s -> exists w r, s = w ++ r /\ blank w).
  { clear. intros s H. apply w_sp in H as (w & v & -> & W & H). exists w, v. auto. }
  assert (CO : forall s, ways (spaces_re :: comma_re) s -> exists w name r, s = w ++ name ++ [44] ++ r /\ blank w /\ ~ In 10 name).
  { clear. intros s H. apply w_sp in H as (w & v & -> & W & H). unfold comma_re in H. apply (w_group_dots false) in H as (name & v1 & -> & N & H). apply w_comma in H as (v2 & -> & _). exists w, name, v2. auto. }
  assert (NO : forall s, ways (channel_re ++ [ilit (str "note:"); note_field; ilit (str ","); star_of white; ilit (str "velocity:"); number]) s ->
    exists c x l k a i o w z n r, s = c ++ x ++ (k :: a ++ [o]) ++ [44] ++ w ++ z ++ n ++ r /\ channel_place c /\ spelled (str "note:") x /\ 65 <= l <= 71 /\ same_letter l k /\ sign a i /\ is_digit o /\
      blanks w /\ spelled (str "velocity:") z /\ digits n).
  { clear. intros s H. apply w_channel in H as (c & v & -> & C & H). apply w_word in H as (x & v1 & -> & X & H). apply w_note in H as (m & v2 & -> & (l & k & a & i & o & -> & L & K & A & O) & H).
    apply w_comma in H as (v3 & -> & H). apply w_ws in H as (w & v4 & -> & W & H). apply w_word in H as (z & v5 & -> & Z & H). apply w_num in H as (n & r & -> & N & _).
    exists c, x, l, k, a, i, o, w, z, n, r. auto 20. }
  assert (PR : forall s, ways (channel_re ++ [ilit (str "pressure:"); number]) s -> exists c x n r, s = c ++ x ++ n ++ r /\ channel_place c /\ spelled (str "pressure:") x /\ digits n).
  { clear. intros s H. apply w_channel in H as (c & v & -> & C & H). apply w_word in H as (x & v1 & -> & X & H). apply w_num in H as (n & r & -> & N & _). exists c, x, n, r. auto. }
  repeat (destruct I as [<-|I]); [..|contradiction].
  1: { apply NU in H as (w & n & r & -> & W & N). apply sh_number; [cbn [In]; tauto|assumption|assumption]. }
  1-9: apply TX in H as (w & r & -> & W); apply sh_text; [cbn [In]; tauto|assumption].
  1-2: apply NU in H as (w & n & r & -> & W & N); apply sh_number; [cbn [In]; tauto|assumption|assumption].
  - rests_are [spaces_re; ilit (str "tempo:"); number]. apply w_sp in H as (w & v & -> & W & H). apply w_word in H as (x & v1 & -> & X & H). apply w_num in H as (n & r & -> & N & _). apply sh_tempo; assumption.
  - rests_are [spaces_re; number; ilit (str "/"); Group (cat [cls (fun c => (49 <=? c) && (c <=? 57)); star_of digit]); ilit (str ","); star_of white;
     ilit (str " "); number; ilit (str " ticks per click,"); star_of white;
     Group (cat [cls (fun c => (49 <=? c) && (c <=? 57)); star_of (fun c => (48 <=? c) && (c <=? 56))]); ilit (str "/32 per quarter")].
    apply w_sp in H as (w & v & -> & W & H). apply w_num in H as (n1 & v1 & -> & N1 & H). apply w_word in H as (x1 & v2 & -> & X1 & H). apply slash_spelled in X1. subst x1.
    apply w_lead9 in H as (n2 & v3 & -> & (N2 & H2 & _) & H). apply w_comma in H as (v4 & -> & H). apply w_ws in H as (w2 & v5 & -> & W2 & H).
    apply w_word in H as (x2 & v6 & -> & X2 & H). apply space_spelled in X2. subst x2. apply w_num in H as (n3 & v7 & -> & N3 & H). apply w_word in H as (x & v8 & -> & X & H).
    apply w_ws in H as (w3 & v9 & -> & W3 & H). apply w_lead8 in H as (n4 & v10 & -> & (N4 & H4 & T4) & H). apply w_word in H as (y & r & -> & Y & _). apply sh_time; assumption.
  - rests_are [spaces_re; Group (cat [cls note_letter_i; opt (One accidental)]); spaces_re; Group (Alt (ilit (str "major")) (ilit (str "minor")))].
    apply w_sp in H as (w & v & -> & W & H). apply w_tonic in H as (m & v1 & -> & (l & c & a & k & -> & L & C & A) & H). apply w_sp in H as (w2 & v2 & -> & W2 & H).
    apply w_mode in H as (x & r & -> & X & _). apply (sh_key w l c a k w2 x r); assumption.
  - rests_are [spaces_re; number; spaces_re; number; spaces_re; number; spaces_re; number; spaces_re; number; spaces_re; number].
    apply w_sp in H as (w1 & v & -> & W1 & H). apply w_num in H as (n1 & v1 & -> & N1 & H). apply w_sp in H as (w2 & v2 & -> & W2 & H). apply w_num in H as (n2 & v3 & -> & N2 & H).
    apply w_sp in H as (w3 & v4 & -> & W3 & H). apply w_num in H as (n3 & v5 & -> & N3 & H). apply w_sp in H as (w4 & v6 & -> & W4 & H). apply w_num in H as (n4 & v7 & -> & N4 & H).
    apply w_sp in H as (w5 & v8 & -> & W5 & H). apply w_num in H as (n5 & v9 & -> & N5 & H). apply w_sp in H as (w6 & v10 & -> & W6 & H). apply w_num in H as (n6 & r & -> & N6 & _).
    apply sh_offset; assumption.
  - apply sh_end.
  - apply CO in H as (w & name & r & -> & W & N). apply sh_maker; [cbn [In]; tauto|assumption|assumption].
  - apply NO in H as (c & x & l & k & a & i & o & w & z & n & r & -> & C & X & L & K & A & O & W & Z & N). apply (sh_note _ c x l k a i o w z n r); try assumption. cbn [In]; tauto.
  - apply NO in H as (c & x & l & k & a & i & o & w & z & n & r & -> & C & X & L & K & A & O & W & Z & N). apply (sh_note _ c x l k a i o w z n r); try assumption. cbn [In]; tauto.
  - apply PR in H as (c & x & n & r & -> & C & X & N). apply sh_pressure; try assumption. cbn [In]; tauto.
  - apply w_control in H as (a & y & H). apply (sh_control a y s H).
  - rests_are (channel_re ++ [ilit (str "bank:"); number; ilit (str ","); star_of white; ilit (str "program:"); number]).
    apply w_channel in H as (c & v & -> & C & H). apply w_word in H as (x & v1 & -> & X & H). apply w_num in H as (n & v2 & -> & N & H). apply w_comma in H as (v3 & -> & H).
    apply w_ws in H as (w & v4 & -> & W & H). apply w_word in H as (z & v5 & -> & Z & H). apply w_num in H as (m & r & -> & M & _). apply sh_program; assumption.
  - apply PR in H as (c & x & n & r & -> & C & X & N). apply sh_pressure; try assumption. cbn [In]; tauto.
  - rests_are (channel_re ++ [ilit (str "bend:"); number]).
    apply w_channel in H as (c & v & -> & C & H). apply w_word in H as (x & v1 & -> & X & H). apply w_num in H as (n & r & -> & N & _). apply sh_bend; assumption.
  - apply CO in H as (w & name & r & -> & W & N). apply sh_maker; [cbn [In]; tauto|assumption|assumption].
  - apply TX in H as (w & r & -> & W); apply sh_text; [cbn [In]; tauto|assumption].
  - apply TX in H as (w & r & -> & W); apply sh_text; [cbn [In]; tauto|assumption].
Qed.
