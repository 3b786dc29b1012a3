(** * RegexProofs: how the patterns of the assembler match. *)
From Verif Require Import Base Strings Regex.

Definition starts (c : Z -> bool) (s : bytes) : bool := match s with [] => false | x :: _ => c x end.

Lemma star_max : forall c caps k u v y, forallb c u = true -> starts c v = false -> k caps v = Some y ->
  star true c caps k (u ++ v) = Some y.
Proof.
  intros c caps k u v y U V K. induction u as [|x u IH].
  - cbn [app]. destruct v as [|x v]; [exact K|]. cbn [starts] in V. cbn [star]. rewrite V. exact K.
  - cbn [forallb] in U. apply andb_prop in U as [X U]. cbn [app star]. rewrite X, (IH U). reflexivity.
Qed.

Lemma star_lazy : forall c caps k u v y, forallb c u = true ->
  (forall a b, u = a ++ b -> b <> [] -> k caps (b ++ v) = None) -> k caps v = Some y ->
  star false c caps k (u ++ v) = Some y.
Proof.
  intros c caps k u v y. induction u as [|x u IH]; intros U N K.
  - cbn [app]. destruct v as [|x v]; [exact K|]. cbn [star]. rewrite K. destruct (c x); reflexivity.
  - cbn [forallb] in U. apply andb_prop in U as [X U]. cbn [app star]. rewrite X.
    change (x :: u ++ v) with ((x :: u) ++ v). rewrite (N [] (x :: u)); [|reflexivity|discriminate].
    apply IH; [exact U| |exact K]. intros a b E B. apply (N (x :: a)); [rewrite E; reflexivity|exact B].
Qed.

Lemma star_none : forall g c caps k w, (forall a b, w = a ++ b -> k caps b = None) -> star g c caps k w = None.
Proof.
  intros g c caps k w. induction w as [|x w IH]; intros N.
  - apply (N []). reflexivity.
  - assert (I : star g c caps k w = None) by (apply IH; intros a b E; apply (N (x :: a)); rewrite E; reflexivity).
    pose proof (N [] (x :: w) eq_refl) as K. cbn [star]. rewrite I, K. destruct (c x), g; reflexivity.
Qed.

Lemma star_back : forall c caps k u v y, forallb c u = true -> k caps v = Some y ->
  (forall x r, v = x :: r -> star true c caps k r = None) -> star true c caps k (u ++ v) = Some y.
Proof.
  intros c caps k u v y U K N. induction u as [|x u IH].
  - cbn [app]. destruct v as [|x v]; [exact K|]. cbn [star]. rewrite (N x v eq_refl), K. destruct (c x); reflexivity.
  - cbn [forallb] in U. apply andb_prop in U as [X U]. cbn [app star]. rewrite X, (IH U). reflexivity.
Qed.

Lemma group_capture : forall u v : bytes, firstn (length (u ++ v) - length v) (u ++ v) = u.
Proof.
  intros u v. rewrite app_length. replace (length u + length v - length v)%nat with (length u) by lia.
  rewrite firstn_app, Nat.sub_diag, firstn_O, app_nil_r. apply firstn_all.
Qed.

Lemma rmatch_cat : forall r rs caps s k,
  rmatch (cat (r :: rs)) caps s k = rmatch r caps s (fun caps' s' => rmatch (cat rs) caps' s' k).
Proof. reflexivity. Qed.

Lemma rmatch_nil : forall caps s k, rmatch (cat []) caps s k = k caps s.
Proof. reflexivity. Qed.

Lemma strip_fold_self : forall l s, strip_fold l (l ++ s) = Some s.
Proof.
  induction l as [|c l IH]; intros s; [reflexivity|]. cbn [app strip_fold fold1]. rewrite Z.eqb_refl. apply IH.
Qed.

Lemma strip_self : forall l s, strip l (l ++ s) = Some s.
Proof. induction l as [|c l IH]; intros s; [destruct s; reflexivity|]. cbn [app strip]. rewrite Z.eqb_refl. apply IH. Qed.

Lemma m_ilit : forall l s caps k y, k caps s = Some y -> rmatch (ilit l) caps (l ++ s) k = Some y.
Proof. intros l s caps k y K. cbn [rmatch ilit]. rewrite strip_fold_self. exact K. Qed.

Lemma m_lit : forall l s caps k y, k caps s = Some y -> rmatch (lit l) caps (l ++ s) k = Some y.
Proof. intros l s caps k y K. cbn [rmatch lit]. rewrite strip_self. exact K. Qed.

Lemma m_plus : forall c u v caps k y, forallb c u = true -> u <> [] -> starts c v = false -> k caps v = Some y ->
  rmatch (plus c) caps (u ++ v) k = Some y.
Proof.
  intros c [|x u] v caps k y U NE V K; [congruence|]. cbn [forallb] in U. apply andb_prop in U as [X U].
  cbn [plus rmatch cls byte1 app]. rewrite X. apply star_max; assumption.
Qed.

Lemma m_star : forall c u v caps k y, forallb c u = true -> starts c v = false -> k caps v = Some y ->
  rmatch (star_of c) caps (u ++ v) k = Some y.
Proof. intros. cbn [star_of rmatch]. apply star_max; assumption. Qed.

Lemma m_group : forall a u v caps k y,
  (forall k', k' caps v = Some y -> rmatch a caps (u ++ v) k' = Some y) -> k (caps ++ [u]) v = Some y ->
  rmatch (Group a) caps (u ++ v) k = Some y.
Proof. intros a u v caps k y M K. cbn [rmatch]. apply M. rewrite group_capture. exact K. Qed.

Lemma m_group_plus : forall c u v caps k y, forallb c u = true -> u <> [] -> starts c v = false -> k (caps ++ [u]) v = Some y ->
  rmatch (Group (plus c)) caps (u ++ v) k = Some y.
Proof. intros. apply m_group; [|assumption]. intros. apply m_plus; assumption. Qed.

Lemma m_group_star : forall c u v caps k y, forallb c u = true -> starts c v = false -> k (caps ++ [u]) v = Some y ->
  rmatch (Group (star_of c)) caps (u ++ v) k = Some y.
Proof. intros. apply m_group; [|assumption]. intros. apply m_star; assumption. Qed.

Lemma rfind_skip : forall r p s, (forall a b, p = a ++ b -> b <> [] -> rmatch r [] (b ++ s) (fun caps _ => Some caps) = None) ->
  rfind r (p ++ s) = rfind r s.
Proof.
  intros r p s. induction p as [|x p IH]; intros N; [reflexivity|].
  cbn [app rfind]. change (x :: p ++ s) with ((x :: p) ++ s). rewrite (N [] (x :: p)); [|reflexivity|discriminate].
  apply IH. intros a b E B. apply (N (x :: a)); [rewrite E; reflexivity|exact B].
Qed.

Lemma rfind_here : forall r s y, rmatch r [] s (fun caps _ => Some caps) = Some y -> rfind r s = Some y.
Proof. intros r [|x s] y H; cbn [rfind]; rewrite H; reflexivity. Qed.

Lemma fold1_byte : forall c x r s, fold1 c (x :: r) = Some s -> lower c <> 107 -> lower c <> 115 -> lower x = lower c /\ s = r.
Proof.
  intros c x r s H K S. unfold fold1 in H. destruct (lower x =? lower c) eqn:E.
  - inversion H. split; [lia|reflexivity].
  - replace (lower c =? 107) with false in H by lia. replace (lower c =? 115) with false in H by lia. discriminate.
Qed.

Lemma fold1_ascii : forall c x r s, fold1 c (x :: r) = Some s -> x < 128 -> lower x = lower c /\ s = r.
Proof.
  intros c x r s H A. unfold fold1 in H. destruct (lower x =? lower c) eqn:E.
  - inversion H. split; [lia|reflexivity].
  - cbn [has_prefix] in H. replace (226 =? x) with false in H by lia. replace (197 =? x) with false in H by lia.
    rewrite !andb_false_l, !andb_false_r in H. discriminate.
Qed.

(** "delta:" is not found where there is no 'l' two bytes further on. *)
Definition no_l (s : bytes) : Prop := Forall (fun c => c <> 108 /\ c <> 76) s.

Lemma delta_early : forall b s, no_l b -> b <> [] -> strip_fold (str "delta:") (b ++ str "delta:" ++ s) = None.
Proof.
  intros b s N NE. destruct b as [|x b]; [congruence|].
  change (str "delta:") with [100; 101; 108; 116; 97; 58]. cbn [strip_fold].
  destruct (fold1 100 ((x :: b) ++ [100; 101; 108; 116; 97; 58] ++ s)) as [s1|] eqn:F1; [|reflexivity].
  cbn [app] in F1. apply fold1_byte in F1 as [_ ->]; [|discriminate|discriminate].
  destruct b as [|y b]; [reflexivity|].
  destruct (fold1 101 ((y :: b) ++ 100 :: 101 :: 108 :: 116 :: 97 :: 58 :: s)) as [s2|] eqn:F2; [|reflexivity].
  cbn [app] in F2. apply fold1_byte in F2 as [_ ->]; [|discriminate|discriminate].
  destruct b as [|z b]; [reflexivity|].
  destruct (fold1 108 ((z :: b) ++ 100 :: 101 :: 108 :: 116 :: 97 :: 58 :: s)) as [s3|] eqn:F3; [|reflexivity].
  cbn [app] in F3. apply fold1_byte in F3 as [Z _]; [|discriminate|discriminate].
  inversion N as [|? ? _ N2]; inversion N2 as [|? ? _ N3]; inversion N3 as [|? ? [Z1 Z2] _]; subst.
  change (lower 108) with 108 in Z. unfold lower in Z. destruct ((65 <=? z) && (z <=? 90)) eqn:E; lia.
Qed.

(** A tag is not found in white space and two hexadecimal digits before it. *)
Definition tag_like (tag : bytes) : Prop :=
  exists a b c r, tag = a :: b :: c :: r /\ lower a <> 32 /\ lower b <> 32 /\ lower c <> 32.

Definition gap (n : nat) (h1 h2 : Z) : bytes := repeat 32 n ++ [h1; h2; 32].

Lemma fold1_space : forall c r, lower c <> 32 -> fold1 c (32 :: r) = None.
Proof.
  intros c r N. destruct (fold1 c (32 :: r)) eqn:F; [|reflexivity]. apply fold1_ascii in F as [F _]; [|lia].
  change (lower 32) with 32 in F. congruence.
Qed.

Lemma gap_early : forall tag n h1 h2 a b s, tag_like tag -> h1 < 128 -> h2 < 128 ->
  gap n h1 h2 = a ++ b -> b <> [] -> strip_fold tag (b ++ s) = None.
Proof.
  intros tag n h1 h2 a b s (c1 & c2 & c3 & r & -> & N1 & N2 & N3) H1 H2 E NE.
  assert (D : (exists t, b = 32 :: t) \/ b = [h1; h2; 32] \/ b = [h2; 32]).
  { revert a E. induction n as [|n IH]; intros a E.
    - unfold gap in E. cbn [repeat app] in E. destruct a as [|x1 [|x2 [|x3 a]]]; cbn [app] in E.
      + right; left. congruence.
      + right; right. congruence.
      + left. exists []. congruence.
      + destruct a; cbn in E; [|discriminate]. destruct b; [congruence|discriminate].
    - destruct a as [|x a].
      + left. exists (gap n h1 h2). cbn [app] in E. rewrite <- E. reflexivity.
      + apply (IH a). unfold gap in E |- *. cbn [repeat app] in E. congruence. }
  cbn [strip_fold]. destruct D as [[t ->] | [-> | ->]]; cbn [app].
  - rewrite fold1_space by exact N1. reflexivity.
  - destruct (fold1 c1 (h1 :: h2 :: 32 :: s)) as [s1|] eqn:F1; [|reflexivity].
    apply fold1_ascii in F1 as [_ ->]; [|exact H1].
    destruct (fold1 c2 (h2 :: 32 :: s)) as [s2|] eqn:F2; [|reflexivity].
    apply fold1_ascii in F2 as [_ ->]; [|exact H2]. rewrite fold1_space by exact N3. reflexivity.
  - destruct (fold1 c1 (h2 :: 32 :: s)) as [s1|] eqn:F1; [|reflexivity].
    apply fold1_ascii in F1 as [_ ->]; [|exact H2]. rewrite fold1_space by exact N2. reflexivity.
Qed.

(** A literal that cannot match because of the bytes that are there, whatever follows. *)
Fixpoint clash (l s : bytes) : bool :=
  match l, s with
  | c :: l', x :: s' => if lower x =? lower c then clash l' s' else x <? 128
  | _, _ => false
  end.

Lemma clash_none : forall l s r, clash l s = true -> strip_fold l (s ++ r) = None.
Proof.
  induction l as [|c l IH]; intros [|x s] r H; try discriminate. cbn [clash] in H. cbn [app strip_fold].
  destruct (lower x =? lower c) eqn:E.
  - unfold fold1. rewrite E. apply IH, H.
  - destruct (fold1 c (x :: s ++ r)) eqn:F; [|reflexivity]. apply fold1_ascii in F as [F _]; lia.
Qed.

Fixpoint suffixes (s : bytes) : list bytes := match s with [] => [] | _ :: r => s :: suffixes r end.

Lemma suffixes_in : forall a b, b <> [] -> In b (suffixes (a ++ b)).
Proof.
  induction a as [|x a IH]; intros b B.
  - destruct b; [congruence|]. left. reflexivity.
  - right. apply IH, B.
Qed.

(** No suffix of [s ++ r] that starts in [s] matches. *)
Lemma clash_suffixes : forall l s r a b, forallb (clash l) (suffixes s) = true -> b <> [] -> s = a ++ b -> strip_fold l (b ++ r) = None.
Proof.
  intros l s r a b F B ->. rewrite forallb_forall in F. apply clash_none, F, suffixes_in, B.
Qed.
