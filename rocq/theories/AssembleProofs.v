(** * AssembleProofs: fixups, lines, chunks. *)
From Verif Require Import Base Strings Tables Vlq Event Marshal Assemble SpecAssemble.

(** ** Fixups *)

Lemma is_continuation_spec : forall e, is_continuation e = true <-> continues e.
Proof.
  intros [t d b s ty body]. unfold is_continuation, continues. cbn [e_body].
  destruct body; split; intro H; try discriminate; try (destruct H as (x & y & H); discriminate); eauto.
Qed.

Definition mark2 (fin : bool) (e : event) : event := if fin then close_continuation (close_message e) else e.

Lemma is_continuation_close_message : forall e, is_continuation (close_message e) = is_continuation e.
Proof. intros [t d b s ty body]. destruct body; reflexivity. Qed.

Lemma close_loop_head : forall es e, exists e' es', close_loop close_message (e :: es) = e' :: es' /\ is_continuation e' = is_continuation e.
Proof.
  intros [|n es] e; cbn [close_loop]; [eauto|]. do 2 eexists. split; [reflexivity|].
  destruct (is_continuation n); [reflexivity|apply is_continuation_close_message].
Qed.

(** The two loops as one. *)
Fixpoint close_all (es : list event) : list event :=
  match es with
  | p :: (n :: _) as rest => (if is_continuation n then p else close_continuation (close_message p)) :: close_all rest
  | _ => es
  end.

Lemma close_both : forall es, close_loop close_continuation (close_loop close_message es) = close_all es.
Proof.
  induction es as [|p es IH]; [reflexivity|]. destruct es as [|n es]; [reflexivity|].
  change (close_loop close_message (p :: n :: es)) with
    ((if is_continuation n then p else close_message p) :: close_loop close_message (n :: es)).
  destruct (close_loop_head es n) as (n' & es' & E & C). rewrite E in *.
  change (close_loop close_continuation ((if is_continuation n then p else close_message p) :: n' :: es')) with
    ((if is_continuation n' then (if is_continuation n then p else close_message p)
      else close_continuation (if is_continuation n then p else close_message p)) :: close_loop close_continuation (n' :: es')).
  rewrite IH, C. destruct (is_continuation n) eqn:K; cbn [close_all]; rewrite K; reflexivity.
Qed.

Lemma marked_close : forall e, marked true e (close_continuation (close_message e)).
Proof. intros [t d b s ty body]. destruct body; unfold marked; cbn; repeat split. Qed.

Lemma marked_refl_unmarked : forall e, unmarked e -> marked false e e.
Proof. auto. Qed.

Lemma close_all_nth : forall es i e n e', nth_error es i = Some e -> nth_error es (S i) = Some n ->
  nth_error (close_all es) i = Some e' -> e' = if is_continuation n then e else close_continuation (close_message e).
Proof.
  induction es as [|p es IH]; intros [|i] e n e' H1 H2 H3; try discriminate.
  - destruct es as [|x es]; [discriminate|]. cbn in H1, H2. injection H1 as ->. injection H2 as ->. cbn in H3. congruence.
  - destruct es as [|x es]; [destruct i; discriminate|]. apply (IH i e n e'); auto.
Qed.

Lemma close_all_length : forall es, length (close_all es) = length es.
Proof.
  induction es as [|p es IH]; [reflexivity|]. destruct es as [|n es]; [reflexivity|].
  cbn [close_all length] in *. f_equal. exact IH.
Qed.

Lemma close_all_last : forall es e, nth_error es (length es - 1) = Some e -> nth_error (close_all es) (length es - 1) = Some e.
Proof.
  induction es as [|p es IH]; intros e H; [discriminate|]. destruct es as [|n es]; [exact H|].
  change (close_all (p :: n :: es)) with ((if is_continuation n then p else close_continuation (close_message p)) :: close_all (n :: es)).
  replace (length (p :: n :: es) - 1)%nat with (S (length (n :: es) - 1)) in * by (cbn; lia). cbn [nth_error] in *. apply IH. exact H.
Qed.

Lemma fixups_spec : forall es, es <> [] -> exists es', fixups es = Ok es' /\ length es' = length es /\
  (forall i e n e', nth_error es i = Some e -> nth_error es (S i) = Some n -> nth_error es' i = Some e' ->
     (continues n -> e' = e) /\ (~ continues n -> marked true e e')) /\
  (forall e e', nth_error es (length es - 1) = Some e -> nth_error es' (length es - 1) = Some e' -> e' = e).
Proof.
  intros es N. exists (close_all es). split; [|split; [apply close_all_length|split]].
  - destruct es as [|e es]; [congruence|]. cbn [fixups]. rewrite close_both. reflexivity.
  - intros i e n e' H1 H2 H3. pose proof (close_all_nth _ _ _ _ _ H1 H2 H3) as ->. split; intro C.
    + apply is_continuation_spec in C. rewrite C. reflexivity.
    + destruct (is_continuation n) eqn:K; [apply is_continuation_spec in K; contradiction|]. apply marked_close.
  - intros e e' H1 H2. apply close_all_last in H1. congruence.
Qed.

Lemma fixups_unmarked : forall es es' i e n e', Forall unmarked es -> fixups es = Ok es' ->
  nth_error es i = Some e -> nth_error es (S i) = Some n -> nth_error es' i = Some e' ->
  (continues n -> marked false e e') /\ (~ continues n -> marked true e e').
Proof.
  intros es es' i e n e' U F H1 H2 H3.
  destruct (fixups_spec es) as (es'' & F' & _ & S & _); [intro; subst; discriminate|].
  rewrite F in F'. apply Ok_inj in F'. subst es''. destruct (S i e n e' H1 H2 H3) as [A B]. split; [|exact B].
  intro C. rewrite (A C). rewrite Forall_forall in U. apply U. eapply nth_error_In. exact H1.
Qed.

Lemma marked_written : forall fin e e' p, payload e = Some p -> marked fin e e' ->
  marshal e' = Ok (e_status e :: vlf_encode (p ++ (if fin then [247] else []))).
Proof.
  intros fin [t d b s ty body] [t' d' b' s' ty' body'] p P (E1 & E2 & E3 & E4 & E5 & E6). cbn in *. subst.
  destruct body; try discriminate; injection P as <-; subst; unfold marshal; cbn [e_body e_status]; rewrite <- ?app_assoc; reflexivity.
Qed.

(** ** Lines *)

Lemma drop_cr_chomped : forall l, chomped l (drop_cr l).
Proof.
  intro l. unfold drop_cr. destruct (rev l) as [|c r] eqn:E.
  - apply chomped_none. intros l' H. subst. rewrite rev_app_distr in E. discriminate.
  - assert (L : l = rev r ++ [c]) by (rewrite <- (rev_involutive l), E; reflexivity).
    destruct (Z.eq_dec c 13) as [->|N].
    + rewrite L. apply chomped_cr.
    + replace (match c with 13 => rev r | _ => l end) with l.
      * apply chomped_none. intros l' H. rewrite L in H. apply app_inj_tail in H as [_ H]. congruence.
      * destruct c as [|p|p]; try reflexivity. do 4 (destruct p as [p|p|]; try reflexivity). congruence.
Qed.

Lemma chomped_det : forall l a b, chomped l a -> chomped l b -> a = b.
Proof.
  intros l a b H. destruct H as [x|x H]; intro K.
  - inversion K as [y E|y N E]; subst.
    + apply app_inj_tail in E as [-> _]. reflexivity.
    + exfalso. apply (N x). reflexivity.
  - inversion K as [y E|y N E]; subst; [exfalso; apply (H b); reflexivity|reflexivity].
Qed.

Lemma scan_lines_spec : forall text acc ls, ~ In 10 acc -> scan_lines acc text = (ls, true) -> lines_of (rev acc ++ text) ls.
Proof.
  induction text as [|c r IH]; intros acc ls N H; cbn [scan_lines] in H.
  - rewrite app_nil_r. destruct acc as [|x acc]; [injection H as <-; constructor|].
    destruct (65535 <? zlen (x :: acc)); [discriminate|]. injection H as <-. apply lines_last.
    + intro E. apply (f_equal (@length Z)) in E. rewrite rev_length in E. discriminate.
    + rewrite <- in_rev. exact N.
    + apply drop_cr_chomped.
  - destruct (Z.eqb_spec c 10) as [->|C].
    + destruct (65535 <? zlen acc); [discriminate|]. destruct (scan_lines [] r) as [ls' ok] eqn:E. injection H as <- ->.
      apply lines_next; [rewrite <- in_rev; exact N|apply drop_cr_chomped|]. apply (IH [] ls'); [intros []|exact E].
    + specialize (IH (c :: acc) ls). cbn [rev] in IH. rewrite <- app_assoc in IH. apply IH; [|exact H].
      intros [|I]; [congruence|contradiction].
Qed.

Lemma scan_lines_fails : forall text acc, ~ In 10 acc ->
  snd (scan_lines acc text) = false <-> long_line (rev acc ++ text).
Proof.
  assert (Short : forall l x, ~ In 10 l -> zlen l <= 65535 -> ~ long_line x -> ~ long_line (l ++ 10 :: x)).
  { intros l x Nl Ll Nx (a & m & b & E & Lm & Nm). apply Nx.
    assert (K : (exists a', a = (l ++ [10]) ++ a') \/ zlen a <= zlen l).
    { assert (D : zlen a <= zlen l \/ zlen l < zlen a) by lia. destruct D as [D|D]; [right; exact D|left].
      change (l ++ 10 :: x) with (l ++ [10] ++ x) in E. rewrite app_assoc in E.
      assert (F : firstn (length (l ++ [10%Z])) ((l ++ [10]) ++ x) = firstn (length (l ++ [10%Z])) (a ++ m ++ b)) by (rewrite E; reflexivity).
      rewrite firstn_app_exact in F. exists (skipn (length (l ++ [10%Z])) a).
      assert (G : firstn (length (l ++ [10%Z])) (a ++ m ++ b) = firstn (length (l ++ [10%Z])) a).
      { rewrite firstn_app. replace (length (l ++ [10%Z]) - length a)%nat with 0%nat; [cbn; apply app_nil_r|].
        unfold zlen in D. rewrite app_length. cbn. lia. }
      rewrite G in F. rewrite F at 1. symmetry. apply firstn_skipn. }
    destruct K as [[a' ->]|K].
    - exists a', m, b. repeat split; auto. rewrite <- app_assoc in E. change (l ++ 10 :: x) with (l ++ [10] ++ x) in E.
      rewrite <- !app_assoc in E. apply app_inv_head in E. apply app_inv_head in E. exact E.
    - exfalso. (* position of the newline lies in m *)
      assert (I : nth_error (a ++ m ++ b) (length l) = Some 10).
      { rewrite <- E. rewrite nth_error_app2 by lia. rewrite Nat.sub_diag. reflexivity. }
      rewrite nth_error_app2 in I by (unfold zlen in K; lia).
      rewrite nth_error_app1 in I by (unfold zlen in *; lia).
      apply Nm. eapply nth_error_In. exact I. }
  assert (Tail : forall l x, long_line x -> long_line (l ++ 10 :: x)).
  { intros l x (a & m & b & E & Lm & Nm). exists (l ++ 10 :: a), m, b. subst. rewrite <- app_assoc. auto. }
  induction text as [|c r IH]; intros acc N; cbn [scan_lines].
  - rewrite app_nil_r. destruct acc as [|x acc].
    + cbn. split; [discriminate|]. intros (a & m & b & E & L & _). destruct a; [|discriminate]. destruct m; [cbn in L; lia|discriminate].
    + destruct (65535 <? zlen (x :: acc)) eqn:E; cbn [snd].
      * split; [intros _|reflexivity]. exists [], (rev (x :: acc)), []. rewrite app_nil_r. repeat split; auto.
        -- unfold zlen in *. rewrite rev_length. lia.
        -- rewrite <- in_rev. exact N.
      * split; [discriminate|]. intros (a & m & b & F & L & _). exfalso. apply (f_equal (@length Z)) in F.
        rewrite rev_length, !app_length in F. unfold zlen in *. lia.
  - destruct (Z.eqb_spec c 10) as [->|C].
    + destruct (65535 <? zlen acc) eqn:E; cbn [snd].
      * split; [intros _|reflexivity]. exists [], (rev acc), (10 :: r). repeat split; auto.
        -- unfold zlen in *. rewrite rev_length. lia.
        -- rewrite <- in_rev. exact N.
      * destruct (scan_lines [] r) as [ls ok] eqn:F. cbn [snd]. specialize (IH [] (fun x => x)). rewrite F in IH. cbn [snd rev app] in IH.
        split; intro H.
        -- apply Tail, IH, H.
        -- destruct ok; [|reflexivity]. exfalso. refine (Short (rev acc) r _ _ _ H).
           ++ rewrite <- in_rev. exact N.
           ++ unfold zlen in *. rewrite rev_length. lia.
           ++ intro K. apply IH in K. discriminate.
    + specialize (IH (c :: acc)). cbn [rev] in IH. rewrite <- app_assoc in IH. apply IH. intros [|I]; [congruence|contradiction].
Qed.

Lemma lines_of_det : forall text a b, lines_of text a -> lines_of text b -> a = b.
Proof.
  intros text a b H. revert b. induction H as [|l l' Ne N C|l l' r ls N C H IH]; intros b K.
  - inversion K as [|? ? Ne|? ? ? ? ? ? ? E]; subst; [reflexivity|congruence|destruct l; discriminate].
  - inversion K as [|x x' Ne' N' C' E|x x' r ls N' C' H' E]; subst; [congruence| |].
    + f_equal. eapply chomped_det; eauto.
    + exfalso. apply N. apply in_or_app. right. left. reflexivity.
  - inversion K as [E|x x' Ne' N' C' E|x x' r' ls' N' C' H' E]; subst.
    + destruct l; discriminate.
    + exfalso. apply N'. apply in_or_app. right. left. reflexivity.
    + assert (D : x = l /\ r' = r).
      { clear - N N' E. revert x N' E. induction l as [|c l IH]; intros [|d x] N' E; cbn in E.
        - injection E as ->. auto.
        - injection E as -> E. exfalso. apply N'. left. reflexivity.
        - injection E as <- E. exfalso. apply N. left. reflexivity.
        - injection E as -> E. destruct (IH (fun I => N (or_intror I)) x (fun I => N' (or_intror I)) E) as [-> ->]. auto. }
      destruct D as [-> ->]. f_equal; [eapply chomped_det; eauto|apply IH; exact H'].
Qed.

(** ** Chunks *)

Lemma has_prefix_spec : forall p s, has_prefix p s = true <-> exists b, s = p ++ b.
Proof.
  induction p as [|x p IH]; intros s; cbn [has_prefix].
  - split; [intros _; exists s; reflexivity|reflexivity].
  - destruct s as [|y s]; [split; [discriminate|intros [b E]; discriminate]|]. rewrite andb_true_iff, IH, Z.eqb_eq. split.
    + intros [-> [b ->]]. exists b. reflexivity.
    + intros [b E]. cbn in E. injection E as -> ->. eauto.
Qed.

Lemma contains_spec : forall s sub, contains s sub = true <-> occurs sub s.
Proof.
  induction s as [|c s IH]; intros sub.
  - cbn [contains]. rewrite orb_false_r, has_prefix_spec. split.
    + intros [b E]. exists [], b. exact E.
    + intros (a & b & E). destruct a; [|discriminate]. exists b. exact E.
  - cbn [contains]. rewrite orb_true_iff, has_prefix_spec, IH. split.
    + intros [[b E]|(a & b & E)]; [exists [], b; exact E|exists (c :: a), b; cbn; congruence].
    + intros (a & b & E). destruct a as [|x a]; [left; exists b; exact E|]. cbn in E. injection E as -> E. right. exists a, b. exact E.
Qed.

Lemma has_tag_spec : forall l, has_tag l = true <-> tag_line l.
Proof. intro l. unfold has_tag, tag_line, header_line, track_line. rewrite orb_true_iff, !contains_spec. reflexivity. Qed.

Lemma header_spec : forall l, contains l (str "MThd") = true <-> header_line l.
Proof. intro l. apply contains_spec. Qed.

Lemma not_tag : forall l, has_tag l = false -> ~ tag_line l.
Proof. intros l H K. apply has_tag_spec in K. congruence. Qed.

Lemma collect_spec : forall lines h t, Forall (fun l => ~ tag_line l) t -> tag_line h ->
  exists t' cs, collect (h :: t) lines = (h :: t') :: cs /\ concat (collect (h :: t) lines) = h :: t ++ lines /\
    Forall one_chunk (collect (h :: t) lines).
Proof.
  induction lines as [|l lines IH]; intros h t T H; cbn [collect].
  - exists t, []. cbn [concat]. rewrite !app_nil_r. split; [reflexivity|]. split; [reflexivity|].
    constructor; [exists h, t; auto|constructor].
  - destruct (has_tag l) eqn:E.
    + apply has_tag_spec in E. destruct (IH l [] (Forall_nil _) E) as (t' & cs & E1 & E2 & E3).
      exists t, (collect [l] lines). split; [reflexivity|]. split.
      * cbn [concat]. rewrite E2. reflexivity.
      * constructor; [exists h, t; auto|exact E3].
    + apply not_tag in E. destruct (IH h (t ++ [l])) as (t' & cs & E1 & E2 & E3); [|exact H|].
      * apply Forall_app. split; [exact T|]. constructor; [exact E|constructor].
      * change ((h :: t) ++ [l]) with (h :: t ++ [l]). exists t', cs. rewrite <- app_assoc in E2. auto.
Qed.

Lemma chunkify_spec : forall lines, exists before, divides lines before (chunkify lines) /\
  Forall (fun l => ~ header_line l) before /\
  match chunkify lines with [] => True | c :: _ => header_line (hd [] c) end.
Proof.
  induction lines as [|l lines IH]; cbn [chunkify].
  - exists []. repeat split; constructor.
  - destruct (contains l (str "MThd")) eqn:E.
    + apply header_spec in E. destruct (collect_spec lines l [] (Forall_nil _) (or_introl E)) as (t & cs & E1 & E2 & E3).
      exists []. split; [split; [symmetry; exact E2|exact E3]|]. split; [constructor|]. rewrite E1. exact E.
    + assert (N : ~ header_line l) by (intro K; apply header_spec in K; congruence).
      destruct IH as (b & [D1 D2] & F & H). exists (l :: b). split; [split; [cbn; f_equal; exact D1|exact D2]|]. split; [constructor; auto|exact H].
Qed.

(** The division is unique. *)
Lemma chunks_det : forall cs cs', Forall one_chunk cs -> Forall one_chunk cs' -> concat cs = concat cs' -> cs = cs'.
Proof.
  assert (Split : forall t t' r r', Forall (fun l => ~ tag_line l) t -> Forall (fun l => ~ tag_line l) t' ->
    (match r with [] => True | x :: _ => tag_line x end) -> (match r' with [] => True | x :: _ => tag_line x end) ->
    t ++ r = t' ++ r' -> t = t' /\ r = r').
  { induction t as [|x t IH]; intros [|y t'] r r' T T' R R' E; cbn in E.
    - auto.
    - subst r. inversion T'; subst. contradiction.
    - subst r'. inversion T; subst. contradiction.
    - injection E as -> E. inversion T; inversion T'; subst. destruct (IH t' r r') as [-> ->]; auto. }
  assert (Head : forall cs, Forall one_chunk cs -> match concat cs with [] => True | x :: _ => tag_line x end).
  { intros [|c cs] F; [exact I|]. inversion F as [|? ? (h & t & -> & H & _)]; subst. exact H. }
  induction cs as [|c cs IH]; intros [|c' cs'] F F' E.
  - reflexivity.
  - inversion F' as [|? ? (h & t & -> & _)]; subst. discriminate.
  - inversion F as [|? ? (h & t & -> & _)]; subst. discriminate.
  - inversion F as [|? ? (h & t & -> & H & T) F2]; subst. inversion F' as [|? ? (h' & t' & -> & H' & T') F2']; subst.
    cbn in E. injection E as -> E. destruct (Split t t' (concat cs) (concat cs') T T' (Head _ F2) (Head _ F2') E) as [-> E2].
    f_equal. apply IH; auto.
Qed.

Lemma concat_head : forall cs, Forall one_chunk cs -> match cs with [] => True | c :: _ => header_line (hd [] c) end ->
  match concat cs with [] => True | x :: _ => header_line x end.
Proof. intros [|c cs0] F K; [exact I|]. inversion F as [|? ? (h & t & -> & _)]; subst. exact K. Qed.

Lemma before_det : forall b b' x y, Forall (fun l => ~ header_line l) b -> Forall (fun l => ~ header_line l) b' ->
  match x with [] => True | l :: _ => header_line l end -> match y with [] => True | l :: _ => header_line l end ->
  b ++ x = b' ++ y -> x = y.
Proof.
  intros b b' x y B. revert b'. induction B as [|l b N B IH]; intros b' B' Hx Hy D.
  - destruct B' as [|l' b' N' B']; [exact D|]. cbn in D. subst x. contradiction.
  - destruct B' as [|l' b' N' B']; cbn in D; [subst y; contradiction|]. injection D as -> D. apply (IH b'); auto.
Qed.

Lemma read_chunks_ok : forall text cs, read_chunks text = Ok cs <->
  ~ long_line text /\ exists lines before, lines_of text lines /\ divides lines before cs /\
    Forall (fun l => ~ header_line l) before /\ match cs with [] => True | c :: _ => header_line (hd [] c) end.
Proof.
  intros text cs. unfold read_chunks. pose proof (scan_lines_fails text [] (fun x => x)) as L. cbn [rev app] in L.
  pose proof (fun ls => scan_lines_spec text [] ls (fun x => x)) as S. cbn [rev app] in S.
  destruct (scan_lines [] text) as [ls ok]. cbn [snd] in L. destruct ok.
  - specialize (S ls eq_refl). assert (NL : ~ long_line text) by (intro K; apply L in K; discriminate).
    destruct (chunkify_spec ls) as (b & D & B & H). split.
    + intro E. apply Ok_inj in E. subst cs. split; [exact NL|]. exists ls, b. auto.
    + intros (_ & lines & b' & S' & D' & B' & H'). f_equal. rewrite (lines_of_det _ _ _ S' S) in D'.
      destruct D as [D1 D2], D' as [D1' D2'].
      apply chunks_det; auto. refine (before_det _ _ _ _ B B' (concat_head _ D2 H) (concat_head _ D2' H') _). congruence.
  - split; [discriminate|]. intros (NL & _). exfalso. apply NL, L. reflexivity.
Qed.

Lemma read_chunks_err : forall text, read_chunks text = Err <-> long_line text.
Proof.
  intros text. unfold read_chunks. pose proof (scan_lines_fails text [] (fun x => x)) as L. cbn [rev app] in L.
  destruct (scan_lines [] text) as [ls ok]. cbn [snd] in L. destruct ok; rewrite <- L; split; congruence.
Qed.

Lemma track_before_header : exists text cs lines, read_chunks text = Ok cs /\ lines_of text lines /\
  forall before, ~ (divides lines before cs /\ Forall (fun l => ~ tag_line l) before).
Proof.
  exists (str "MTrk" ++ [10] ++ str "MThd" ++ [10]), [[str "MThd"]], [str "MTrk"; str "MThd"].
  split; [vm_compute; reflexivity|]. split; [apply (scan_lines_spec _ [] _ (fun x => x)); vm_compute; reflexivity|].
  intros [|l b] [[D _] F]; [discriminate|]. injection D as <- _. inversion F as [|? ? N _]; subst. apply N. right. exists [], []. reflexivity.
Qed.
