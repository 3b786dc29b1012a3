(** * Proofs for C127. *)
From Coq Require Import Permutation Sorted.
From Verif Require Import Base Strings Tables Event Track File Notes SpecDivided TransposeProofs.

(** Sorted and with names: what of an event counts but its time *)
Definition gist_of (e : nevent) : Z * body * bool := (ne_tick e, ne_body e, ne_flats e).

Definition same_raw (x y : nevent) : Prop := ne_tick y = ne_tick x /\ ne_body y = ne_body x.

Inductive raw_divided (chosen : Z -> bool) : list nevent -> list nevent -> list nevent -> Prop :=
| rd_nil : raw_divided chosen [] [] []
| rd_first : forall e e' l l1 l2, same_raw e e' -> partial_event chosen (ne_body e) -> raw_divided chosen l l1 l2 -> raw_divided chosen (e :: l) (e' :: l1) l2
| rd_second : forall e e' l l1 l2, same_raw e e' -> partial_event (fun c => negb (chosen c)) (ne_body e) -> raw_divided chosen l l1 l2 -> raw_divided chosen (e :: l) l1 (e' :: l2)
| rd_both : forall e e1 e2 l l1 l2, same_raw e e1 -> same_raw e e2 -> common_event (ne_body e) -> raw_divided chosen l l1 l2 -> raw_divided chosen (e :: l) (e1 :: l1) (e2 :: l2).

Definition at_least (t : Z) (l : list nevent) : Prop := Forall (fun e => t <= ne_tick e) l.

Fixpoint in_order (l : list nevent) : Prop := match l with [] => True | e :: r => at_least (ne_tick e) r /\ in_order r end.

Lemma insert_at_least : forall t x l, t <= ne_tick x -> at_least t l -> at_least t (insert_tick x l).
Proof.
  intros t x l H F. induction F as [|y l Q F IH]; cbn [insert_tick]; [repeat constructor; exact H|]. destruct (ne_tick y <? ne_tick x); repeat (constructor; auto).
Qed.

Lemma insert_in_order : forall x l, in_order l -> in_order (insert_tick x l).
Proof.
  intros x l. induction l as [|y l IH]; intros H; cbn [insert_tick in_order] in *; [split; [constructor|exact I]|]. destruct H as [H1 H2].
  destruct (Z.ltb_spec (ne_tick y) (ne_tick x)); cbn [in_order].
  - split; [apply insert_at_least; [lia|exact H1]|apply IH, H2].
  - split; [|split; assumption]. constructor; [lia|]. revert H1. apply Forall_impl. intros a Q. lia.
Qed.

Lemma sort_in_order : forall l, in_order (sort_ticks l).
Proof. induction l; cbn [sort_ticks]; [exact I|]. apply insert_in_order. assumption. Qed.

Lemma divided_at_least : forall chosen t l l1 l2, raw_divided chosen l l1 l2 -> at_least t l -> at_least t l1 /\ at_least t l2.
Proof.
  intros chosen t l l1 l2 D. induction D as [|e e' l l1 l2 [Q _] _ D IH|e e' l l1 l2 [Q _] _ D IH|e e1 e2 l l1 l2 [Q1 _] [Q2 _] _ D IH]; intros H; [split; constructor|..];
    inversion H as [|? ? H1 H2]; subst; specialize (IH H2); destruct IH; split; auto; constructor; auto; lia.
Qed.

Lemma insert_front : forall x l, at_least (ne_tick x) l -> insert_tick x l = x :: l.
Proof. intros x l F. destruct F as [|y l H F]; [reflexivity|]. cbn [insert_tick]. destruct (Z.ltb_spec (ne_tick y) (ne_tick x)); [lia|reflexivity]. Qed.

(** [x] put into the first list, the second one or both *)
Lemma insert_divided : forall chosen x x1 x2 l l1 l2 (b1 b2 : bool), raw_divided chosen l l1 l2 -> in_order l -> ne_tick x1 = ne_tick x -> ne_tick x2 = ne_tick x ->
  (forall m m1 m2, raw_divided chosen m m1 m2 -> raw_divided chosen (x :: m) (if b1 then x1 :: m1 else m1) (if b2 then x2 :: m2 else m2)) ->
  raw_divided chosen (insert_tick x l) (if b1 then insert_tick x1 l1 else l1) (if b2 then insert_tick x2 l2 else l2).
Proof.
  intros chosen x x1 x2 l l1 l2 b1 b2 D O T1 T2 K.
  assert (FRONT : forall m m1 m2, raw_divided chosen m m1 m2 -> at_least (ne_tick x) m ->
     raw_divided chosen (insert_tick x m) (if b1 then insert_tick x1 m1 else m1) (if b2 then insert_tick x2 m2 else m2)).
  { intros m m1 m2 M A. destruct (divided_at_least _ _ _ _ _ M A) as [A1 A2]. rewrite (insert_front x), (insert_front x1), (insert_front x2) by (rewrite ?T1, ?T2; assumption). apply K, M. }
  induction D as [|e e' l l1 l2 Q R D IH|e e' l l1 l2 Q R D IH|e e1 e2 l l1 l2 Q1 Q2 R D IH].
  - apply FRONT; constructor.
  - destruct O as [O1 O2]. destruct (Z.ltb_spec (ne_tick e) (ne_tick x)) as [L|L].
    + cbn [insert_tick]. replace (ne_tick e <? ne_tick x) with true by lia. rewrite (proj1 Q), T1. replace (ne_tick e <? ne_tick x) with true by lia.
      specialize (IH O2). destruct b1; apply rd_first; auto.
    + apply FRONT; [apply rd_first; auto|]. constructor; [lia|]. revert O1. apply Forall_impl. intros a W. lia.
  - destruct O as [O1 O2]. destruct (Z.ltb_spec (ne_tick e) (ne_tick x)) as [L|L].
    + cbn [insert_tick]. replace (ne_tick e <? ne_tick x) with true by lia. rewrite (proj1 Q), T2. replace (ne_tick e <? ne_tick x) with true by lia.
      specialize (IH O2). destruct b2; apply rd_second; auto.
    + apply FRONT; [apply rd_second; auto|]. constructor; [lia|]. revert O1. apply Forall_impl. intros a W. lia.
  - destruct O as [O1 O2]. destruct (Z.ltb_spec (ne_tick e) (ne_tick x)) as [L|L].
    + cbn [insert_tick]. replace (ne_tick e <? ne_tick x) with true by lia. rewrite (proj1 Q1), (proj1 Q2), T1, T2. replace (ne_tick e <? ne_tick x) with true by lia.
      specialize (IH O2). destruct b1, b2; apply rd_both; auto.
    + apply FRONT; [apply rd_both; auto|]. constructor; [lia|]. revert O1. apply Forall_impl. intros a W. lia.
Qed.

Lemma sort_divided : forall chosen l l1 l2, raw_divided chosen l l1 l2 -> raw_divided chosen (sort_ticks l) (sort_ticks l1) (sort_ticks l2).
Proof.
  intros chosen l l1 l2 D. induction D as [|e e' l l1 l2 Q R D IH|e e' l l1 l2 Q R D IH|e e1 e2 l l1 l2 Q1 Q2 R D IH]; cbn [sort_ticks]; [constructor|..].
  - apply (insert_divided chosen e e' e _ _ _ true false IH (sort_in_order l)); [apply Q|reflexivity|]. intros. apply rd_first; auto.
  - apply (insert_divided chosen e e e' _ _ _ false true IH (sort_in_order l)); [reflexivity|apply Q|]. intros. apply rd_second; auto.
  - apply (insert_divided chosen e e1 e2 _ _ _ true true IH (sort_in_order l)); [apply Q1|apply Q2|]. intros. apply rd_both; auto.
Qed.

Lemma unsorted_divided : forall chosen l l1 l2 tm, Forall (fun e => is_tempo (e_body e) = true) tm -> divided chosen l l1 l2 -> raw_divided chosen (unsorted l tm) (unsorted l1 tm) (unsorted l2 tm).
Proof.
  intros chosen l l1 l2 tm T D. unfold unsorted. induction D as [|e e' l l1 l2 Q R D IH|e e' l l1 l2 Q R D IH|e e1 e2 l l1 l2 Q1 Q2 R D IH]; cbn [map app].
  - induction T as [|e tm H T IH]; cbn [map]; [constructor|]. apply rd_both; [split; reflexivity|split; reflexivity| |exact IH]. cbn [ne_body]. destruct (e_body e); try discriminate H. exact I.
  - apply rd_first; auto.
  - apply rd_second; auto.
  - apply rd_both; auto.
Qed.

(** With times: the lists of notes, of which only the gist counts *)
Inductive notes_divided (chosen : Z -> bool) : list nevent -> list nevent -> list nevent -> Prop :=
| nd_nil : notes_divided chosen [] [] []
| nd_first : forall e e' l l1 l2, gist_of e' = gist_of e -> partial_event chosen (ne_body e) -> notes_divided chosen l l1 l2 -> notes_divided chosen (e :: l) (e' :: l1) l2
| nd_second : forall e e' l l1 l2, gist_of e' = gist_of e -> partial_event (fun c => negb (chosen c)) (ne_body e) -> notes_divided chosen l l1 l2 -> notes_divided chosen (e :: l) l1 (e' :: l2)
| nd_both : forall e e1 e2 l l1 l2, gist_of e1 = gist_of e -> gist_of e2 = gist_of e -> common_event (ne_body e) -> notes_divided chosen l l1 l2 -> notes_divided chosen (e :: l) (e1 :: l1) (e2 :: l2).

Lemma times_divided : forall chosen p l l1 l2, p <> 0 -> raw_divided chosen l l1 l2 -> forall t a t1 a1 t2 a2 flats,
  exists u u1 u2, timestamps t a flats p l = Ok u /\ timestamps t1 a1 flats p l1 = Ok u1 /\ timestamps t2 a2 flats p l2 = Ok u2 /\ notes_divided chosen u u1 u2.
Proof.
  intros chosen p l l1 l2 P D. assert (DT : forall d t, exists x, delta_time d t p = Ok x) by (intros d t; unfold delta_time; destruct (Z.eqb_spec p 0); [contradiction|eauto]).
  induction D as [|e e' l l1 l2 [Q Q'] R D IH|e e' l l1 l2 [Q Q'] R D IH|e e1 e2 l l1 l2 [Q1 Q1'] [Q2 Q2'] R D IH]; intros t a t1 a1 t2 a2 flats; cbn [timestamps].
  - exists [], [], []. repeat split; constructor.
  - destruct (DT (ne_delta e) t) as [x ->]. destruct (DT (ne_delta e') t1) as [x' ->]. cbn [bind]. rewrite Q'.
    assert (FL : match ne_body e with KeySignature acc _ _ => acc <? 0 | _ => flats end = flats) by (destruct (ne_body e); try reflexivity; destruct R). rewrite FL.
    match goal with |- context [timestamps ?tt ?aa flats p l] => match goal with |- context [timestamps ?tu ?au flats p l1] => destruct (IH tt aa tu au t2 a2 flats) as (u & u1 & u2 & -> & -> & -> & N) end end.
    cbn [bind]. do 3 eexists. split; [reflexivity|]. split; [reflexivity|]. split; [reflexivity|]. apply nd_first; auto. unfold gist_of. cbn [ne_tick ne_body ne_flats]. rewrite Q. reflexivity.
  - destruct (DT (ne_delta e) t) as [x ->]. destruct (DT (ne_delta e') t2) as [x' ->]. cbn [bind]. rewrite Q'.
    assert (FL : match ne_body e with KeySignature acc _ _ => acc <? 0 | _ => flats end = flats) by (destruct (ne_body e); try reflexivity; destruct R). rewrite FL.
    match goal with |- context [timestamps ?tt ?aa flats p l] => match goal with |- context [timestamps ?tu ?au flats p l2] => destruct (IH tt aa t1 a1 tu au flats) as (u & u1 & u2 & -> & -> & -> & N) end end.
    cbn [bind]. do 3 eexists. split; [reflexivity|]. split; [reflexivity|]. split; [reflexivity|]. apply nd_second; auto. unfold gist_of. cbn [ne_tick ne_body ne_flats]. rewrite Q. reflexivity.
  - destruct (DT (ne_delta e) t) as [x ->]. destruct (DT (ne_delta e1) t1) as [x1 ->]. destruct (DT (ne_delta e2) t2) as [x2 ->]. cbn [bind]. rewrite Q1', Q2'.
    match goal with |- context [timestamps ?tt ?aa ?ff p l] => match goal with |- context [timestamps ?tu ?au ff p l1] => match goal with |- context [timestamps ?tv ?av ff p l2] =>
      destruct (IH tt aa tu au tv av ff) as (u & u1 & u2 & -> & -> & -> & N) end end end.
    cbn [bind]. do 3 eexists. split; [reflexivity|]. split; [reflexivity|]. split; [reflexivity|]. apply nd_both; auto; unfold gist_of; cbn [ne_tick ne_body ne_flats]; rewrite ?Q1, ?Q2; reflexivity.
Qed.

Definition noted (l : list nevent) : list nevent := filter (fun e => is_note_event (ne_body e)) l.

Lemma gist_body : forall e e', gist_of e' = gist_of e -> ne_body e' = ne_body e.
Proof. intros e e' H. unfold gist_of in H. congruence. Qed.

Lemma noted_divided : forall chosen l l1 l2, notes_divided chosen l l1 l2 -> notes_divided chosen (noted l) (noted l1) (noted l2).
Proof.
  intros chosen l l1 l2 D. unfold noted. induction D as [|e e' l l1 l2 Q R D IH|e e' l l1 l2 Q R D IH|e e1 e2 l l1 l2 Q1 Q2 R D IH]; cbn [filter]; [constructor|..].
  - rewrite (gist_body _ _ Q). destruct (is_note_event (ne_body e)); [apply nd_first|]; auto.
  - rewrite (gist_body _ _ Q). destruct (is_note_event (ne_body e)); [apply nd_second|]; auto.
  - rewrite (gist_body _ _ Q1), (gist_body _ _ Q2). destruct (is_note_event (ne_body e)); [apply nd_both|]; auto.
Qed.

(** Notes *)
Lemma finished_gist : forall env steps p p' e e', gist_of p' = gist_of p -> gist_of e' = gist_of e -> untimed (finished env steps p' e') = untimed (finished env steps p e).
Proof.
  intros env steps p p' e e' P E. unfold gist_of in P, E. injection P as P1 P2 P3. injection E as E1 E2 E3. unfold finished. rewrite P2. destruct (ne_body p); try reflexivity.
  unfold untimed. cbn [o_ch o_note o_name o_vel o_start_tick o_end_tick]. rewrite P1, P3, E1. reflexivity.
Qed.

(** [q] holds the keys of [p] on the channels chosen. *)
Definition part_of (chosen : Z -> bool) (p q : pending) : Prop :=
  Forall2 (fun u v => fst v = fst u /\ gist_of (snd v) = gist_of (snd u)) (filter (fun u => chosen (fst (fst u))) p) q.

Lemma part_find : forall chosen k p q, part_of chosen p q -> chosen (fst k) = true ->
  match find_key k p, find_key k q with Some x, Some y => gist_of y = gist_of x | None, None => True | _, _ => False end.
Proof.
  intros chosen k p. induction p as [|[i x] p IH]; intros q F C; unfold part_of in F; cbn [filter fst] in F; [inversion F; subst; exact I|].
  cbn [find_key]. destruct (chosen (fst i)) eqn:K.
  - inversion F as [|? [j y] ? q' [Q1 Q2] F']; subst. cbn [fst snd] in Q1, Q2. subst j. cbn [find_key]. destruct (key_eqb k i); [exact Q2|]. apply IH; assumption.
  - destruct (key_eqb k i) eqn:E; [|apply IH; assumption]. unfold key_eqb in E. assert (fst k = fst i) by lia. congruence.
Qed.

Lemma part_filter : forall chosen (f : Z * Z -> bool) p q, part_of chosen p q -> part_of chosen (filter (fun u => f (fst u)) p) (filter (fun u => f (fst u)) q).
Proof.
  intros chosen f p. unfold part_of. induction p as [|u p IH]; intros q F; cbn [filter] in F |- *; [inversion F; constructor|].
  destruct (chosen (fst (fst u))) eqn:K.
  - inversion F as [|? v ? q' [Q1 Q2] F']; subst. cbn [filter]. rewrite Q1. destruct (f (fst u)); cbn [filter]; rewrite ?K; [constructor; auto|]; auto.
  - destruct (f (fst u)); cbn [filter]; rewrite ?K; auto.
Qed.

Lemma filter_other : forall (A : Type) (f g : A -> bool) l, (forall x, f x = true -> g x = true) -> filter f (filter g l) = filter f l.
Proof.
  intros A f g l H. induction l as [|x l IH]; [reflexivity|]. cbn [filter]. destruct (g x) eqn:G; cbn [filter]; rewrite IH; [reflexivity|].
  destruct (f x) eqn:E; [|reflexivity]. apply H in E. congruence.
Qed.

Lemma part_untouched : forall chosen p q k, part_of chosen p q -> chosen (fst k) = false -> part_of chosen (drop_key k p) q.
Proof.
  intros chosen p q k F C. unfold part_of, drop_key in *. replace (filter (fun u => chosen (fst (fst u))) (filter (fun x => negb (key_eqb k (fst x))) p)) with (filter (fun u => chosen (fst (fst u))) p); [exact F|].
  symmetry. apply filter_other. intros x H. unfold key_eqb. destruct (Z.eqb_spec (fst k) (fst (fst x))) as [E|E]; [congruence|reflexivity].
Qed.

(** The keys still held on one channel, at the end *)
Lemma channel_held : forall chosen c p q, part_of chosen p q ->
  map gist_of (map snd (filter (fun x => fst (fst x) =? c) q)) = if chosen c then map gist_of (map snd (filter (fun x => fst (fst x) =? c) p)) else [].
Proof.
  intros chosen c p q F. pose proof (part_filter chosen (fun i => fst i =? c) p q F) as G. unfold part_of in G.
  assert (E : filter (fun u => chosen (fst (fst u))) (filter (fun u => fst (fst u) =? c) p) = if chosen c then filter (fun u => fst (fst u) =? c) p else []).
  { clear. induction p as [|u p IH]; cbn [filter]; [destruct (chosen c); reflexivity|]. destruct (Z.eqb_spec (fst (fst u)) c) as [E|E]; [|exact IH]. cbn [filter]. rewrite E, IH. destruct (chosen c); reflexivity. }
  cbv beta in G. rewrite E in G. clear E F. destruct (chosen c).
  - induction G as [|u v l l' [_ Q] G IH]; [reflexivity|]. cbn [map]. rewrite Q, IH. reflexivity.
  - inversion G. reflexivity.
Qed.

Lemma ordered_gist : forall env steps order order' l l' e e', (forall l, Permutation l (order l)) -> (forall l, Permutation l (order' l)) -> map gist_of l' = map gist_of l -> gist_of e' = gist_of e ->
  Permutation (map untimed (map (fun on => finished env steps on e) (order l))) (map untimed (map (fun on => finished env steps on e') (order' l'))).
Proof.
  intros env steps order order' l l' e e' O1 O2 H E. eapply Permutation_trans; [apply Permutation_map, Permutation_map, Permutation_sym, O1|].
  eapply Permutation_trans; [|apply Permutation_map, Permutation_map, O2]. rewrite !map_map. clear O1 O2.
  revert l' H. induction l as [|x l IH]; intros [|y l'] H; try discriminate H; [constructor|]. cbn [map] in H |- *. injection H as H1 H2 H3 H4.
  rewrite (finished_gist env steps x y e e'); [|unfold gist_of; congruence|exact E]. constructor. apply IH. exact H4.
Qed.

Lemma ordered_none : forall (order : list nevent -> list nevent) l, (forall l, Permutation l (order l)) -> map gist_of l = [] -> order l = [].
Proof. intros order l O H. apply map_eq_nil in H. subst l. apply Permutation_nil, O. Qed.

Lemma finish_all_divided : forall chosen env steps order order' p q1 q2 e e1 e2, (forall l, Permutation l (order l)) -> (forall l, Permutation l (order' l)) ->
  part_of chosen p q1 -> part_of (fun c => negb (chosen c)) p q2 -> gist_of e1 = gist_of e -> gist_of e2 = gist_of e ->
  Permutation (map untimed (finish_all env steps order p e)) (map untimed (finish_all env steps order' q1 e1) ++ map untimed (finish_all env steps order' q2 e2)).
Proof.
  intros chosen env steps order order' p q1 q2 e e1 e2 O1 O2 F1 F2 E1 E2. unfold finish_all. induction channels16 as [|c cs IH]; cbn [flat_map]; [constructor|].
  rewrite !map_app. pose proof (channel_held _ c _ _ F1) as C1. pose proof (channel_held _ c _ _ F2) as C2. cbv beta in C2.
  destruct (chosen c); cbn [negb] in C2.
  - rewrite (ordered_none order' _ O2 C2). cbn [map app]. rewrite <- app_assoc. apply Permutation_app; [|exact IH]. apply ordered_gist; auto.
  - rewrite (ordered_none order' _ O2 C1). cbn [map app]. eapply Permutation_trans; [apply Permutation_app; [apply ordered_gist; [exact O1|exact O2|exact C2|exact E2]|exact IH]|].
    rewrite !app_assoc. apply Permutation_app; [apply Permutation_app_comm|reflexivity].
Qed.

(** One key released: the same note in the part it belongs to *)
Lemma finish_part : forall chosen env steps p q k e e', part_of chosen p q -> chosen (fst k) = true -> gist_of e' = gist_of e ->
  map untimed (fst (finish env steps q k e')) = map untimed (fst (finish env steps p k e)) /\ part_of chosen (snd (finish env steps p k e)) (snd (finish env steps q k e')).
Proof.
  intros chosen env steps p q k e e' F C E. unfold finish. pose proof (part_find chosen k p q F C) as Q.
  destruct (find_key k p), (find_key k q); try contradiction; cbn [fst snd].
  - split; [cbn [map]; rewrite (finished_gist env steps n n0 e e'); auto|]. apply (part_filter chosen (fun i => negb (key_eqb k i))). exact F.
  - split; [reflexivity|exact F].
Qed.

Lemma finish_other : forall chosen env steps p q k e, part_of chosen p q -> chosen (fst k) = false -> part_of chosen (snd (finish env steps p k e)) q.
Proof.
  intros chosen env steps p q k e F C. unfold finish. destruct (find_key k p); cbn [snd]; [|exact F]. apply part_untouched; assumption.
Qed.

Lemma part_cons : forall chosen k x y p q, part_of chosen p q -> gist_of y = gist_of x -> chosen (fst k) = true -> part_of chosen ((k, x) :: p) ((k, y) :: q).
Proof. intros chosen k x y p q F H C. unfold part_of. cbn [filter fst]. rewrite C. constructor; [split; [reflexivity|exact H]|exact F]. Qed.

Lemma part_skip : forall chosen k x p q, part_of chosen p q -> chosen (fst k) = false -> part_of chosen ((k, x) :: p) q.
Proof. intros chosen k x p q F C. unfold part_of. cbn [filter fst]. rewrite C. exact F. Qed.

Definition list_divided (env : env) (steps : Z) (order order' : list nevent -> list nevent) (p q1 q2 : pending) (l l1 l2 : list nevent) : Prop :=
  forall ns, note_list env steps order p l = Ok ns -> exists ns1 ns2, note_list env steps order' q1 l1 = Ok ns1 /\ note_list env steps order' q2 l2 = Ok ns2 /\
    Permutation (map untimed ns) (map untimed (ns1 ++ ns2)).

Lemma released_first : forall chosen env steps order order' l l1 l2 e e' p q1 q2 k, gist_of e' = gist_of e -> chosen (fst k) = true ->
  part_of chosen p q1 -> part_of (fun c => negb (chosen c)) p q2 ->
  (forall p q1 q2, part_of chosen p q1 -> part_of (fun c => negb (chosen c)) p q2 -> list_divided env steps order order' p q1 q2 l l1 l2) ->
  forall ns, (let (out, p') := finish env steps p k e in do ns <- note_list env steps order p' l; Ok (out ++ ns)) = Ok ns ->
  exists ns1 ns2, (let (out, p') := finish env steps q1 k e' in do ns <- note_list env steps order' p' l1; Ok (out ++ ns)) = Ok ns1 /\ note_list env steps order' q2 l2 = Ok ns2 /\
    Permutation (map untimed ns) (map untimed (ns1 ++ ns2)).
Proof.
  intros chosen env steps order order' l l1 l2 e e' p q1 q2 k E C F1 F2 IH ns H. destruct (finish_part chosen env steps p q1 k e e' F1 C E) as [M N].
  pose proof (finish_other (fun c => negb (chosen c)) env steps p q2 k e F2 ltac:(cbv beta; rewrite C; reflexivity)) as N2.
  destruct (finish env steps p k e) as [out p'], (finish env steps q1 k e') as [out' q']. cbn [fst snd] in M, N, N2.
  destruct (note_list env steps order p' l) as [ms| | | |] eqn:D; try discriminate H. cbn [bind] in H. apply Ok_inj in H. subst ns.
  destruct (IH _ _ _ N N2 ms D) as (ns1 & ns2 & -> & -> & P). cbn [bind]. do 2 eexists. split; [reflexivity|]. split; [reflexivity|].
  rewrite <- app_assoc, !(map_app untimed out), !(map_app untimed out'), M. apply Permutation_app_head. exact P.
Qed.

Lemma list_swap : forall env steps order order' p q1 q2 l l1 l2, list_divided env steps order order' p q1 q2 l l1 l2 -> list_divided env steps order order' p q2 q1 l l2 l1.
Proof.
  intros env steps order order' p q1 q2 l l1 l2 H ns D. destruct (H ns D) as (a & b & A & B & P). exists b, a. split; [exact B|]. split; [exact A|].
  eapply Permutation_trans; [exact P|]. rewrite !map_app. apply Permutation_app_comm.
Qed.

Lemma struck_first : forall chosen env steps order order' l l1 l2 e e' p q1 q2, gist_of e' = gist_of e -> partial_event chosen (ne_body e) ->
  part_of chosen p q1 -> part_of (fun c => negb (chosen c)) p q2 ->
  (forall p q1 q2, part_of chosen p q1 -> part_of (fun c => negb (chosen c)) p q2 -> list_divided env steps order order' p q1 q2 l l1 l2) ->
  list_divided env steps order order' p q1 q2 (e :: l) (e' :: l1) l2.
Proof.
  intros chosen env steps order order' l l1 l2 e e' p q1 q2 E R F1 F2 IH ns H. cbn [note_list] in *. rewrite (gist_body _ _ E).
  destruct (ne_body e); cbn [partial_event] in R; try contradiction; try (apply (IH p q1 q2 F1 F2 ns H)).
  - match type of H with context [finish env steps p ?k e] => exact (released_first chosen env steps order order' l l1 l2 e e' p q1 q2 k E R F1 F2 IH ns H) end.
  - match type of H with context [0 <? ?w] => destruct (0 <? w) end.
    + match type of H with context [find_key ?k p] => pose proof (part_find chosen k p q1 F1 R) as Q; destruct (find_key k p), (find_key k q1); try contradiction; [exact (IH p q1 q2 F1 F2 ns H)|] end.
      match type of H with context [?c <? 16] => destruct (c <? 16); [|discriminate H] end.
      apply (IH _ _ _ (part_cons chosen (ch, n_value n) e e' _ _ F1 E R) (part_skip (fun c => negb (chosen c)) (ch, n_value n) e _ _ F2 ltac:(cbv beta; cbn [fst]; rewrite R; reflexivity)) ns H).
    + match type of H with context [finish env steps p ?k e] => exact (released_first chosen env steps order order' l l1 l2 e e' p q1 q2 k E R F1 F2 IH ns H) end.
Qed.

Lemma part_twice : forall chosen p q, part_of chosen p q -> part_of (fun c => negb (negb (chosen c))) p q.
Proof.
  intros chosen p q F. unfold part_of in *. replace (filter (fun u => negb (negb (chosen (fst (fst u))))) p) with (filter (fun u => chosen (fst (fst u))) p); [exact F|].
  apply filter_ext. intros u. rewrite Bool.negb_involutive. reflexivity.
Qed.

Lemma part_once : forall chosen p q, part_of (fun c => negb (negb (chosen c))) p q -> part_of chosen p q.
Proof.
  intros chosen p q F. unfold part_of in *. replace (filter (fun u => chosen (fst (fst u))) p) with (filter (fun u => negb (negb (chosen (fst (fst u))))) p); [exact F|].
  apply filter_ext. intros u. rewrite Bool.negb_involutive. reflexivity.
Qed.

Lemma lists_divided : forall chosen env steps order order' l l1 l2, (forall l, Permutation l (order l)) -> (forall l, Permutation l (order' l)) -> notes_divided chosen l l1 l2 ->
  forall p q1 q2, part_of chosen p q1 -> part_of (fun c => negb (chosen c)) p q2 -> list_divided env steps order order' p q1 q2 l l1 l2.
Proof.
  intros chosen env steps order order' l l1 l2 O1 O2 D. induction D as [|e e' l l1 l2 Q R D IH|e e' l l1 l2 Q R D IH|e e1 e2 l l1 l2 Q1 Q2 R D IH]; intros p q1 q2 F1 F2.
  - intros ns H. cbn [note_list] in *. apply Ok_inj in H. subst ns. exists [], []. repeat split. constructor.
  - apply (struck_first chosen); auto.
  - apply list_swap. apply (struck_first (fun c => negb (chosen c))); auto using part_twice. intros p' r1 r2 G1 G2. apply list_swap. apply IH; auto using part_once.
  - intros ns H. cbn [note_list] in *. rewrite (gist_body _ _ Q1), (gist_body _ _ Q2). destruct (ne_body e) eqn:K; cbn [common_event] in R; try contradiction; try (apply (IH p q1 q2 F1 F2 ns H)).
    assert (N1 := part_filter chosen (fun i => negb (existsb (Z.eqb (fst i)) channels16)) p q1 F1).
    assert (N2 := part_filter (fun c => negb (chosen c)) (fun i => negb (existsb (Z.eqb (fst i)) channels16)) p q2 F2). cbv beta in N1, N2.
    destruct (note_list env steps order _ l) as [ms| | | |] eqn:E; try discriminate H. cbn [bind] in H. apply Ok_inj in H. subst ns.
    destruct (IH _ _ _ N1 N2 ms E) as (ns1 & ns2 & A & B & P). rewrite A, B. cbn [bind]. do 2 eexists. split; [reflexivity|]. split; [reflexivity|].
    rewrite !map_app in *. eapply Permutation_trans; [apply Permutation_app; [apply (finish_all_divided chosen env steps order order' p q1 q2 e e1 e2); assumption|exact P]|].
    rewrite <- !app_assoc. apply Permutation_app_head. rewrite !app_assoc. apply Permutation_app_tail. apply Permutation_app_comm.
Qed.

Lemma divided_nil : forall chosen l1 l2, divided chosen [] l1 l2 -> l1 = [] /\ l2 = [].
Proof. intros chosen l1 l2 D. inversion D. auto. Qed.

Lemma track_divided : forall chosen env steps order order' tm p t t1 t2 ns, (forall l, Permutation l (order l)) -> (forall l, Permutation l (order' l)) ->
  Forall (fun e => is_tempo (e_body e) = true) tm -> divided chosen (t_events t) (t_events t1) (t_events t2) -> track_notes env steps order tm p t = Ok ns ->
  exists ns1 ns2, track_notes env steps order' tm p t1 = Ok ns1 /\ track_notes env steps order' tm p t2 = Ok ns2 /\ Permutation (map untimed ns) (map untimed (ns1 ++ ns2)).
Proof.
  intros chosen env steps order order' tm p t t1 t2 ns O1 O2 T D H. unfold track_notes, build_track_events in *.
  pose proof (sort_divided _ _ _ _ (unsorted_divided chosen _ _ _ tm T D)) as S0. destruct (Z.eq_dec p 0) as [->|NZ].
  - destruct S0; try (cbn in H; discriminate H). cbn in H. apply Ok_inj in H. subst ns. exists [], []. repeat split. constructor.
  - destruct (times_divided chosen p _ _ _ NZ S0 50000 0 50000 0 50000 0 false) as (u & u1 & u2 & A & B & C & N). rewrite A in H. rewrite B, C. cbn [bind] in *.
    apply (lists_divided chosen env steps order order' _ _ _ O1 O2 (noted_divided _ _ _ _ N) [] [] []); auto; constructor.
Qed.

Lemma tracks_app : forall env steps order tm p a b, tracks_notes env steps order tm p (a ++ b) = (do x <- tracks_notes env steps order tm p a; do y <- tracks_notes env steps order tm p b; Ok (x ++ y)).
Proof.
  intros env steps order tm p a b. induction a as [|t a IH]; cbn [app tracks_notes].
  - cbn [bind]. destruct (tracks_notes env steps order tm p b); reflexivity.
  - destruct (track_notes env steps order tm p t); try reflexivity. cbn [bind]. rewrite IH. destruct (tracks_notes env steps order tm p a); try reflexivity. cbn [bind].
    destruct (tracks_notes env steps order tm p b); try reflexivity. cbn [bind]. rewrite app_assoc. reflexivity.
Qed.

(** The tracks that are not divided: only the orders differ. *)
Definition is_common (b : body) : bool := match b with NoteOn _ _ _ | NoteOff _ _ _ => false | _ => true end.

Lemma all_first : forall l, notes_divided (fun _ => true) l l (filter (fun e => is_common (ne_body e)) l).
Proof.
  induction l as [|e l IH]; cbn [filter]; [constructor|]. destruct (is_common (ne_body e)) eqn:K; [apply nd_both|apply nd_first]; auto; destruct (ne_body e); try discriminate K; try exact I; reflexivity.
Qed.

Lemma common_silent : forall env steps order l, (forall l, Permutation l (order l)) -> Forall (fun e => is_common (ne_body e) = true) l -> note_list env steps order [] l = Ok [].
Proof.
  intros env steps order l O F. induction F as [|e l H F IH]; [reflexivity|]. cbn [note_list]. destruct (ne_body e); try discriminate H; try exact IH.
  cbn [filter]. rewrite IH. cbn [bind]. rewrite app_nil_r. f_equal. unfold finish_all. induction channels16 as [|c cs IHc]; [reflexivity|]. cbn [flat_map]. rewrite IHc. cbn [filter map].
  rewrite (ordered_none order [] O eq_refl). reflexivity.
Qed.

Lemma track_undivided : forall env steps order order' tm p t t' ns, (forall l, Permutation l (order l)) -> (forall l, Permutation l (order' l)) -> t_events t' = t_events t ->
  track_notes env steps order tm p t = Ok ns -> exists ns', track_notes env steps order' tm p t' = Ok ns' /\ Permutation (map untimed ns) (map untimed ns').
Proof.
  intros env steps order order' tm p t t' ns O1 O2 E H. unfold track_notes in *. rewrite E. destruct (build_track_events (t_events t) tm p) as [l| | | |]; try discriminate H. cbn [bind] in *.
  destruct (lists_divided (fun _ => true) env steps order order' l l _ O1 O2 (all_first l) [] [] [] ltac:(constructor) ltac:(constructor) ns H) as (n1 & n2 & A & B & P).
  rewrite common_silent in B; [|exact O2|apply Forall_forall; intros e I; apply filter_In in I; tauto]. apply Ok_inj in B. subst n2. rewrite app_nil_r in P. exists n1. split; assumption.
Qed.

Lemma tracks_undivided : forall env steps order order' tm p ts ts' ns, (forall l, Permutation l (order l)) -> (forall l, Permutation l (order' l)) -> map t_events ts' = map t_events ts ->
  tracks_notes env steps order tm p ts = Ok ns -> exists ns', tracks_notes env steps order' tm p ts' = Ok ns' /\ Permutation (map untimed ns) (map untimed ns').
Proof.
  intros env steps order order' tm p ts. induction ts as [|t ts IH]; intros [|t' ts'] ns O1 O2 E H; try discriminate E; cbn [tracks_notes map] in *.
  - apply Ok_inj in H. subst ns. exists []. split; [reflexivity|constructor].
  - injection E as E1 E2. destruct (track_notes env steps order tm p t) as [a| | | |] eqn:A; try discriminate H. cbn [bind] in H.
    destruct (tracks_notes env steps order tm p ts) as [b| | | |] eqn:B; try discriminate H. cbn [bind] in H. apply Ok_inj in H. subst ns.
    destruct (track_undivided env steps order order' tm p t t' a O1 O2 E1 A) as (a' & -> & P). destruct (IH ts' b O1 O2 E2 eq_refl) as (b' & -> & Q). cbn [bind].
    exists (a' ++ b'). split; [reflexivity|]. rewrite !map_app. apply Permutation_app; assumption.
Qed.

Theorem divided_notes : forall chosen env steps order order' s s' ns, divided_file chosen s s' -> (forall l, Permutation l (order l)) -> (forall l, Permutation l (order' l)) ->
  extract env steps order s = Ok ns -> exists ns', extract env steps order' s' = Ok ns' /\ Permutation (map untimed ns) (map untimed ns').
Proof.
  intros chosen env steps order order' s s' ns (P & t0 & a & t & b & t0' & a' & t1 & t2 & b' & S1 & S2 & E0 & EA & EB & D) O1 O2 H. unfold extract in *. rewrite S1 in H. rewrite S2, E0.
  destruct (f_mthd s) as [h|], (f_mthd s') as [h'|]; cbn [option_map] in P; try discriminate P; [|destruct a; discriminate H]. injection P as P. rewrite <- P.
  assert (X : tracks_notes env steps order (tempo_events (t_events t0)) (h_ppqn h) (a ++ t :: b) = Ok ns) by (destruct a; exact H). clear H.
  cut (exists ns', tracks_notes env steps order' (tempo_events (t_events t0)) (h_ppqn h) (a' ++ t1 :: t2 :: b') = Ok ns' /\ Permutation (map untimed ns) (map untimed ns')); [intros Y; destruct a'; exact Y|].
  set (tm := tempo_events (t_events t0)) in *. assert (T : Forall (fun e => is_tempo (e_body e) = true) tm) by (apply Forall_forall; intros e I; apply filter_In in I; tauto).
  rewrite tracks_app in *. cbn [tracks_notes] in *.
  destruct (tracks_notes env steps order tm (h_ppqn h) a) as [na| | | |] eqn:A; try discriminate X. cbn [bind] in X.
  destruct (track_notes env steps order tm (h_ppqn h) t) as [nt| | | |] eqn:B; try discriminate X. cbn [bind] in X.
  destruct (tracks_notes env steps order tm (h_ppqn h) b) as [nb| | | |] eqn:C; try discriminate X. cbn [bind] in X. apply Ok_inj in X. subst ns.
  destruct (tracks_undivided env steps order order' tm _ a a' na O1 O2 EA A) as (na' & -> & PA). destruct (tracks_undivided env steps order order' tm _ b b' nb O1 O2 EB C) as (nb' & -> & PB).
  destruct (track_divided chosen env steps order order' tm _ t t1 t2 nt O1 O2 T D B) as (n1 & n2 & -> & -> & PT). cbn [bind].
  eexists. split; [reflexivity|]. rewrite !map_app in *. apply Permutation_app; [exact PA|]. rewrite app_assoc. apply Permutation_app; assumption.
Qed.
