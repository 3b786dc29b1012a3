(** * LineReadProofs: plain lines are read. *)
From Verif Require Import Base Strings Vlq SpecVlq Tables Event SpecEvent SpecTrack SpecKey SpecDecimal SpecText SpecTable SpecAssemble SpecSurvive SpecRead SpecLine
  Manufacturer Hex Regex TextEvent DecimalProofs AssembleProofs RegexProofs TextProofs TextReadProofs LineProofs.

(** ** Pieces *)

Lemma no_white_starts : forall v, no_white v -> starts white v = false.
Proof. intros [|c v] N; [reflexivity|]. cbn [starts]. destruct (white c) eqn:W; [|reflexivity]. apply white_is in W. destruct (N c v eq_refl W). Qed.
Lemma no_digit_starts : forall v, no_digit v -> starts digit v = false.
Proof. intros [|c v] N; [reflexivity|]. cbn [starts]. destruct (digit c) eqn:W; [|reflexivity]. apply digit_is in W. destruct (N c v eq_refl W). Qed.

Lemma f_sp : forall rs caps w v y, blank w -> starts white v = false -> rmatch (cat rs) caps v fin = Some y -> rmatch (cat (spaces_re :: rs)) caps (w ++ v) fin = Some y.
Proof. intros rs caps w v y [N W] S R. rewrite rmatch_cat. apply m_plus; [apply whites_are, W|exact N|exact S|exact R]. Qed.

Lemma f_ws : forall rs caps w v y, blanks w -> starts white v = false -> rmatch (cat rs) caps v fin = Some y -> rmatch (cat (star_of white :: rs)) caps (w ++ v) fin = Some y.
Proof. intros rs caps w v y W S R. rewrite rmatch_cat. apply m_star; [apply whites_are, W|exact S|exact R]. Qed.

Lemma f_num : forall rs caps n u v y, num n u -> starts digit v = false -> rmatch (cat rs) (caps ++ [u]) v fin = Some y -> rmatch (cat (number :: rs)) caps (u ++ v) fin = Some y.
Proof. intros rs caps n u v y (N & D & _) S R. rewrite rmatch_cat. apply m_group_plus; [apply digits_are, D|exact N|exact S|exact R]. Qed.

Lemma f_word : forall l rs caps x v y, spelled l x -> rmatch (cat rs) caps v fin = Some y -> rmatch (cat (ilit l :: rs)) caps (x ++ v) fin = Some y.
Proof. intros l rs caps x v y X R. rewrite rmatch_cat. cbn [rmatch ilit]. rewrite (strip_spelled l x v X). exact R. Qed.

Lemma f_rest : forall caps t r, ~ In 10 t -> line_end r -> rmatch (cat [rest_re]) caps (t ++ r) fin = Some (caps ++ [t]).
Proof.
  intros caps t r T R. rewrite rmatch_cat. apply m_group_star; [apply dots_are, T| |reflexivity]. destruct R as [-> |[r' ->]]; reflexivity.
Qed.

Lemma spelled_starts : forall p c l x v, spelled (c :: l) x -> (forall z, same_letter c z -> p z = false) -> p 226 = false -> p 197 = false -> starts p (x ++ v) = false.
Proof.
  intros p c l x v H P K S. remember (c :: l) as w eqn:E. destruct H; try discriminate; injection E as -> ->; cbn [app starts]; [apply P; assumption|exact K|exact S].
Qed.

Lemma num_white : forall n u v, num n u -> starts white (u ++ v) = false.
Proof.
  intros n [|c u] v (N & D & _); [congruence|]. cbn [app starts]. inversion D; subst. unfold is_digit, white in *. lia.
Qed.
Lemma blank_digit : forall w v, blank w -> starts digit (w ++ v) = false.
Proof. intros [|c w] v [N B]; [congruence|]. cbn [app starts]. inversion B; subst. unfold white_space, digit in *. lia. Qed.

Ltac word_start X := eapply spelled_starts; [exact X| |reflexivity|reflexivity];
  let z := fresh "z" in let S := fresh "S" in intros z S; unfold same_letter, white, digit in *; vm_compute in S; lia.

(** ** Up to the name *)

Lemma plain_found : forall tag rest pre x d mid z tail y n, spelled (str "delta:") x -> num n d -> no_digit (mid ++ z) -> ~ In 10 mid -> spelled tag z -> z <> [] ->
  first_at (str "delta:") (pre ++ x ++ d ++ mid ++ z ++ tail) (length pre) -> first_at tag (mid ++ z ++ tail) (length mid) ->
  rmatch (cat rest) [d] tail fin = Some y -> rfind (event_re tag rest) (pre ++ x ++ d ++ mid ++ z ++ tail) = Some y.
Proof.
  intros tag rest pre x d mid z tail y n X D N M Z ZN FD FT R. unfold event_re. cbn [app].
  assert (H : rmatch (cat (ilit (str "delta:") :: Group (plus digit) :: Star false dot :: ilit tag :: rest)) [] (x ++ d ++ mid ++ z ++ tail) fin = Some y).
  { apply f_word; [exact X|]. apply (f_num _ _ n); [exact D| |].
    - destruct (mid ++ z ++ tail) as [|c r] eqn:E; [reflexivity|]. cbn [starts]. destruct (digit c) eqn:C; [|reflexivity]. apply digit_is in C.
      rewrite app_assoc in E. destruct (mid ++ z) as [|c' r'] eqn:E'; [apply app_eq_nil in E' as [_ E']; contradiction|].
      injection E as -> _. destruct (N c r' eq_refl C).
    - rewrite rmatch_cat. cbn [rmatch]. apply star_lazy; [apply dots_are, M| |].
      + intros a b E B. rewrite rmatch_cat. cbn [rmatch ilit]. destruct (strip_fold tag (b ++ z ++ tail)) as [v|] eqn:S; [|reflexivity]. exfalso.
        apply strip_says in S as (x' & S & X'). assert (L : (length mid <= length a)%nat).
        { apply (FT a x' v); [|exact X']. rewrite E, <- app_assoc, S. reflexivity. }
        rewrite E, app_length in L. destruct b; [congruence|cbn [length] in L; lia].
      + apply f_word; [exact Z|exact R]. }
  rewrite rfind_skip; [apply rfind_here; exact H|]. intros a b E B. rewrite rmatch_cat. cbn [rmatch ilit].
  destruct (strip_fold (str "delta:") (b ++ x ++ d ++ mid ++ z ++ tail)) as [v|] eqn:S; [|reflexivity]. exfalso.
  apply strip_says in S as (x' & S & X'). assert (L : (length pre <= length a)%nat).
  { apply (FD a x' v); [|exact X']. rewrite E, <- app_assoc, S. reflexivity. }
  rewrite E, app_length in L. destruct b; [congruence|cbn [length] in L; lia].
Qed.

(** ** The kinds *)

Lemma f_text : forall caps w t r, blank w -> no_white (t ++ r) -> ~ In 10 t -> line_end r -> rmatch (cat [spaces_re; rest_re]) caps (w ++ t ++ r) fin = Some (caps ++ [t]).
Proof. intros caps w t r W N T R. apply f_sp; [exact W|apply no_white_starts, N|apply f_rest; assumption]. Qed.

Lemma f_last : forall caps n u r, num n u -> no_digit r -> rmatch (cat [number]) caps (u ++ r) fin = Some (caps ++ [u]).
Proof. intros caps n u r U R. apply (f_num _ _ n); [exact U|apply no_digit_starts, R|reflexivity]. Qed.

Lemma f_comma : forall caps w name t r, blank w -> no_white (name ++ [44]) -> ~ In 44 name -> ~ In 10 name -> ~ In 10 t -> line_end r ->
  rmatch (cat (spaces_re :: comma_re)) caps (w ++ name ++ [44] ++ t ++ r) fin = Some ((caps ++ [name]) ++ [t]).
Proof.
  intros caps w name t r W N C D T R. apply f_sp; [exact W| |].
  - destruct name as [|c name]; [reflexivity|]. apply (no_white_starts ((c :: name) ++ [44]) N).
  - unfold comma_re. rewrite rmatch_cat. cbn [rmatch]. apply star_lazy; [apply dots_are, D| |].
    + intros a b E B. destruct b as [|z b]; [congruence|]. rewrite rmatch_cat. cbn [rmatch ilit].
      destruct (strip_fold (str ",") _) as [v|] eqn:S; [|reflexivity]. exfalso. apply strip_says in S as (x & S & X). apply comma_says in X. subst x name.
      injection S as -> _. apply C. apply in_or_app. right. left. reflexivity.
    + rewrite group_capture. apply f_word; [|apply f_rest; assumption]. repeat constructor.
Qed.

Lemma f_channel : forall rs caps c d ch v y, channel_text c d -> num ch d -> starts white v = false -> rmatch (cat rs) (caps ++ [d]) v fin = Some y ->
  rmatch (cat (channel_re ++ rs)) caps (c ++ v) fin = Some y.
Proof.
  intros rs caps c d ch v y (w & x & v' & -> & W & X & V) D S R. rewrite <- !app_assoc. unfold channel_re. cbn [app].
  apply f_sp; [exact W|word_start X|]. apply f_word; [exact X|]. apply (f_num _ _ ch); [exact D|apply blank_digit, V|]. apply f_sp; [exact V|exact S|exact R].
Qed.

Lemma channel_parts : forall c ch, channel_says c ch -> exists d, channel_text c d /\ num ch d /\ parse_channel d = Ok ch /\ 0 <= ch < 16.
Proof.
  intros c ch (w & x & d & v & -> & W & X & D & V & B). exists d. split; [exists w, x, v; repeat (split; [reflexivity || assumption|]); assumption|].
  split; [exact D|]. split; [|exact B]. unfold parse_channel. rewrite (parse_uint_num 8 d ch D) by (change (2 ^ 8) with 256; lia). cbn [bind].
  replace (15 <? ch) with false by lia. reflexivity.
Qed.

Lemma sign_strip : forall a k r, sign a k -> a <> [] -> accidental (a ++ r) = Some r.
Proof. intros a k r S N. destruct S; [congruence| |]; unfold accidental; cbn [app]; cbn; reflexivity. Qed.
Lemma no_sign : forall c r, c <> 226 -> accidental (c :: r) = None.
Proof. intros c r N. unfold accidental. change (str "♯") with [226; 153; 175]. change (str "♭") with [226; 153; 173]. cbn [strip]. replace (226 =? c) with false by lia. reflexivity. Qed.

Lemma f_note : forall rs caps l a k o v y, 65 <= l <= 71 -> sign a k -> is_digit o -> rmatch (cat rs) (caps ++ [l :: a ++ [o]]) v fin = Some y ->
  rmatch (cat (note_field :: rs)) caps ((l :: a ++ [o]) ++ v) fin = Some y.
Proof.
  intros rs caps l a k o v y L A O R. rewrite rmatch_cat. unfold note_field. apply m_group; [|exact R]. intros k' K. cbn [cat fold_right rmatch cls app byte1].
  replace (note_letter_i l) with true by (unfold note_letter_i, note_letter; lia). rewrite <- app_assoc. cbn [app].
  assert (B : byte1 digit (o :: v) = Some v) by (cbn [byte1]; rewrite (proj2 (digit_is o) O); reflexivity).
  unfold opt. cbn [rmatch]. destruct A.
  - cbn [app]. rewrite no_sign by (unfold is_digit in O; lia). rewrite B. exact K.
  - rewrite (sign_strip [226; 153; 175] 1) by (constructor || discriminate). rewrite B, K. reflexivity.
  - rewrite (sign_strip [226; 153; 173] (-1)) by (constructor || discriminate). rewrite B, K. reflexivity.
Qed.

Lemma note_read : forall s n, note_says s n -> exists l a k o, s = l :: a ++ [o] /\ 65 <= l <= 71 /\ sign a k /\ is_digit o /\ parse_note s = Ok n.
Proof.
  intros s n H. destruct H as [l a k o L A O s]. exists l, a, k, o. split; [reflexivity|]. split; [exact L|]. split; [exact A|]. split; [exact O|].
  unfold s. rewrite (parse_note_is l a k o) by (try assumption; unfold note_letter_i, note_letter; lia). replace (note_letter l) with true by (unfold note_letter; lia). reflexivity.
Qed.

Lemma spelled_mode : forall (minor : bool) x rs caps v y, spelled (mode_word minor) x -> rmatch (cat rs) (caps ++ [x]) v fin = Some y ->
  rmatch (cat (Group (Alt (ilit (str "major")) (ilit (str "minor"))) :: rs)) caps (x ++ v) fin = Some y.
Proof.
  intros minor x rs caps v y X R. rewrite rmatch_cat. apply m_group; [|exact R]. intros k' K. cbn [rmatch ilit]. destruct minor; unfold mode_word in X.
  - destruct (strip_fold (str "major") (x ++ v)) as [v'|] eqn:S.
    + exfalso. apply strip_says in S as (x' & S & X'). 
      assert (E : map lower x = map lower (str "minor")) by (apply spelled_lower; [reflexivity|exact X]).
      assert (E' : map lower x' = map lower (str "major")) by (apply spelled_lower; [reflexivity|exact X']).
      apply (f_equal (map lower)) in S. rewrite !map_app, E, E' in S. discriminate.
    + rewrite (strip_spelled _ x v X). exact K.
  - rewrite (strip_spelled _ x v X), K. reflexivity.
Qed.

Lemma f_tonic : forall rs caps c a k w v y, note_letter_i c = true -> sign a k -> blank w -> rmatch (cat rs) (caps ++ [c :: a]) (w ++ v) fin = Some y ->
  rmatch (cat (Group (cat [cls note_letter_i; opt (One accidental)]) :: rs)) caps ((c :: a) ++ w ++ v) fin = Some y.
Proof.
  intros rs caps c a k w v y C A [WN W] R. rewrite rmatch_cat. apply m_group; [|exact R]. intros k' K. cbn [cat fold_right rmatch cls app byte1]. rewrite C.
  unfold opt. cbn [rmatch]. destruct A.
  - cbn [app]. destruct w as [|z w]; [congruence|]. inversion W; subst. cbn [app] in *. rewrite no_sign by (unfold white_space in *; lia). exact K.
  - rewrite (sign_strip [226; 153; 175] 1) by (constructor || discriminate). rewrite K. reflexivity.
  - rewrite (sign_strip [226; 153; 173] (-1)) by (constructor || discriminate). rewrite K. reflexivity.
Qed.

Lemma f_space : forall rs caps w n u v y, blanks w -> num n u -> rmatch (cat rs) caps (u ++ v) fin = Some y ->
  rmatch (cat (star_of white :: ilit (str " ") :: rs)) caps (w ++ [32] ++ u ++ v) fin = Some y.
Proof.
  intros rs caps w n u v y W U R. rewrite rmatch_cat. cbn [rmatch star_of]. apply (star_back white _ _ w); [apply whites_are, W|apply f_word; [repeat constructor|exact R]|].
  intros x r E. injection E as _ <-. destruct U as (N & D & _). destruct u as [|c u]; [congruence|]. inversion D; subst. cbn [app star].
  replace (white c) with false by (unfold white, is_digit in *; lia). rewrite rmatch_cat. cbn [rmatch ilit]. change (str " ") with [32]. cbn [strip_fold].
  rewrite ascii_fold; [reflexivity|unfold is_digit in *; lia|]. change (lower 32) with 32. unfold lower, is_digit in *. destruct ((65 <=? c) && (c <=? 90)) eqn:Q; lia.
Qed.

(** ** Controllers *)

Lemma i_number : forall rs caps s y, rmatch (cat (number :: rs)) caps s fin = Some y ->
  exists u v, s = u ++ v /\ u <> [] /\ Forall is_digit u /\ rmatch (cat rs) (caps ++ [u]) v fin = Some y /\ (passes digit (fun caps s => rmatch (cat rs) caps s fin) -> no_digit v).
Proof.
  intros rs caps s y H. apply i_group_plus in H as (u & v & -> & N & U & K & M). exists u, v. split; [reflexivity|]. split; [exact N|]. split; [apply digits_are, U|].
  split; [exact K|]. intros P c r -> W. specialize (M P). cbn [starts] in M. apply digit_is in W. congruence.
Qed.

Lemma f_control : forall caps a c dc ch s id b x d v r, ~ In 10 a -> channel_text c dc -> num ch dc -> num id s -> no_digit (b ++ x) -> ~ In 10 b -> spelled (str "value:") x ->
  num v d -> no_digit r -> let tail := a ++ c ++ s ++ b ++ x ++ d ++ r in only_at (str "channel:") tail -> only_at (str "value:") tail ->
  rmatch (cat (star_of dot :: channel_re ++ [number; opt (star_of dot); ilit (str "value:"); number])) caps tail fin = Some (((caps ++ [dc]) ++ [s]) ++ [d]).
Proof.
  intros caps a c dc ch s id b x d v r A C CH S BX B X D R tail OC OV.
  assert (SB : starts digit (b ++ x ++ d ++ r) = false).
  { rewrite app_assoc. destruct (b ++ x) as [|z q] eqn:E; [apply app_eq_nil in E as [_ ->]; inversion X|]. cbn [app starts].
    destruct (digit z) eqn:Z; [|reflexivity]. apply digit_is in Z. destruct (BX z q eq_refl Z). }
  assert (M : rmatch (cat (star_of dot :: channel_re ++ [number; opt (star_of dot); ilit (str "value:"); number])) caps tail fin <> None).
  { rewrite rmatch_cat. cbn [rmatch star_of]. apply greedy_some; [apply dots_are, A|].
    pose proof (f_channel [number; opt (star_of dot); ilit (str "value:"); number] caps c dc ch (s ++ b ++ x ++ d ++ r)) as FC.
    destruct (rmatch (cat [number; opt (star_of dot); ilit (str "value:"); number]) (caps ++ [dc]) (s ++ b ++ x ++ d ++ r) fin) as [y|] eqn:E.
    - rewrite (FC y C CH (num_white _ _ _ S) eq_refl). discriminate.
    - exfalso. revert E. rewrite (f_num _ _ id s _ ((caps ++ [dc]) ++ [s] ++ [d]) S SB); [discriminate|].
      rewrite rmatch_cat. unfold opt. cbn [rmatch star_of].
      match goal with |- match ?m with _ => _ end = _ => assert (Q : m <> None) end.
      { apply greedy_some; [apply dots_are, B|]. rewrite (f_word (str "value:") [number] _ x _ _ X (f_last _ v d r D R)). discriminate. }
      match goal with |- match ?m with _ => _ end = _ => destruct m as [y|] eqn:E; [|congruence] end. clear Q. f_equal.
      apply star_greedy in E as (u & w & E & _ & E' & _). apply i_word in E' as (x' & w' & -> & X' & E'). apply i_number in E' as (d' & r' & -> & N' & D' & E' & R').
      specialize (R' (fin_passes digit)). rewrite rmatch_nil in E'. injection E' as <-.
      assert (L : length (a ++ c ++ s ++ b) = length (a ++ c ++ s ++ u)).
      { apply (OV _ x (d ++ r) _ x' (d' ++ r')); [unfold tail; rewrite <- !app_assoc; reflexivity|exact X|unfold tail; rewrite E, <- !app_assoc; reflexivity|exact X']. }
      rewrite !app_length in L. destruct (same_split b (x ++ d ++ r) u (x' ++ d' ++ r') ltac:(lia) E) as [_ E1].
      apply (spelled_split _ _ _ _ _ X X') in E1. destruct D as (_ & DD & _).
      apply (max_split digit) in E1 as [<- _]; [rewrite <- app_assoc; reflexivity|apply digits_are, DD|apply digits_are, D'|apply no_digit_starts, R|apply no_digit_starts, R']. }
  destruct (rmatch _ caps tail fin) as [y|] eqn:E; [|congruence]. clear M. f_equal.
  apply i_star in E as (a' & v1 & E & _ & T & _). unfold channel_re in T. cbn [app] in T. apply i_sp in T as (w' & v2 & -> & W' & T & _).
  apply i_word in T as (xc' & v3 & -> & XC' & T). apply i_number in T as (dc' & v4 & -> & NC' & DC' & T & _). apply i_sp in T as (w2' & v5 & -> & W2' & T & _).
  apply i_number in T as (s' & v6 & -> & NS' & DS' & T & MS'). specialize (MS' value_passes). apply i_skip in T as (b' & v7 & -> & _ & T).
  apply i_word in T as (x' & v8 & -> & X' & T). apply i_number in T as (d' & r' & -> & ND' & DD' & T & R'). specialize (R' (fin_passes digit)).
  rewrite rmatch_nil in T. injection T as <-.
  destruct C as (w & xc & w2 & -> & W & XC & W2).
  assert (L : length (a ++ w) = length (a' ++ w')).
  { apply (OC _ xc (dc ++ w2 ++ s ++ b ++ x ++ d ++ r) _ xc' (dc' ++ w2' ++ s' ++ b' ++ x' ++ d' ++ r')); [unfold tail; rewrite <- !app_assoc; reflexivity|exact XC|rewrite E, <- !app_assoc; reflexivity|exact XC']. }
  assert (LV : length (a ++ (w ++ xc ++ dc ++ w2) ++ s ++ b) = length (a' ++ w' ++ xc' ++ dc' ++ w2' ++ s' ++ b')).
  { apply (OV _ x (d ++ r) _ x' (d' ++ r')); [unfold tail; rewrite <- !app_assoc; reflexivity|exact X|rewrite E, <- !app_assoc; reflexivity|exact X']. }
  assert (EV : d ++ r = d' ++ r').
  { pose proof (same_split (a ++ (w ++ xc ++ dc ++ w2) ++ s ++ b) (x ++ d ++ r) (a' ++ w' ++ xc' ++ dc' ++ w2' ++ s' ++ b') (x' ++ d' ++ r') LV) as Q.
    destruct Q as [_ Q]; [|apply (spelled_split _ _ _ _ _ X X' Q)]. rewrite <- !app_assoc. rewrite <- E. unfold tail. rewrite <- !app_assoc. reflexivity. }
  assert (EC : dc ++ w2 ++ s ++ b ++ x ++ d ++ r = dc' ++ w2' ++ s' ++ b' ++ x' ++ d' ++ r').
  { pose proof (same_split (a ++ w) (xc ++ dc ++ w2 ++ s ++ b ++ x ++ d ++ r) (a' ++ w') (xc' ++ dc' ++ w2' ++ s' ++ b' ++ x' ++ d' ++ r') L) as Q.
    destruct Q as [_ Q]; [|apply (spelled_split _ _ _ _ _ XC XC' Q)]. rewrite <- !app_assoc. rewrite <- E. unfold tail. rewrite <- !app_assoc. reflexivity. }
  destruct CH as (_ & DC & _). destruct S as (NS & DS & _). destruct D as (_ & DD & _).
  assert (NSB : forall (u q : bytes), u <> [] -> Forall is_digit u -> starts white (u ++ q) = false) by (intros u q N F; apply (num_white (digits_value u)); split; [exact N|split; [exact F|reflexivity]]).
  apply (max_split digit) in EC as [<- EC]; [|apply digits_are, DC|apply digits_are, DC'|apply blank_digit, W2|apply blank_digit, W2'].
  apply (max_split white) in EC as [<- EC]; [|apply whites_are, W2|apply whites_are, W2'|apply NSB; assumption|apply NSB; assumption].
  apply (max_split digit) in EC as [<- EC]; [|apply digits_are, DS|apply digits_are, DS'|exact SB|apply no_digit_starts, MS'].
  apply (max_split digit) in EV as [<- _]; [reflexivity|apply digits_are, DD|apply digits_are, DD'|apply no_digit_starts, R|apply no_digit_starts, R'].
Qed.

(** ** All kinds *)

Lemma dispatch : forall table s b i f, nth_error (text_cases table) i = Some (kind_name b, f) -> line_kind s b -> unmarshal_text table s = f s.
Proof.
  intros table s b i f N [O P]. unfold unmarshal_text. apply (first_case_nth _ s i (kind_name b) f); [exact N|apply contains_spec, O|].
  intros j t g J M. destruct (contains s t) eqn:C; [|reflexivity]. apply contains_spec in C. exfalso. apply (P t); [|exact C].
  assert (Q : forall j, nth_error tag_order j = option_map fst (nth_error (text_cases table) j)).
  { intros n. change tag_order with (map fst (text_cases table)). apply nth_error_map. }
  exists j, i. split; [exact J|]. rewrite !Q, M, N. split; reflexivity.
Qed.

Lemma header_event : forall e st ty, line_header e -> e_status e = st -> e_type e = ty -> e = Event 0 (e_delta e) [] st ty (e_body e).
Proof. intros [tk de bs st' ty' b] st ty (T & B & _) S Y. cbn in *. subst. reflexivity. Qed.

Ltac header H := destruct H as (? & ? & ? & ? & ?).

Lemma spelled_refl : forall l, spelled l l.
Proof. induction l as [|c l IH]; [constructor|]. apply sp_letter; [left; reflexivity|exact IH]. Qed.

Lemma key_name_inj : forall m a m' a', key_range a -> key_range a' -> key_name m a = key_name m' a' -> m = m' /\ a = a'.
Proof.
  assert (C : forallb (fun p => forallb (fun q => implb (bytes_eqb (key_name (fst p) (snd p)) (key_name (fst q) (snd q))) (Bool.eqb (fst p) (fst q) && (snd p =? snd q)))
    (list_prod [true; false] [-7; -6; -5; -4; -3; -2; -1; 0; 1; 2; 3; 4; 5; 6; 7])) (list_prod [true; false] [-7; -6; -5; -4; -3; -2; -1; 0; 1; 2; 3; 4; 5; 6; 7]) = true)
    by (vm_compute; reflexivity).
  assert (I : forall m a, key_range a -> In (m, a) (list_prod [true; false] [-7; -6; -5; -4; -3; -2; -1; 0; 1; 2; 3; 4; 5; 6; 7])).
  { intros m a K. apply in_prod; [destruct m; cbn [In]; tauto|unfold key_range in K; cbn [In]; lia]. }
  intros m a m' a' K K' E. rewrite forallb_forall in C. specialize (C _ (I m a K)). rewrite forallb_forall in C. specialize (C _ (I m' a' K')).
  cbn [fst snd] in C. rewrite (proj2 (bytes_eqb_eq _ _) E) in C. cbn [implb] in C. apply andb_prop in C as [C1 C2]. split; [apply Bool.eqb_prop, C1|lia].
Qed.

Lemma key_says_once : forall s b b', key_says s b -> key_says s b' -> b = b'.
Proof.
  intros s b b' H H'. destruct H as [m a K|s N].
  - remember (key_name m a) as q eqn:E. destruct H' as [m' a' K'|q N'].
    + apply key_name_inj in E as [-> ->]; [reflexivity|exact K'|exact K].
    + destruct (N' m a K E).
  - destruct H' as [m' a' K'|s N']; [destruct (N m' a' K' eq_refl)|reflexivity].
Qed.

Lemma line_complete_by : forall table s e d tail, line_kind s (e_body e) -> line_header e -> parse_delta d = Ok (e_delta e) -> details table tail (e_body e) ->
  (forall rest caps, rest = rests (kind_name (e_body e)) -> rmatch (cat rest) [d] tail fin = Some caps -> rfind (event_re (kind_name (e_body e)) rest) s = Some caps) ->
  match e_body e with Controller _ _ _ => unmarshal_text table s = Ok e | _ => True end -> unmarshal_text table s = Ok e.
Proof.
  intros table s e d tail LK LH PD DE F CTRL.
  destruct LH as (HT & HB & HL & HS & HY).
  destruct e as [tk de bs st ty b]. cbn [e_tick e_delta e_bytes e_body e_status e_type] in *. subst tk bs. unfold legal_header in HL. cbn [e_body e_status e_type] in HL.
  destruct DE as [w u r n W U R B|k w t r W NW T R|w u r n W U R B|w u r n W U R B|w z u r n W Z U R B
    |w s1 s2 w2 s3 z w3 s4 z2 r n dd t q W S1 S2 H2 W2 S3 Z W3 S4 H4 T4 Z2 B1 B2 B3 B4|w l c a k w2 minor z r b W L C A W2 Z K
    |w1 s1 w2 s2 w3 s3 w4 s4 w5 s5 w6 s6 r h m sc rate f ff W1 W2 W3 W4 W5 W6 S1 S2 S3 S4 S5 S6 R B1 B2 B3 B4 B5 B6|r
    |w name t r m data W NW C D T R MK HX|c z u yy w z2 dv r ch n v C Z U W Z2 V R B ->|c z u yy w z2 dv r ch n v C Z U W Z2 V R B ->
    |c z dv r ch p C Z V R B|a c u b z dv r ch n v id A C U BX B Z V R B1 B2 ->|c z u yy w z2 dv r ch b p C Z U -> W Z2 V R B1 B2
    |c z dv r ch p C Z V R B|c z dv r ch b C Z V R B|w name t r m data W NW C D T R MK HX|w t r data W NW T R HX|w t r data W NW T R HX];
  cbn [kind_name] in *.
  - (* SequenceNumber *)
    destruct HL as [-> ->]. rewrite (dispatch table s (SequenceNumber n) 0 text_sequence_number eq_refl LK). unfold text_sequence_number, re_sequence_number.
    rewrite (F [spaces_re; number] _ eq_refl (f_sp _ _ _ _ _ W (num_white _ _ _ U) (f_last _ _ _ _ U R))). cbn [app]. rewrite PD. cbn [bind].
    rewrite (parse_uint_num 16 u n U B). reflexivity.
  - (* texts *)
    destruct HL as [-> ->]. pose proof (F [spaces_re; rest_re] _ ltac:(destruct k; reflexivity) (f_text _ _ _ _ W NW T R)) as G.
    destruct k; [rewrite (dispatch table s (TextEvent KText t) 1 (text_text KText) eq_refl LK)
      |rewrite (dispatch table s (TextEvent KCopyright t) 2 (text_text KCopyright) eq_refl LK)|rewrite (dispatch table s (TextEvent KTrackName t) 3 (text_text KTrackName) eq_refl LK)
      |rewrite (dispatch table s (TextEvent KInstrumentName t) 4 (text_text KInstrumentName) eq_refl LK)|rewrite (dispatch table s (TextEvent KLyric t) 5 (text_text KLyric) eq_refl LK)
      |rewrite (dispatch table s (TextEvent KMarker t) 6 (text_text KMarker) eq_refl LK)|rewrite (dispatch table s (TextEvent KCuePoint t) 7 (text_text KCuePoint) eq_refl LK)
      |rewrite (dispatch table s (TextEvent KProgramName t) 8 (text_text KProgramName) eq_refl LK)|rewrite (dispatch table s (TextEvent KDeviceName t) 9 (text_text KDeviceName) eq_refl LK)];
    unfold text_text, re_text; cbn [text_tag]; rewrite G; cbn [app]; rewrite PD; reflexivity.
  - (* MIDIChannelPrefix *)
    destruct HL as [-> ->]. rewrite (dispatch table s (MIDIChannelPrefix n) 10 text_channel_prefix eq_refl LK). unfold text_channel_prefix, re_channel_prefix.
    rewrite (F [spaces_re; number] _ eq_refl (f_sp _ _ _ _ _ W (num_white _ _ _ U) (f_last _ _ _ _ U R))). cbn [app]. rewrite PD. cbn [bind].
    rewrite (parse_uint_num 8 u n U) by (change (2 ^ 8) with 256; lia). cbn [bind]. unfold make_channel_prefix. replace (15 <? n) with false by lia. reflexivity.
  - (* MIDIPort *)
    destruct HL as [-> ->]. rewrite (dispatch table s (MIDIPort n) 11 text_port eq_refl LK). unfold text_port, re_port.
    rewrite (F [spaces_re; number] _ eq_refl (f_sp _ _ _ _ _ W (num_white _ _ _ U) (f_last _ _ _ _ U R))). cbn [app]. rewrite PD. cbn [bind].
    rewrite (parse_uint_num 8 u n U) by (change (2 ^ 8) with 256; lia). cbn [bind]. unfold make_port. replace (127 <? n) with false by lia. reflexivity.
  - (* Tempo *)
    destruct HL as [-> ->]. rewrite (dispatch table s (Tempo n) 12 text_tempo eq_refl LK). unfold text_tempo, re_tempo.
    rewrite (F [spaces_re; ilit (str "tempo:"); number] ([d] ++ [u])); [|reflexivity|apply f_sp; [exact W|word_start Z|apply f_word; [exact Z|apply (f_last _ n); assumption]]].
    cbn [app]. rewrite PD. cbn [bind]. rewrite (parse_uint_num 32 u n U B). reflexivity.
  - (* TimeSignature *)
    destruct HL as [-> ->]. rewrite (dispatch table s (TimeSignature n dd t q) 13 text_time_signature eq_refl LK). unfold text_time_signature, re_time_signature.
    destruct s2 as [|c2 s2]; [cbn in H2; lia|]. destruct s4 as [|c4 s4]; [cbn in H4; lia|]. cbn [hd] in H2, H4.
    assert (D2 : Forall is_digit (c2 :: s2)) by apply S2. assert (D4 : Forall is_digit (c4 :: s4)) by apply S4.
    pose proof (Forall_inv D2) as I2. pose proof (Forall_inv_tail D2) as I2'. pose proof (Forall_inv D4) as I4. pose proof (Forall_inv_tail D4) as I4'. unfold is_digit in I2, I4.
    erewrite F; [|reflexivity|apply f_sp; [exact W|apply (num_white _ _ _ S1)|]; apply (f_num _ _ n); [exact S1|reflexivity|]; apply f_word; [apply spelled_refl|];
      apply m_lead; [lia|apply digits_are, I2'|reflexivity|]; apply f_word; [apply spelled_refl|]; apply (f_space _ _ _ t); [exact W2|exact S3|];
      apply (f_num _ _ t); [exact S3|word_start Z|]; apply f_word; [exact Z|]; apply f_ws; [exact W3|apply (num_white q (c4 :: s4) _ S4)|];
      apply m_lead; [lia| |word_start Z2|]; [|apply f_word; [exact Z2|reflexivity]]].
    + cbn [app]. rewrite PD. cbn [bind]. rewrite (parse_uint_num 8 s1 n S1 B1), (parse_uint_num 8 (c2 :: s2) dd S2) by (change (2 ^ 8) with 256; lia).
      cbn [bind]. rewrite (parse_uint_num 8 s3 t S3 B3), (parse_uint_num 8 (c4 :: s4) q S4 B4). cbn [bind]. unfold make_time_signature.
      assert (P0 : 0 <= dd) by (destruct S2 as (_ & _ & ->); apply value_nonneg, D2).
      destruct (proj2 (log2_limit dd ltac:(lia)) B2) as [lg ->]. reflexivity.
    + cbn [tl] in T4. apply forallb_forall. intros ch I. rewrite Forall_forall in T4, I4'. specialize (T4 ch I). specialize (I4' ch I). unfold is_digit in I4'. lia.
  - (* KeySignature *)
    destruct (key_is l a k minor c z de L C A Z) as (b' & E & K' & _). 
    assert (EB : b' = b) by (apply (key_says_once _ _ _ K' K)). subst b'.
    assert (KK : kind_name b = str "KeySignature" /\ st = 255 /\ ty = 89) by (destruct K; (split; [reflexivity|exact HL])). destruct KK as (KN & -> & ->).
    rewrite (dispatch table s b 14 text_key_signature) by (rewrite ?KN; reflexivity || exact LK). unfold text_key_signature, re_key_signature.
    rewrite KN in F. erewrite F; [|reflexivity|apply f_sp; [exact W| |]; [|apply (f_tonic _ _ c a k); [|exact A|exact W2|]]; [| |apply f_sp; [exact W2| |apply (spelled_mode minor); [exact Z|reflexivity]]]].
    + cbn [app]. rewrite PD. cbn [bind]. exact E.
    + cbn [starts]. unfold same_letter, white in *. lia.
    + unfold note_letter_i, note_letter, same_letter in *. lia.
    + destruct minor; word_start Z.
  - (* SMPTEOffset *)
    destruct HL as [-> ->]. rewrite (dispatch table s (SMPTEOffset h m sc rate f ff) 15 text_smpte_offset eq_refl LK). unfold text_smpte_offset, re_smpte_offset.
    erewrite F; [|reflexivity|apply f_sp; [exact W1|apply (num_white _ _ _ S1)|]; apply (f_num _ _ h); [exact S1|apply blank_digit, W2|];
      apply f_sp; [exact W2|apply (num_white _ _ _ S2)|]; apply (f_num _ _ m); [exact S2|apply blank_digit, W3|];
      apply f_sp; [exact W3|apply (num_white _ _ _ S3)|]; apply (f_num _ _ sc); [exact S3|apply blank_digit, W4|];
      apply f_sp; [exact W4|apply (num_white _ _ _ S4)|]; apply (f_num _ _ rate); [exact S4|apply blank_digit, W5|];
      apply f_sp; [exact W5|apply (num_white _ _ _ S5)|]; apply (f_num _ _ f); [exact S5|apply blank_digit, W6|];
      apply f_sp; [exact W6|apply (num_white _ _ _ S6)|]; apply (f_last _ ff); assumption].
    cbn [In] in B4. cbn [app]. rewrite PD. cbn [bind].
    rewrite (parse_uint_num 8 s1 h S1) by (change (2 ^ 8) with 256; lia). cbn [bind]. rewrite (parse_uint_num 8 s2 m S2) by (change (2 ^ 8) with 256; lia). cbn [bind].
    rewrite (parse_uint_num 8 s3 sc S3) by (change (2 ^ 8) with 256; lia). cbn [bind]. rewrite (parse_uint_num 8 s4 rate S4) by (change (2 ^ 8) with 256; lia). cbn [bind].
    rewrite (parse_uint_num 8 s5 f S5) by (change (2 ^ 8) with 256; lia). cbn [bind]. rewrite (parse_uint_num 8 s6 ff S6) by (change (2 ^ 8) with 256; lia). cbn [bind].
    do 2 pass. unfold make_smpte_offset. do 6 pass. reflexivity.
  - (* EndOfTrack *)
    destruct HL as [-> ->]. rewrite (dispatch table s EndOfTrack 16 text_end_of_track eq_refl LK). unfold text_end_of_track, re_end_of_track.
    rewrite (F [] [d] eq_refl eq_refl). rewrite PD. reflexivity.
  - (* SequencerSpecific *)
    destruct HL as [-> ->]. rewrite (dispatch table s (SequencerSpecific m data) 17 (text_sequencer_specific table) eq_refl LK). unfold text_sequencer_specific, re_sequencer_specific.
    rewrite (F (spaces_re :: comma_re) _ eq_refl (f_comma _ _ _ _ _ W NW C D T R)). cbn [app]. rewrite PD. cbn [bind]. rewrite (proj2 (maker_is _ _ _) MK). cbn [bind].
    rewrite (proj2 (hex_is _ _) HX). reflexivity.
  - (* NoteOff *)
    destruct (channel_parts c ch C) as (dc & CT & CN & CP & CB). destruct (note_read u n U) as (l & a & k & o & -> & L & A & O & PN).
    pose proof (HS _ eq_refl) as ->. rewrite (HY ltac:(lia)).
    rewrite (dispatch table s (NoteOff ch n v) 18 text_note_off eq_refl LK). unfold text_note_off, re_note.
    erewrite F; [|reflexivity|apply (f_channel _ _ c dc ch); [exact CT|exact CN|word_start Z|]; apply f_word; [exact Z|]; apply (f_note _ _ l a k o); [exact L|exact A|exact O|];
      apply f_word; [apply spelled_refl|]; apply f_ws; [exact W|word_start Z2|]; apply f_word; [exact Z2|]; apply (f_last _ v); assumption].
    cbn [app]. rewrite PD. cbn [bind]. rewrite CP. cbn [bind]. rewrite PN. cbn [bind]. rewrite (parse_uint_num 8 dv v V) by (change (2 ^ 8) with 256; lia). cbn [bind].
    pass. apply status_is in CB. destruct CB as (E & _). rewrite E. reflexivity.
  - (* NoteOn *)
    destruct (channel_parts c ch C) as (dc & CT & CN & CP & CB). destruct (note_read u n U) as (l & a & k & o & -> & L & A & O & PN).
    pose proof (HS _ eq_refl) as ->. rewrite (HY ltac:(lia)).
    rewrite (dispatch table s (NoteOn ch n v) 19 text_note_on eq_refl LK). unfold text_note_on, re_note.
    erewrite F; [|reflexivity|apply (f_channel _ _ c dc ch); [exact CT|exact CN|word_start Z|]; apply f_word; [exact Z|]; apply (f_note _ _ l a k o); [exact L|exact A|exact O|];
      apply f_word; [apply spelled_refl|]; apply f_ws; [exact W|word_start Z2|]; apply f_word; [exact Z2|]; apply (f_last _ v); assumption].
    cbn [app]. rewrite PD. cbn [bind]. rewrite CP. cbn [bind]. rewrite PN. cbn [bind]. rewrite (parse_uint_num 8 dv v V) by (change (2 ^ 8) with 256; lia). cbn [bind].
    pass. unfold make_note_on. do 2 pass. apply status_is in CB. destruct CB as (_ & E & _). rewrite E. reflexivity.
  - (* PolyphonicPressure *)
    destruct (channel_parts c ch C) as (dc & CT & CN & CP & CB). pose proof (HS _ eq_refl) as ->. rewrite (HY ltac:(lia)).
    rewrite (dispatch table s (PolyphonicPressure ch p) 20 text_polyphonic_pressure eq_refl LK). unfold text_polyphonic_pressure, re_pressure.
    erewrite F; [|reflexivity|apply (f_channel _ _ c dc ch); [exact CT|exact CN|word_start Z|]; apply f_word; [exact Z|]; apply (f_last _ p); assumption].
    cbn [app]. rewrite PD. cbn [bind]. rewrite CP. cbn [bind]. rewrite (parse_uint_num 8 dv p V) by (change (2 ^ 8) with 256; lia). cbn [bind].
    pass. unfold make_polyphonic_pressure. do 2 pass. apply status_is in CB. destruct CB as (_ & _ & E & _). rewrite E. reflexivity.
  - (* Controller *)
    exact CTRL.
  - (* ProgramChange *)
    destruct (channel_parts c ch C) as (dc & CT & CN & CP & CB). pose proof (HS _ eq_refl) as ->. rewrite (HY ltac:(lia)).
    rewrite (dispatch table s (ProgramChange ch b p) 22 text_program_change eq_refl LK). unfold text_program_change, re_program_change.
    erewrite F; [|reflexivity|apply (f_channel _ _ c dc ch); [exact CT|exact CN|word_start Z|]; apply f_word; [exact Z|]; apply (f_num _ _ b); [exact U|reflexivity|];
      apply f_word; [apply spelled_refl|]; apply f_ws; [exact W|word_start Z2|]; apply f_word; [exact Z2|]; apply (f_last _ p); assumption].
    cbn [app]. rewrite PD. cbn [bind]. rewrite CP. cbn [bind]. rewrite (parse_uint_num 16 u b U B1). cbn [bind]. rewrite (parse_uint_num 8 dv p V B2). cbn [bind].
    unfold make_program_change. pass. apply status_is in CB. destruct CB as (_ & _ & _ & _ & E & _). rewrite E. reflexivity.
  - (* ChannelPressure *)
    destruct (channel_parts c ch C) as (dc & CT & CN & CP & CB). pose proof (HS _ eq_refl) as ->. rewrite (HY ltac:(lia)).
    rewrite (dispatch table s (ChannelPressure ch p) 23 text_channel_pressure eq_refl LK). unfold text_channel_pressure, re_pressure.
    erewrite F; [|reflexivity|apply (f_channel _ _ c dc ch); [exact CT|exact CN|word_start Z|]; apply f_word; [exact Z|]; apply (f_last _ p); assumption].
    cbn [app]. rewrite PD. cbn [bind]. rewrite CP. cbn [bind]. rewrite (parse_uint_num 8 dv p V) by (change (2 ^ 8) with 256; lia). cbn [bind].
    pass. unfold make_channel_pressure. do 2 pass. apply status_is in CB. destruct CB as (_ & _ & _ & _ & _ & E & _). rewrite E. reflexivity.
  - (* PitchBend *)
    destruct (channel_parts c ch C) as (dc & CT & CN & CP & CB). pose proof (HS _ eq_refl) as ->. rewrite (HY ltac:(lia)).
    rewrite (dispatch table s (PitchBend ch b) 24 text_pitch_bend eq_refl LK). unfold text_pitch_bend, re_pitch_bend.
    erewrite F; [|reflexivity|apply (f_channel _ _ c dc ch); [exact CT|exact CN|word_start Z|]; apply f_word; [exact Z|]; apply (f_last _ b); assumption].
    cbn [app]. rewrite PD. cbn [bind]. rewrite CP. cbn [bind]. rewrite (parse_uint_num 16 dv b V B). cbn [bind].
    unfold make_pitch_bend. pass. apply status_is in CB. destruct CB as (_ & _ & _ & _ & _ & _ & E). rewrite E. reflexivity.
  - (* SysExMessage *)
    subst st. rewrite (HY ltac:(lia)). rewrite (dispatch table s (SysExMessage m data false) 25 (text_sysex table) eq_refl LK). unfold text_sysex, re_sysex.
    rewrite (F (spaces_re :: comma_re) _ eq_refl (f_comma _ _ _ _ _ W NW C D T R)). cbn [app]. rewrite PD. cbn [bind]. rewrite (proj2 (maker_is _ _ _) MK). cbn [bind].
    rewrite (proj2 (hex_is _ _) HX). reflexivity.
  - (* SysExContinuation *)
    subst st. rewrite (HY ltac:(lia)). rewrite (dispatch table s (SysExContinuation data false) 26 text_continuation eq_refl LK). unfold text_continuation, re_continuation.
    rewrite (F [spaces_re; rest_re] _ eq_refl (f_text _ _ _ _ W NW T R)). cbn [app]. rewrite PD. cbn [bind]. rewrite (proj2 (hex_is _ _) HX). reflexivity.
  - (* SysExEscape *)
    subst st. rewrite (HY ltac:(lia)). rewrite (dispatch table s (SysExEscape data) 27 text_escape eq_refl LK). unfold text_escape, re_escape.
    rewrite (F [spaces_re; rest_re] _ eq_refl (f_text _ _ _ _ W NW T R)). cbn [app]. rewrite PD. cbn [bind]. rewrite (proj2 (hex_is _ _) HX). reflexivity.
Qed.

Lemma control_complete : forall table s e ch n v d tail, e_body e = Controller ch n v -> line_kind s (Controller ch n v) -> line_header e -> parse_delta d = Ok (e_delta e) ->
  details table tail (Controller ch n v) ->
  (forall a c dc u id b z dv r, ~ In 10 a -> channel_text c dc -> num ch dc -> num id u -> no_digit (b ++ z) -> ~ In 10 b -> spelled (str "value:") z -> num v dv -> no_digit r ->
    tail = a ++ c ++ u ++ b ++ z ++ dv ++ r -> rfind re_controller s = Some (([d] ++ [dc] ++ [u]) ++ [dv])) -> unmarshal_text table s = Ok e.
Proof.
  intros table s e ch n v d tail EB LK LH PD DE F. destruct LH as (HT & HB & HL & HS & HY).
  destruct e as [tk de bs st ty b0]. cbn [e_tick e_delta e_bytes e_body e_status e_type] in *. subst tk bs b0.
  rewrite (dispatch table s (Controller ch n v) 21 text_controller eq_refl LK). unfold text_controller.
  remember (Controller ch n v) as bb eqn:EB. 
  destruct DE as [| | | | | |? ? ? ? ? ? ? ? ? b ? ? ? ? ? ? K| | | | | | |a c u b z dv r ch' n' v' id A C U BX B Z V R B1 B2 ->| | | | | |]; try discriminate EB; [destruct K; discriminate EB|].
  injection EB as -> <- ->. destruct (channel_parts c ch C) as (dc & CT & CN & CP & CB). rewrite (F a c dc u id b z dv r A CT CN U BX B Z V R eq_refl).
  pose proof (HS _ eq_refl) as ->. rewrite (HY ltac:(lia)).
  cbn [app]. rewrite PD. cbn [bind]. rewrite CP. cbn [bind]. rewrite (parse_uint_num 8 u id U B1). cbn [bind]. rewrite (parse_uint_num 8 dv v V B2). cbn [bind].
  unfold make_controller. pass. apply status_is in CB. destruct CB as (_ & _ & _ & E & _). rewrite E. reflexivity.
Qed.

Lemma line_complete : forall table s e pre x d mid y tail, line_kind s (e_body e) -> line_header e -> line_parts table s pre x d mid y tail e ->
  line_plain s pre mid y tail (e_body e) -> unmarshal_text table s = Ok e.
Proof.
  intros table s e pre x d mid y tail LK LH (ES & X & D & N & DB & M & Y & DE) (FD & FT & OC).
  assert (PD : parse_delta d = Ok (e_delta e)) by (apply parse_uint_num; [exact D|exact DB]).
  assert (F : forall rest caps, rmatch (cat rest) [d] tail fin = Some caps -> rfind (event_re (kind_name (e_body e)) rest) s = Some caps).
  { intros rest caps R. subst s. apply (plain_found _ _ _ _ _ _ _ _ _ (e_delta e)); try assumption.
    destruct (e_body e) as [| | | | | | | |k ?| | | | | | | | | | |]; [..|]; try (apply (spelled_nonempty _ _ _ Y)). destruct k; apply (spelled_nonempty _ _ _ Y). }
  apply (line_complete_by table s e d tail LK LH PD DE); [intros rest caps _; apply F|].
  destruct (e_body e) eqn:EB; try exact I. match type of EB with _ = Controller ?ch0 ?n0 ?v0 => rename ch0 into ch; rename v0 into v; apply (control_complete table s e ch n0 v d tail EB LK LH PD DE) end.
  intros a0 c0 dc u id b0 z0 dv r A CT CN U BX B Z V R ->. apply F. destruct OC as [O1 O2]. apply (f_control [d] a0 c0 dc ch u id b0 z0 dv v r A CT CN U BX B Z V R O1 O2).
Qed.

Lemma named_notes : forall table s e n, unmarshal_text table s = Ok e -> (exists ch v, e_body e = NoteOn ch n v \/ e_body e = NoteOff ch n v) ->
  exists p x l a k o q, s = p ++ x ++ (l :: a ++ [o]) ++ [44] ++ q /\ spelled (str "note:") x /\ 65 <= l <= 71 /\ sign a k /\ is_digit o /\
    (~ (l = 66 /\ k = 1) -> ~ (l = 67 /\ k = -1) -> n_value n = 12 * (o - 48 + 1) + letter_class l + k) /\
    (o = 57 \/ n_value n < 128).
Proof.
  intros table s e n U (ch & v & B). destruct (line_sound table s e U) as (_ & _ & pre & x & d & mid & y & tail & ES & _ & _ & _ & _ & _ & _ & DE).
  assert (N : exists p x u q, tail = p ++ x ++ u ++ [44] ++ q /\ spelled (str "note:") x /\ note_says u n).
  { destruct DE; try (destruct B as [B|B]; discriminate B).
    - destruct H5; destruct B as [B|B]; discriminate B.
    - destruct B as [B|B]; [discriminate B|]. assert (n0 = n) by congruence. subst. exists c, x0, s0, (w ++ z ++ d0 ++ r). split; [reflexivity|]. split; assumption.
    - destruct B as [B|B]; [|discriminate B]. assert (n0 = n) by congruence. subst. exists c, x0, s0, (w ++ z ++ d0 ++ r). split; [reflexivity|]. split; assumption. }
  destruct N as (p & x1 & u & q & -> & X & NS). destruct NS as [l a k o L A O s0].
  exists (pre ++ x ++ d ++ mid ++ y ++ p), x1, l, a, k, o, q. split; [rewrite ES, <- !app_assoc; reflexivity|].
  split; [exact X|]. split; [exact L|]. split; [exact A|]. split; [exact O|]. cbn [n_value]. unfold is_digit in O.
  assert (K : -1 <= k <= 1) by (destruct A; lia). unfold letter_class.
  split.
  - intros N1 N2. destruct (Z.eqb_spec l 67), (Z.eqb_spec l 68), (Z.eqb_spec l 69), (Z.eqb_spec l 70), (Z.eqb_spec l 71), (Z.eqb_spec l 65); try lia;
    rewrite Z.mod_small by lia; lia.
  - destruct (Z.eqb_spec l 67), (Z.eqb_spec l 68), (Z.eqb_spec l 69), (Z.eqb_spec l 70), (Z.eqb_spec l 71), (Z.eqb_spec l 65); try lia.
Qed.

Lemma named_keys : forall table s e acc mode name, unmarshal_text table s = Ok e -> e_body e = KeySignature acc mode name ->
  exists p l c a k w (minor : bool) x q, s = p ++ c :: a ++ w ++ x ++ q /\ 65 <= l <= 71 /\ same_letter l c /\ sign a k /\ blank w /\
    spelled (if minor then str "minor" else str "major") x /\
    (forall m z, key_range z -> key_name m z = l :: a ++ (if minor then str " minor" else str " major") -> acc = z /\ mode = (if m then 1 else 0) /\ name = key_name m z).
Proof.
  intros table s e acc mode name U B. destruct (line_sound table s e U) as (_ & _ & pre & x & d & mid & y & tail & ES & _ & _ & _ & _ & _ & _ & DE).
  destruct DE; try discriminate B. exists (pre ++ x ++ d ++ mid ++ y ++ w), l, c, a, k, w2, minor, x0, r.
  split; [rewrite ES, <- !app_assoc; reflexivity|]. split; [exact H0|]. split; [exact H1|]. split; [exact H2|]. split; [exact H3|]. split; [exact H4|].
  intros m z K E. rewrite <- E in H5. pose proof (key_says_once _ _ _ H5 (ks_key m z K)) as E'. rewrite E' in B.
  assert (acc = z) by congruence. assert (mode = if m then 1 else 0) by congruence. assert (name = key_name m z) by congruence. tauto.
Qed.
