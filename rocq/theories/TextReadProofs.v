(** * TextReadProofs: the fields of printed events are read again, kind by kind. *)
From Verif Require Import Base Strings Vlq SpecVlq Tables Event Marshal SpecEvent SpecTrack SpecDecoded SpecKey SpecDecimal SpecText SpecNote SpecTable SpecAssemble SpecSurvive SpecRead
  Manufacturer Utf8 Hex Disassemble Regex TextEvent DecimalProofs HexProofs EventProofs AssembleProofs DecodedProofs RegexProofs TextProofs.

Lemma spaces_white : forall m, forallb white (repeat 32 m) = true.
Proof. induction m; [reflexivity|exact IHm]. Qed.

Lemma m_sp : forall rs caps m v k y, (1 <= m)%nat -> starts white v = false -> rmatch (cat rs) caps v k = Some y ->
  rmatch (cat (spaces_re :: rs)) caps (repeat 32 m ++ v) k = Some y.
Proof.
  intros rs caps m v k y M V R. rewrite rmatch_cat. apply m_plus; [apply spaces_white|destruct m; [lia|discriminate]|exact V|exact R].
Qed.

Lemma m_num : forall rs caps n v k y, 0 <= n -> starts digit v = false -> rmatch (cat rs) (caps ++ [dec n]) v k = Some y ->
  rmatch (cat (number :: rs)) caps (dec n ++ v) k = Some y.
Proof.
  intros rs caps n v k y N V R. destruct (dec_digits n N) as (F & NE & _). rewrite rmatch_cat. apply m_group_plus; assumption.
Qed.

Lemma m_num_end : forall caps n, 0 <= n -> rmatch (cat [number]) caps (dec n) fin = Some (caps ++ [dec n]).
Proof. intros caps n N. rewrite <- (app_nil_r (dec n)) at 1. apply m_num; [exact N|reflexivity|reflexivity]. Qed.

Lemma m_il : forall l rs caps v k y, rmatch (cat rs) caps v k = Some y -> rmatch (cat (ilit l :: rs)) caps (l ++ v) k = Some y.
Proof. intros. rewrite rmatch_cat. apply m_ilit. assumption. Qed.

Lemma m_ws : forall rs caps v k y, starts white v = false -> rmatch (cat rs) caps v k = Some y ->
  rmatch (cat (star_of white :: rs)) caps ([32] ++ v) k = Some y.
Proof. intros. rewrite rmatch_cat. apply m_star; [reflexivity|assumption|assumption]. Qed.

Lemma m_rest : forall caps s, forallb dot s = true -> rmatch (cat [rest_re]) caps s fin = Some (caps ++ [s]).
Proof.
  intros caps s F. rewrite <- (app_nil_r s) at 1. rewrite rmatch_cat. apply m_group_star; [exact F|reflexivity|reflexivity].
Qed.

Lemma m_channel : forall rs caps m c v k y, (1 <= m)%nat -> 0 <= c -> starts white v = false -> rmatch (cat rs) (caps ++ [dec c]) v k = Some y ->
  rmatch (cat (channel_re ++ rs)) caps (repeat 32 m ++ (str "channel:" ++ pad 2 (dec c)) ++ 32 :: v) k = Some y.
Proof.
  intros rs caps m c v k y M C V R. destruct (pad_spaces 2 (dec c)) as [n ->]. rewrite <- !app_assoc. unfold channel_re. cbn [app].
  apply m_sp; [exact M|reflexivity|]. apply m_il. 
  replace (repeat 32 n ++ 32 :: v) with (repeat 32 (n + 1) ++ v) by (rewrite repeat_app, <- app_assoc; reflexivity).
  apply m_num; [exact C|rewrite Nat.add_comm; reflexivity|]. apply m_sp; [lia|exact V|exact R].
Qed.

Lemma digit_not_white : forall n v, 0 <= n -> starts white (dec n ++ v) = false.
Proof. intros. apply dec_starts; [assumption|]. intros. unfold white. lia. Qed.

Lemma digit_not_white' : forall n, 0 <= n -> starts white (dec n) = false.
Proof. intros. rewrite <- (app_nil_r (dec n)). apply digit_not_white. assumption. Qed.

(** ** Notes *)

Lemma note_split : forall flats n s, note_name 4 flats n s -> 12 <= n < 132 -> s = pitch_class_name flats (n mod 12) ++ [48 + (n / 12 - 1)].
Proof.
  intros flats n s (o & D & ->) N. f_equal. replace (n / 12 - 5 + 4) with (n / 12 - 1) in D by lia.
  eapply decimal_unique; [exact D|]. assert (O : 0 <= n / 12 - 1 <= 9) by lia. remember (n / 12 - 1) as q eqn:E. clear - O.
  assert (Q : q = 0 \/ 1 <= q) by lia. destruct Q as [-> | Q]; [exact decimal_zero|].
  replace q with (digits_value [48 + q]) at 1 by (unfold digits_value; cbn [fold_left]; lia). apply decimal_pos; [repeat constructor; unfold is_digit; lia|cbn [hd]; lia].
Qed.

Lemma note_parsed : forall flats n s, note_name 4 flats n s -> 12 <= n < 132 -> parse_note s = Ok (Note n s s).
Proof.
  intros flats n s N R. apply note_split in N; [|exact R]. subst s.
  pose proof (byte_sweep (fun n => if (12 <=? n) && (n <? 132) then forallb (fun flats => 
     let s := pitch_class_name flats (n mod 12) ++ [48 + (n / 12 - 1)] in
     match parse_note s with Ok x => (n_value x =? n) && bytes_eqb (n_name x) s && bytes_eqb (n_alias x) s | _ => false end) [true; false] else true)
     ltac:(vm_compute; reflexivity) n ltac:(unfold is_byte; lia)) as H. cbn beta in H. 
  replace ((12 <=? n) && (n <? 132)) with true in H by lia. rewrite forallb_forall in H. specialize (H flats ltac:(destruct flats; cbn; auto)).
  cbn beta zeta in H. destruct (parse_note _) as [[v a b]| | | |]; try discriminate. cbn [n_value n_name n_alias] in H.
  apply andb_prop in H as [H H3]. apply andb_prop in H as [H1 H2]. apply bytes_eqb_eq in H2, H3. apply Z.eqb_eq in H1. congruence.
Qed.

Lemma m_note : forall rs caps flats n s v k y, note_name 4 flats n s -> 12 <= n < 132 -> rmatch (cat rs) (caps ++ [s]) v k = Some y ->
  rmatch (cat (note_field :: rs)) caps (s ++ v) k = Some y.
Proof.
  intros rs caps flats n s v k y N R K. apply note_split in N; [|exact R]. rewrite rmatch_cat. apply m_group; [|exact K]. clear K.
  intros k' K. subst s. remember (48 + (n / 12 - 1)) as d eqn:E.
  assert (D : digit d = true) by (unfold digit; lia). assert (D1 : (226 =? d) = false) by lia.
  assert (D2 : forall l, accidental (d :: l) = None) by (intros l; unfold accidental; cbn [strip]; change (str "♯") with [226; 153; 175]; change (str "♭") with [226; 153; 173]; cbn [strip]; rewrite D1; reflexivity).
  rewrite <- app_assoc. cbn [app].
  assert (P : forall l acc, note_letter_i l = true -> acc = sharp_sign \/ acc = flat_sign \/ acc = [] ->
    rmatch (cat [cls note_letter_i; opt (One accidental); cls digit]) caps (l :: acc ++ d :: v) k' = Some y).
  { intros l acc L A. rewrite rmatch_cat. cbn [rmatch cls byte1]. rewrite L. rewrite rmatch_cat. cbn [rmatch opt].
    assert (C : rmatch (cat [cls digit]) caps (d :: v) k' = Some y) by (rewrite rmatch_cat; cbn [rmatch cls byte1]; rewrite D; exact K).
    destruct A as [-> | [-> | ->]].
    - change (accidental (sharp_sign ++ d :: v)) with (Some (d :: v)). cbv iota. rewrite C. reflexivity.
    - change (accidental (flat_sign ++ d :: v)) with (Some (d :: v)). cbv iota. rewrite C. reflexivity.
    - cbn [app]. rewrite D2. exact C. }
  assert (S : forall l, note_letter_i l = true -> rmatch (cat [cls note_letter_i; opt (One accidental); cls digit]) caps ([l] ++ d :: v) k' = Some y)
    by (intros l L; apply (P l []); [exact L|right; right; reflexivity]).
  assert (S1 : forall l, note_letter_i l = true -> rmatch (cat [cls note_letter_i; opt (One accidental); cls digit]) caps (([l] ++ sharp_sign) ++ d :: v) k' = Some y)
    by (intros l L; apply (P l sharp_sign); [exact L|left; reflexivity]).
  assert (S2 : forall l, note_letter_i l = true -> rmatch (cat [cls note_letter_i; opt (One accidental); cls digit]) caps (([l] ++ flat_sign) ++ d :: v) k' = Some y)
    by (intros l L; apply (P l flat_sign); [exact L|right; left; reflexivity]).
  clear - S S1 S2. unfold pitch_class_name.
  repeat (destruct (_ =? _); [try destruct flats; first [apply (S 65) | apply (S 66) | apply (S 67) | apply (S 68) | apply (S 69) | apply (S 70) | apply (S 71)
    | apply (S1 65) | apply (S1 66) | apply (S1 67) | apply (S1 68) | apply (S1 69) | apply (S1 70) | apply (S1 71)
    | apply (S2 65) | apply (S2 66) | apply (S2 67) | apply (S2 68) | apply (S2 69) | apply (S2 70) | apply (S2 71)]; reflexivity|]).
  apply (S 66); reflexivity.
Qed.

(** ** Controllers *)

Lemma none_app : forall l w1 w2, (forall a b, w1 = a ++ b -> b <> [] -> strip_fold l (b ++ w2) = None) ->
  (forall a b, w2 = a ++ b -> strip_fold l b = None) -> forall a b, w1 ++ w2 = a ++ b -> strip_fold l b = None.
Proof.
  intros l w1 w2 H1 H2 a b E. apply app_eq_app in E as [x [[E1 E2]|[E1 E2]]].
  - subst. destruct x as [|c x]; [exact (H2 [] _ eq_refl)|]. apply (H1 a); [reflexivity|discriminate].
  - subst. apply (H2 x). reflexivity.
Qed.

Lemma none_clash : forall l w1 w2, forallb (clash l) (suffixes w1) = true ->
  (forall a b, w2 = a ++ b -> strip_fold l b = None) -> forall a b, w1 ++ w2 = a ++ b -> strip_fold l b = None.
Proof. intros l w1 w2 C. apply none_app. intros a b E N. eapply clash_suffixes; eassumption. Qed.

Lemma none_nil : forall c l a b, [] = a ++ b -> strip_fold (c :: l) b = None.
Proof. intros c l a b E. symmetry in E. apply app_eq_nil in E as [_ ->]. reflexivity. Qed.

(** Digits and spaces are no letters. *)
Lemma none_digits : forall c l w1 w2, 97 <= c <= 122 -> Forall (fun x => 0 <= x <= 57) w1 ->
  (forall a b, w2 = a ++ b -> strip_fold (c :: l) b = None) -> forall a b, w1 ++ w2 = a ++ b -> strip_fold (c :: l) b = None.
Proof.
  intros c l w1 w2 C F. apply none_app. intros a [|x b] E N; [congruence|]. subst. apply Forall_app in F as [_ F]. inversion F as [|? ? X F']; subst.
  cbn [app strip_fold]. destruct (fold1 c (x :: b ++ w2)) as [s|] eqn:Q; [|reflexivity]. apply fold1_ascii in Q as [Q _]; [|lia].
  unfold lower in Q. destruct ((65 <=? x) && (x <=? 90)) eqn:E1; destruct ((65 <=? c) && (c <=? 90)) eqn:E2; lia.
Qed.

Lemma dec_low : forall n, 0 <= n -> Forall (fun x => 0 <= x <= 57) (dec n).
Proof.
  intros n N. destruct (dec_digits n N) as (F & _). rewrite forallb_forall in F. apply Forall_forall. intros x I. specialize (F x I). unfold digit in F. lia.
Qed.

Lemma spaces_low : forall n, Forall (fun x => 0 <= x <= 57) (repeat 32 n).
Proof. intros n. apply Forall_forall. intros x I. apply repeat_spec in I. lia. Qed.

Lemma no_spaced : forall g l rest caps y w k, (forall a b, w = a ++ b -> strip_fold l b = None) ->
  star g dot caps (fun c s => rmatch (cat (spaces_re :: ilit l :: rest)) c s k) (y :: w) = None.
Proof.
  intros g l rest caps y w k N. apply star_none. intros a b E. rewrite rmatch_cat. cbn [rmatch spaces_re plus cls byte1].
  destruct b as [|x b]; [reflexivity|]. cbn [byte1]. destruct (white x); [|reflexivity]. apply star_none. intros a' b' E'.
  rewrite rmatch_cat. cbn [rmatch ilit]. rewrite (N (tl (a ++ x :: a')) b'); [reflexivity|]. subst b.
  destruct a as [|z a]; cbn [app tl] in *; [congruence|]. injection E as _ ->. rewrite <- app_assoc. reflexivity.
Qed.

Lemma no_literal : forall g l rest caps w k, (forall a b, w = a ++ b -> strip_fold l b = None) ->
  star g dot caps (fun c s => rmatch (cat (ilit l :: rest)) c s k) w = None.
Proof. intros g l rest caps w k N. apply star_none. intros a b E. rewrite rmatch_cat. cbn [rmatch ilit]. rewrite (N a b E). reflexivity. Qed.

Lemma m_controller : forall caps m c id v, (1 <= m)%nat -> 0 <= c -> 0 <= id < 256 -> 0 <= v ->
  rmatch (cat (star_of dot :: channel_re ++ [number; opt (star_of dot); ilit (str "value:"); number])) caps
    (repeat 32 m ++ (str "channel:" ++ pad 2 (dec c)) ++ str " " ++ dec id ++ str "/" ++ c_name (lookup_controller id) ++ str ", value:" ++ dec v) fin
  = Some (((caps ++ [dec c]) ++ [dec id]) ++ [dec v]).
Proof.
  intros caps m c id v M C I V. destruct (controller_names id I) as (_ & F & S).
  destruct m as [|m]; [lia|]. rewrite rmatch_cat. cbn [rmatch star_of].
  change (repeat 32 (Datatypes.S m)) with (32 :: repeat 32 m). rewrite repeat_cons. rewrite <- (app_assoc (repeat 32 m)).
  apply star_back.
  - clear. induction m; [reflexivity|exact IHm].
  - change [32] with (repeat 32 1). apply (m_channel [number; opt (star_of dot); ilit (str "value:"); number]); [lia|exact C|apply digit_not_white; lia|].
    apply m_num; [lia|reflexivity|]. rewrite rmatch_cat. cbn [rmatch opt star_of].
    replace (str "/" ++ c_name (lookup_controller id) ++ str ", value:" ++ dec v) with ((str "/" ++ c_name (lookup_controller id) ++ str ", ") ++ str "value:" ++ dec v)
      by (rewrite <- !app_assoc; reflexivity).
    rewrite (star_back dot _ _ _ _ (((caps ++ [dec c]) ++ [dec id]) ++ [dec v])); [reflexivity| | |].
    + rewrite !forallb_app, F. reflexivity.
    + apply m_il. apply m_num_end. exact V.
    + intros x r E. apply no_literal. cbn [app str list_byte_of_string] in E. injection E as _ <-.
      apply (none_clash _ (str "alue:")); [reflexivity|]. rewrite <- (app_nil_r (dec v)).
      apply (none_digits 118 [97; 108; 117; 101; 58]); [lia|apply dec_low; exact V|]. apply (none_nil 118 [97; 108; 117; 101; 58]).
  - intros x r E. injection E as _ <-. unfold channel_re. cbn [app]. apply no_spaced.
    apply (none_clash _ (str "hannel:")); [reflexivity|].
    destruct (pad_spaces 2 (dec c)) as [n ->]. rewrite <- app_assoc.
    apply (none_digits 99 [104; 97; 110; 110; 101; 108; 58]); [lia|apply dec_low; exact C|]. apply (none_digits 99 [104; 97; 110; 110; 101; 108; 58]); [lia|apply spaces_low|].
    apply (none_digits 99 [104; 97; 110; 110; 101; 108; 58] [32]); [lia|repeat constructor; lia|]. apply (none_digits 99 [104; 97; 110; 110; 101; 108; 58]); [lia|apply dec_low; lia|].
    apply (none_digits 99 [104; 97; 110; 110; 101; 108; 58] [47]); [lia|repeat constructor; lia|].
    intros a b E. apply (none_clash _ _ (dec v) S) with (a := a); [|rewrite <- app_assoc; exact E]. clear a b E. rewrite <- (app_nil_r (dec v)).
    apply (none_digits 99 [104; 97; 110; 110; 101; 108; 58]); [lia|apply dec_low; exact V|]. apply (none_nil 99 [104; 97; 110; 110; 101; 108; 58]).
Qed.

(** ** Time and key signatures *)

Definition nine_free_b (n : Z) : bool := (n <? 10) || (negb (n mod 10 =? 9) && ((n <? 100) || negb (n / 10 mod 10 =? 9))).

Lemma dec_lead : forall n, 0 < n < 256 -> exists x r, dec n = x :: r /\ 49 <= x <= 57 /\ forallb digit r = true /\
  (nine_free n -> forallb (fun c => (48 <=? c) && (c <=? 56)) r = true).
Proof.
  intros n N. pose proof (byte_sweep (fun n => (n =? 0) || match dec n with
    | x :: r => (49 <=? x) && (x <=? 57) && forallb digit r && (negb (nine_free_b n) || forallb (fun c => (48 <=? c) && (c <=? 56)) r)
    | [] => false end) ltac:(vm_compute; reflexivity) n ltac:(unfold is_byte; lia)) as H. cbn beta in H.
  replace (n =? 0) with false in H by lia. cbn [orb] in H. destruct (dec n) as [|x r]; [discriminate|]. exists x, r.
  apply andb_prop in H as [H H4]. apply andb_prop in H as [H H3]. split; [reflexivity|]. split; [lia|]. split; [exact H3|].
  intros F. assert (B : nine_free_b n = true) by (unfold nine_free in F; unfold nine_free_b; lia). rewrite B in H4. exact H4.
Qed.

Lemma m_lead : forall rs c x r v caps k y, 49 <= x <= 57 -> forallb c r = true -> starts c v = false ->
  rmatch (cat rs) (caps ++ [x :: r]) v k = Some y ->
  rmatch (cat (Group (cat [cls (fun c => (49 <=? c) && (c <=? 57)); star_of c]) :: rs)) caps ((x :: r) ++ v) k = Some y.
Proof.
  intros rs c x r v caps k y X R V K. rewrite rmatch_cat. apply m_group; [|exact K]. clear K. intros k' K.
  rewrite rmatch_cat. cbn [rmatch cls byte1 app]. replace ((49 <=? x) && (x <=? 57)) with true by lia.
  rewrite rmatch_cat. apply m_star; [exact R|exact V|exact K].
Qed.

Lemma m_time : forall caps m n d t q, (1 <= m)%nat -> 0 <= n -> 0 < d < 256 -> 0 <= t -> 0 < q < 256 -> nine_free q ->
  rmatch (cat [spaces_re; number; ilit (str "/"); Group (cat [cls (fun c => (49 <=? c) && (c <=? 57)); star_of digit]); ilit (str ","); star_of white;
   ilit (str " "); number; ilit (str " ticks per click,"); star_of white;
   Group (cat [cls (fun c => (49 <=? c) && (c <=? 57)); star_of (fun c => (48 <=? c) && (c <=? 56))]); ilit (str "/32 per quarter")]) caps
   (repeat 32 m ++ dec n ++ str "/" ++ dec d ++ str ", " ++ dec t ++ str " ticks per click, " ++ dec q ++ str "/32 per quarter") fin
  = Some ((((caps ++ [dec n]) ++ [dec d]) ++ [dec t]) ++ [dec q]).
Proof.
  intros caps m n d t q M N D T Q F.
  destruct (dec_lead d D) as (x & r & Ed & X & R & _). destruct (dec_lead q Q) as (x' & r' & Eq & X' & _ & R'). specialize (R' F).
  apply m_sp; [exact M|apply digit_not_white; exact N|]. apply m_num; [exact N|reflexivity|]. apply m_il. rewrite Ed.
  apply m_lead; [exact X|exact R|reflexivity|]. apply (m_il (str ",")).
  rewrite rmatch_cat. cbn [rmatch star_of]. apply (star_back white _ _ [] (32 :: _)); [reflexivity| |].
  - apply (m_il (str " ")). apply m_num; [exact T|reflexivity|]. apply (m_il (str " ticks per click,")). apply m_ws.
    + apply digit_not_white. lia.
    + rewrite Eq. apply m_lead; [exact X'|exact R'|reflexivity|]. apply (m_il (str "/32 per quarter") [] _ []). reflexivity.
  - intros y z E. injection E as _ <-. rewrite Eq. destruct (dec_digits t T) as (G & NE & _). destruct (dec t) as [|c w]; [congruence|].
    cbn [forallb] in G. apply andb_prop in G as [G _]. cbn [app star]. replace (white c) with false by (unfold white, digit in *; lia).
    rewrite rmatch_cat. cbn [rmatch ilit]. change (str " ") with [32]. cbn [strip_fold].
    destruct (fold1 32 _) as [s|] eqn:B; [|reflexivity]. apply fold1_byte in B as [B _]; [|discriminate|discriminate].
    unfold lower, digit in *. exfalso. destruct ((65 <=? c) && (c <=? 90)) eqn:E1; destruct ((65 <=? 32) && (32 <=? 90)) eqn:E2; lia.
Qed.

Lemma m_key : forall caps m acc (minor : bool), (1 <= m)%nat -> key_range acc -> exists a b,
  rmatch (cat [spaces_re; Group (cat [cls note_letter_i; opt (One accidental)]); spaces_re; Group (Alt (ilit (str "major")) (ilit (str "minor")))]) caps
    (repeat 32 m ++ key_name minor acc) fin = Some ((caps ++ [a]) ++ [b]) /\
  key_by_name (to_lower (a ++ [32] ++ b)) = (acc, if minor then 1 else 0) /\
  exists s, (if minor then minor_scale acc else major_scale acc) = Some s /\ s_name s = key_name minor acc.
Proof.
  intros caps m acc minor M K. assert (A : acc = -7 \/ acc = -6 \/ acc = -5 \/ acc = -4 \/ acc = -3 \/ acc = -2 \/ acc = -1 \/ acc = 0 \/ acc = 1 \/
    acc = 2 \/ acc = 3 \/ acc = 4 \/ acc = 5 \/ acc = 6 \/ acc = 7) by (unfold key_range in K; lia). clear K.
  assert (W : starts white (key_name minor acc) = false) by (decompose [or] A; subst; destruct minor; reflexivity).
  decompose [or] A; subst; destruct minor; (eexists _, _; split; [apply m_sp; [exact M|exact W|]; cbv; reflexivity|]; split; [vm_compute; reflexivity|]);
  eexists; split; reflexivity.
Qed.

(** ** Manufacturers and texts *)

Lemma plain_dot : forall s, ~ In 10 s -> forallb dot s = true.
Proof. intros s N. apply forallb_forall. intros c I. unfold dot. destruct (c =? 10) eqn:E; [|reflexivity]. apply Z.eqb_eq in E. subst. contradiction. Qed.

Lemma plain_white : forall s, plain_text s -> starts white s = false.
Proof.
  intros [|c s] [_ P]; [reflexivity|]. specialize (P c s eq_refl). cbn [starts]. unfold white, white_space in *. lia.
Qed.

Lemma hex_dot : forall d, is_bytes d -> forallb dot (hex_string d) = true.
Proof.
  intros d B. pose proof (calm_hex d _ (hex_string_form d B)) as C. rewrite Forall_forall in C. apply forallb_forall. intros c I.
  specialize (C c I). unfold calm in C. unfold dot. lia.
Qed.

Lemma hex_white : forall d, is_bytes d -> starts white (hex_string d) = false.
Proof.
  intros d B. pose proof (hex_string_form d B) as F. clear B. destruct F as [|c e a b H1 H2|c e a b x xs s H1 H2 H3]; [reflexivity|..];
  cbn [starts]; destruct H1; unfold white; lia.
Qed.

Lemma m_comma : forall caps m s w, (1 <= m)%nat -> plain_text s -> ~ In 44 s -> forallb dot w = true ->
  rmatch (cat (spaces_re :: comma_re)) caps (repeat 32 m ++ s ++ str "," ++ w) fin = Some ((caps ++ [s]) ++ [w]).
Proof.
  intros caps m s w M P C W. apply m_sp; [exact M|pose proof (plain_white s P); destruct s; [reflexivity|assumption]|].
  unfold comma_re. rewrite rmatch_cat. cbn [rmatch]. 
  apply star_lazy; [apply plain_dot, P| |].
  - intros a [|c b] E N; [congruence|]. subst s. rewrite rmatch_cat. cbn [rmatch ilit]. change (str ",") with [44] at 1. cbn [app strip_fold].
    destruct (fold1 44 _) as [z|] eqn:B; [|reflexivity]. apply fold1_byte in B as [B _]; [|discriminate|discriminate]. exfalso. apply C.
    replace 44 with c; [apply in_or_app; right; left; reflexivity|]. unfold lower in B.
    destruct ((65 <=? c) && (c <=? 90)) eqn:E1; destruct ((65 <=? 44) && (44 <=? 90)) eqn:E2; lia.
  - rewrite group_capture. apply m_il. apply m_rest. exact W.
Qed.

Lemma parse_hex_space : forall s, parse_hex (32 :: s) = parse_hex s.
Proof. reflexivity. Qed.

(** ** All kinds *)

Lemma m_num_sp : forall rs caps n v k y, 0 <= n -> starts white v = false -> rmatch (cat rs) (caps ++ [dec n]) v k = Some y ->
  rmatch (cat (number :: spaces_re :: rs)) caps (dec n ++ [32] ++ v) k = Some y.
Proof. intros rs caps n v k y N V R. apply m_num; [exact N|reflexivity|]. apply (m_sp _ _ 1); [lia|exact V|exact R]. Qed.

Lemma dec8 : forall n, 0 <= n < 256 -> parse_uint 8 (dec n) = Ok n.
Proof. intros n N. apply parse_dec. exact N. Qed.
Lemma dec16 : forall n, 0 <= n < 65536 -> parse_uint 16 (dec n) = Ok n.
Proof. intros n N. apply parse_dec. exact N. Qed.
Lemma dec32 : forall n, 0 <= n < 4294967296 -> parse_uint 32 (dec n) = Ok n.
Proof. intros n N. apply parse_dec. exact N. Qed.

Lemma known : forall table m, well_named table m -> find_manufacturer table (m_name m) = Ok m.
Proof.
  intros table m ((k & I) & D & _). eapply (proj2 (find_order_iff table) D); [exact I|apply Permutation.Permutation_refl].
Qed.

Ltac pass := match goal with |- context [if ?c then _ else _] => replace c with false by lia; cbv iota end.

(** Notes are named with middle C as C4. *)
Definition named (b : body) : Prop :=
  match b with NoteOff _ n _ | NoteOn _ n _ => exists flats, note_name 4 flats (n_value n) (n_name n) | _ => True end.

Lemma read_back : forall env table col tk delta n m h1 h2 b, printed env b -> line_ok col tk n m h1 h2 -> 0 <= delta < 4294967296 -> readable table b -> named b ->
  exists e', parser table b (line_of col tk delta n m h1 h2 b) = Ok e' /\ e_delta e' = delta /\ e_body e' = as_read b /\ legal_header e'.
Proof.
  intros env table col tk delta n m h1 h2 b [D _] L DE R NB.
  assert (M : (1 <= m)%nat) by apply L.
  assert (F : forall rest y, rmatch (cat rest) [dec delta] (event_tail b m) fin = Some y ->
    rfind (event_re (body_tag b) rest) (line_of col tk delta n m h1 h2 b) = Some y) by (intros rest y H; apply event_found; [exact L|lia|exact H]).
  clear L. remember (line_of col tk delta n m h1 h2 b) as l eqn:El. clear El.
  destruct b; cbn [decoded_body readable parser event_tail event_details body_tag as_read named] in *.
  - (* NoteOff *)
    destruct D as (C & N & V). destruct NB as (flats & NN). pose proof R as O.
    pose proof (F (channel_re ++ [ilit (str "note:"); note_field; ilit (str ","); star_of white; ilit (str "velocity:"); number])
      ((([dec delta] ++ [dec ch]) ++ [n_name n0]) ++ [dec velocity])) as G. unfold text_note_off, re_note. rewrite G; clear G F.
    + cbn [app]. rewrite parse_delta_dec by lia. cbn [bind]. rewrite parse_channel_dec by lia. cbn [bind]. rewrite (note_parsed flats (n_value n0)) by assumption.
      cbn [bind]. rewrite dec8 by lia. cbn [bind]. pass. eexists. split; [reflexivity|]. repeat split.
    + apply m_channel; [exact M|lia|reflexivity|]. apply (m_il (str "note:")). eapply m_note; [exact NN|exact O|]. apply (m_il (str ",")).
      apply m_ws; [reflexivity|]. apply (m_il (str "velocity:")). apply m_num_end. lia.
  - (* NoteOn *)
    destruct D as (C & N & V). destruct NB as (flats & NN). pose proof R as O.
    pose proof (F (channel_re ++ [ilit (str "note:"); note_field; ilit (str ","); star_of white; ilit (str "velocity:"); number])
      ((([dec delta] ++ [dec ch]) ++ [n_name n0]) ++ [dec velocity])) as G. unfold text_note_on, re_note. rewrite G; clear G F.
    + cbn [app]. rewrite parse_delta_dec by lia. cbn [bind]. rewrite parse_channel_dec by lia. cbn [bind]. rewrite (note_parsed flats (n_value n0)) by assumption.
      cbn [bind]. rewrite dec8 by lia. cbn [bind]. pass. unfold make_note_on. pass. pass. eexists. split; [reflexivity|]. repeat split.
    + apply m_channel; [exact M|lia|reflexivity|]. apply (m_il (str "note:")). eapply m_note; [exact NN|exact O|]. apply (m_il (str ",")).
      apply m_ws; [reflexivity|]. apply (m_il (str "velocity:")). apply m_num_end. lia.
  - (* PolyphonicPressure *)
    destruct D as (C & P).
    pose proof (F (channel_re ++ [ilit (str "pressure:"); number]) (([dec delta] ++ [dec ch]) ++ [dec pressure])) as G.
    unfold text_polyphonic_pressure, re_pressure. rewrite G; clear G F.
    + cbn [app]. rewrite parse_delta_dec by lia. cbn [bind]. rewrite parse_channel_dec by lia. cbn [bind]. rewrite dec8 by lia. cbn [bind].
      pass. unfold make_polyphonic_pressure. pass. pass. eexists. split; [reflexivity|]. repeat split.
    + apply m_channel; [exact M|lia|reflexivity|]. apply (m_il (str "pressure:")). apply m_num_end. lia.
  - (* Controller *)
    destruct D as (C & (id & I & ->) & V). rewrite (lookup_controller_id id I) in F.
    pose proof (F _ _ (m_controller [dec delta] m ch id value M ltac:(lia) I ltac:(lia))) as G.
    unfold text_controller, re_controller. rewrite G; clear G F.
    cbn [app]. rewrite parse_delta_dec by lia. cbn [bind]. rewrite parse_channel_dec by lia. cbn [bind]. rewrite !dec8 by lia. cbn [bind].
    unfold make_controller. pass. eexists. split; [reflexivity|]. repeat split.
  - (* ProgramChange *)
    destruct D as (C & B & P).
    pose proof (F (channel_re ++ [ilit (str "bank:"); number; ilit (str ","); star_of white; ilit (str "program:"); number])
      ((([dec delta] ++ [dec ch]) ++ [dec bank]) ++ [dec program])) as G. unfold text_program_change, re_program_change. rewrite G; clear G F.
    + cbn [app]. rewrite parse_delta_dec by lia. cbn [bind]. rewrite parse_channel_dec by lia. cbn [bind]. rewrite dec16 by lia. cbn [bind]. rewrite dec8 by lia.
      cbn [bind]. unfold make_program_change. pass. eexists. split; [reflexivity|]. repeat split.
    + apply m_channel; [exact M|lia|reflexivity|]. apply (m_il (str "bank:")). apply m_num; [lia|reflexivity|]. apply (m_il (str ",")).
      apply m_ws; [reflexivity|]. apply (m_il (str "program:")). apply m_num_end. lia.
  - (* ChannelPressure *)
    destruct D as (C & P).
    pose proof (F (channel_re ++ [ilit (str "pressure:"); number]) (([dec delta] ++ [dec ch]) ++ [dec pressure])) as G.
    unfold text_channel_pressure, re_pressure. rewrite G; clear G F.
    + cbn [app]. rewrite parse_delta_dec by lia. cbn [bind]. rewrite parse_channel_dec by lia. cbn [bind]. rewrite dec8 by lia. cbn [bind].
      pass. unfold make_channel_pressure. pass. pass. eexists. split; [reflexivity|]. repeat split.
    + apply m_channel; [exact M|lia|reflexivity|]. apply (m_il (str "pressure:")). apply m_num_end. lia.
  - (* PitchBend *)
    destruct D as (C & B).
    pose proof (F (channel_re ++ [ilit (str "bend:"); number]) (([dec delta] ++ [dec ch]) ++ [dec bend])) as G.
    unfold text_pitch_bend, re_pitch_bend. rewrite G; clear G F.
    + cbn [app]. rewrite parse_delta_dec by lia. cbn [bind]. rewrite parse_channel_dec by lia. cbn [bind]. rewrite dec16 by lia. cbn [bind].
      unfold make_pitch_bend. pass. eexists. split; [reflexivity|]. repeat split.
    + apply m_channel; [exact M|lia|reflexivity|]. apply (m_il (str "bend:")). apply m_num_end. lia.
  - (* SequenceNumber *)
    pose proof (F [spaces_re; number] ([dec delta] ++ [dec n0])) as G. unfold text_sequence_number, re_sequence_number. rewrite G; clear G F.
    + cbn [app]. rewrite parse_delta_dec by lia. cbn [bind]. rewrite dec16 by lia. eexists. split; [reflexivity|]. repeat split.
    + apply m_sp; [exact M|apply digit_not_white'; lia|]. apply m_num_end. lia.
  - (* texts *)
    pose proof (F [spaces_re; rest_re] ([dec delta] ++ [s])) as G. unfold text_text, re_text. rewrite G; clear G F.
    + cbn [app]. rewrite parse_delta_dec by lia. eexists. split; [reflexivity|]. repeat split; destruct k; reflexivity.
    + apply m_sp; [exact M|apply plain_white, R|]. apply m_rest, plain_dot, R.
  - (* MIDIChannelPrefix *)
    pose proof (F [spaces_re; number] ([dec delta] ++ [dec ch])) as G. unfold text_channel_prefix, re_channel_prefix. rewrite G; clear G F.
    + cbn [app]. rewrite parse_delta_dec by lia. cbn [bind]. rewrite dec8 by lia. cbn [bind]. pass. unfold make_channel_prefix. pass. eexists. split; [reflexivity|]. repeat split.
    + apply m_sp; [exact M|apply digit_not_white'; lia|]. apply m_num_end. lia.
  - (* MIDIPort *)
    pose proof (F [spaces_re; number] ([dec delta] ++ [dec port])) as G. unfold text_port, re_port. rewrite G; clear G F.
    + cbn [app]. rewrite parse_delta_dec by lia. cbn [bind]. rewrite dec8 by lia. cbn [bind]. pass. unfold make_port. pass. eexists. split; [reflexivity|]. repeat split.
    + apply m_sp; [exact M|apply digit_not_white'; lia|]. apply m_num_end. lia.
  - (* EndOfTrack *)
    pose proof (F [] [dec delta] eq_refl) as G. unfold text_end_of_track, re_end_of_track. rewrite G. rewrite parse_delta_dec by lia. eexists. split; [reflexivity|]. repeat split.
  - (* Tempo *)
    pose proof (F [spaces_re; ilit (str "tempo:"); number] ([dec delta] ++ [dec tempo])) as G. unfold text_tempo, re_tempo. rewrite G; clear G F.
    + cbn [app]. rewrite parse_delta_dec by lia. cbn [bind]. rewrite dec32 by lia. eexists. split; [reflexivity|]. repeat split.
    + apply m_sp; [exact M|reflexivity|]. apply m_il. apply m_num_end. lia.
  - (* SMPTEOffset *)
    destruct D as (D1 & D2 & D3 & D4 & D5 & D6).
    pose proof (F [spaces_re; number; spaces_re; number; spaces_re; number; spaces_re; number; spaces_re; number; spaces_re; number]
      (((((([dec delta] ++ [dec hour]) ++ [dec minute]) ++ [dec second]) ++ [dec rate]) ++ [dec frames]) ++ [dec fractions])) as G.
    unfold text_smpte_offset, re_smpte_offset. rewrite G; clear G F.
    + cbn [app]. rewrite parse_delta_dec by lia. cbn [bind]. do 6 (rewrite dec8 by lia; cbn [bind]).
      pass. pass. unfold make_smpte_offset. do 6 pass. eexists. split; [reflexivity|]. repeat split.
    + apply m_sp; [exact M|apply digit_not_white; lia|]. do 5 (apply m_num_sp; [lia|first [apply digit_not_white; lia | apply digit_not_white'; lia]|]). apply m_num_end. lia.
  - (* TimeSignature *)
    destruct D as (D1 & D2 & D3 & D4). destruct R as (R1 & R2 & R3). destruct D2 as [->|(k & K & D2)]; [congruence|].
    assert (KK : k = 0 \/ k = 1 \/ k = 2 \/ k = 3 \/ k = 4 \/ k = 5 \/ k = 6 \/ k = 7) by lia.
    assert (DD : 0 < denominator < 256) by (clear - D2 KK; decompose [or] KK; subst; lia).
    assert (LL : exists x, log2_loop 9 1 denominator 0 = Ok x) by (clear - D2 KK; decompose [or] KK; subst; eexists; reflexivity).
    unfold is_byte in *.
    pose proof (F _ _ (m_time [dec delta] m numerator denominator ticks thirtyseconds M ltac:(lia) DD ltac:(lia) ltac:(lia) R3)) as G.
    unfold text_time_signature, re_time_signature. rewrite G; clear G F.
    cbn [app]. rewrite parse_delta_dec by lia. cbn [bind]. do 4 (rewrite dec8 by lia; cbn [bind]). unfold make_time_signature.
    destruct LL as [x ->]. eexists. split; [reflexivity|]. repeat split.
  - (* KeySignature *)
    destruct D as (K & minor & -> & ->). destruct (m_key [dec delta] m accidentals minor M K) as (a & b & Q & KN & s & S & SN).
    pose proof (F _ _ Q) as G. unfold text_key_signature, re_key_signature. rewrite G; clear G F.
    cbn [app]. rewrite parse_delta_dec by lia. cbn [bind]. change (a ++ 32 :: b) with (a ++ [32] ++ b). rewrite KN.
    unfold make_key_signature. destruct minor; cbn [Z.eqb Pos.eqb]; rewrite S, SN; eexists; (split; [reflexivity|]); repeat split.
  - (* SequencerSpecific *)
    destruct D as (B & _). pose proof (F (spaces_re :: comma_re) _ (m_comma [dec delta] m (m_name m0) (32 :: hex_string data) M ltac:(apply R) ltac:(apply R)
      ltac:(cbn [forallb]; rewrite (hex_dot _ B); reflexivity))) as G. unfold text_sequencer_specific, re_sequencer_specific. rewrite G; clear G F.
    cbn [app]. rewrite parse_delta_dec by lia. cbn [bind]. rewrite (known _ _ R). cbn [bind]. rewrite parse_hex_space, parse_hex_string by exact B.
    eexists. split; [reflexivity|]. repeat split.
  - (* SysExMessage *)
    destruct D as (B & _). pose proof (F (spaces_re :: comma_re) _ (m_comma [dec delta] m (m_name m0) (32 :: hex_string data) M ltac:(apply R) ltac:(apply R)
      ltac:(cbn [forallb]; rewrite (hex_dot _ B); reflexivity))) as G. unfold text_sysex, re_sysex. rewrite G; clear G F.
    cbn [app]. rewrite parse_delta_dec by lia. cbn [bind]. rewrite (known _ _ R). cbn [bind]. rewrite parse_hex_space, parse_hex_string by exact B.
    eexists. split; [reflexivity|]. repeat split.
  - (* SysExContinuation *)
    destruct D as (B & _). pose proof (F [spaces_re; rest_re] ([dec delta] ++ [hex_string data])) as G. unfold text_continuation, re_continuation. rewrite G; clear G F.
    + cbn [app]. rewrite parse_delta_dec by lia. cbn [bind]. rewrite parse_hex_string by exact B. eexists. split; [reflexivity|]. repeat split.
    + apply m_sp; [exact M|apply hex_white, B|]. apply m_rest, hex_dot, B.
  - (* SysExEscape *)
    pose proof (F [spaces_re; rest_re] ([dec delta] ++ [hex_string data])) as G. unfold text_escape, re_escape. rewrite G; clear G F.
    + cbn [app]. rewrite parse_delta_dec by lia. cbn [bind]. rewrite parse_hex_string by exact D. eexists. split; [reflexivity|]. repeat split.
    + apply m_sp; [exact M|apply hex_white, D|]. apply m_rest, hex_dot, D.
Qed.
