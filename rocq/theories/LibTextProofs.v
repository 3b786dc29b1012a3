(** * LibTextProofs: the texts of package lib (C107) and of tempo and time signature (C108). *)
From Coq Require Import Permutation.
From Verif Require Import Base Strings SpecAssemble AssembleProofs Regex RegexProofs TextEvent TextProofs SpecLine LineProofs SpecDecimal SpecTable DecimalProofs Event Float FloatProofs LibText SpecLibText.

(** ** Tags *)

Lemma tag_table : forall k s, In (k, s) tag_names <-> (tag_string k = Ok s /\ 0 < k).
Proof.
  intros k s. split.
  - intro I. repeat (destruct I as [I|I]; [injection I as <- <-; split; reflexivity|]). destruct I.
  - intros [E P]. unfold tag_string in E. destruct (Z.ltb_spec k 0); [discriminate|].
    assert (G : forallb (fun i => match nth_error tag_strings i with Some s => existsb (fun x => (fst x =? Z.of_nat i) && bytes_eqb (snd x) s) tag_names | None => true end) (seq 1 28) = true)
      by (vm_compute; reflexivity).
    destruct (nth_error tag_strings (Z.to_nat k)) as [s'|] eqn:X; [|discriminate]. apply Ok_inj in E. subst s'.
    assert (Y : nth_error tag_strings (Z.to_nat k) <> None) by congruence. apply nth_error_Some in Y. change (length tag_strings) with 29%nat in Y.
    rewrite forallb_forall in G. specialize (G (Z.to_nat k)). rewrite X in G. specialize (G ltac:(apply in_seq; lia)). apply existsb_exists in G as ([k' s'] & I & C). cbn [fst snd] in C.
    apply andb_true_iff in C as [C1 C2]. apply bytes_eqb_eq in C2. subst s'. replace k with k' by lia. exact I.
Qed.

Lemma found_in : forall order text k, tag_unmarshal order text = Ok k -> exists s, In (k, s) order /\ occurs s text.
Proof.
  intros order text k H. unfold tag_unmarshal in H. destruct (find _ order) as [[k' s]|] eqn:F; [|discriminate]. apply Ok_inj in H. cbn [fst] in H. subst k'.
  apply find_some in F as [I C]. exists s. split; [exact I|]. apply contains_spec, C.
Qed.
Lemma not_found : forall order text, tag_unmarshal order text = Err <-> forall k s, In (k, s) order -> ~ occurs s text.
Proof.
  intros order text. unfold tag_unmarshal. destruct (find _ order) as [[k s]|] eqn:F.
  - apply find_some in F as [I C]. split; [discriminate|]. intro H. exfalso. apply (H k s I), contains_spec, C.
  - split; [|reflexivity]. intros _ k s I O. pose proof (find_none _ _ F _ I) as N. cbn [snd] in N. apply contains_spec in O. congruence.
Qed.

Theorem tag_text : forall order text k s, Permutation tag_names order -> tag_string k = Ok s -> 0 < k -> occurs s text ->
  (forall k' s', tag_string k' = Ok s' -> 0 < k' -> occurs s' text -> k' = k) -> tag_unmarshal order text = Ok k.
Proof.
  intros order text k s P E K O U. destruct (tag_unmarshal order text) as [k'| | | |] eqn:R.
  - destruct (found_in _ _ _ R) as (s' & I & O'). apply (Permutation_in _ (Permutation_sym P)) in I. apply tag_table in I as [E' K']. rewrite (U k' s' E' K' O'). reflexivity.
  - exfalso. rewrite not_found in R. apply (R k s); [|exact O]. apply (Permutation_in _ P). apply tag_table. auto.
  - unfold tag_unmarshal in R. destruct (find _ order); discriminate.
  - unfold tag_unmarshal in R. destruct (find _ order); discriminate.
  - unfold tag_unmarshal in R. destruct (find _ order); discriminate.
Qed.

Theorem tag_outcome : forall order text, Permutation tag_names order ->
  (forall k, tag_unmarshal order text = Ok k -> exists s, tag_string k = Ok s /\ occurs s text) /\
  (tag_unmarshal order text = Err <-> forall k s, tag_string k = Ok s -> 0 < k -> ~ occurs s text).
Proof.
  intros order text P. split.
  - intros k H. destruct (found_in _ _ _ H) as (s & I & O). exists s. split; [|exact O]. apply (Permutation_in _ (Permutation_sym P)) in I. apply tag_table in I. apply I.
  - rewrite not_found. split; intros H k s.
    + intros E K. apply (H k s). apply (Permutation_in _ P). apply tag_table. auto.
    + intro I. apply (Permutation_in _ (Permutation_sym P)) in I. apply tag_table in I as [E K]. exact (H k s E K).
Qed.

(** No name contains another. *)
Lemma names_apart : forall x y, In x tag_names -> In y tag_names -> occurs (snd x) (snd y) -> fst x = fst y.
Proof.
  assert (G : forallb (fun x => forallb (fun y => implb (contains (snd y) (snd x)) (fst x =? fst y)) tag_names) tag_names = true) by (vm_compute; reflexivity).
  intros x y Ix Iy O. rewrite forallb_forall in G. specialize (G x Ix). rewrite forallb_forall in G. specialize (G y Iy). cbv beta in G.
  apply contains_spec in O. rewrite O in G. cbn [implb] in G. lia.
Qed.

Theorem tag_round_trip : forall order k, Permutation tag_names order -> 1 <= k <= 28 -> exists s, tag_string k = Ok s /\ tag_unmarshal order s = Ok k.
Proof.
  intros order k P K. assert (E : exists s, tag_string k = Ok s).
  { unfold tag_string. destruct (Z.ltb_spec k 0); [lia|]. destruct (nth_error tag_strings (Z.to_nat k)) as [s|] eqn:X; [eauto|]. apply nth_error_None in X. change (length tag_strings) with 29%nat in X. lia. }
  destruct E as [s E]. exists s. split; [exact E|]. apply (tag_text order s k s P E ltac:(lia)).
  - exists [], []. rewrite app_nil_r. reflexivity.
  - intros k' s' E' K' O. apply (names_apart (k', s') (k, s)); [apply tag_table; auto|apply tag_table; split; [exact E|lia]|exact O].
Qed.

(** Every event has one of the names. *)
Theorem event_tags : forall b, exists k, 0 < k /\ tag_string k = Ok (kind_name b).
Proof.
  assert (G : forall b, existsb (fun x => bytes_eqb (snd x) (kind_name b)) tag_names = true)
    by (intro b; destruct b as [| | | | | | | |t ?| | | | | | | | | | |]; [..|]; try (destruct t); vm_compute; reflexivity).
  intro b. specialize (G b). apply existsb_exists in G as ([k s] & I & E). cbn [snd] in E. apply bytes_eqb_eq in E. subst s. exists k. apply tag_table in I. tauto.
Qed.

(** ** Channel *)

Definition channel_pattern : re := cat [lit (str "channel:"); Group (plus digit)].

Lemma strip_inv : forall l s r, strip l s = Some r -> s = l ++ r.
Proof.
  induction l as [|c l IH]; intros s r H; [injection H as ->; reflexivity|]. destruct s as [|x s]; [discriminate|]. cbn [strip] in H.
  destruct (Z.eqb_spec c x) as [->|]; [|discriminate]. cbn [app]. f_equal. apply IH, H.
Qed.

Lemma channel_here : forall s y, rmatch channel_pattern [] s fin = Some y -> exists u v, s = str "channel:" ++ u ++ v /\ u <> [] /\ Forall is_digit u /\ no_digit v /\ y = [u].
Proof.
  intros s y H. unfold channel_pattern in H. rewrite rmatch_cat in H. unfold lit in H at 1. cbn [rmatch] in H. destruct (strip (str "channel:") s) as [r|] eqn:E; [|discriminate].
  apply strip_inv in E. apply i_group_plus in H as (u & v & -> & N & D & K & P). exists u, v. split; [exact E|]. split; [exact N|]. split; [apply digits_are, D|].
  rewrite rmatch_nil in K. injection K as <-. split; [|reflexivity].
  assert (Q : starts digit v = false) by (apply P; intros caps caps' x r X Y; rewrite rmatch_nil; discriminate).
  intros c r' -> C. apply digit_is in C. cbn [starts] in Q. congruence.
Qed.

Lemma channel_there : forall u v, u <> [] -> Forall is_digit u -> no_digit v -> rmatch channel_pattern [] (str "channel:" ++ u ++ v) fin = Some [u].
Proof.
  intros u v N D Q. unfold channel_pattern. rewrite rmatch_cat. apply m_lit. rewrite rmatch_cat. apply m_group_plus; [apply digits_are, D|exact N| |reflexivity].
  destruct v as [|c v]; [reflexivity|]. cbn [starts]. destruct (digit c) eqn:C; [|reflexivity]. exfalso. apply (Q c v eq_refl). apply digit_is, C.
Qed.

(** The digits at the start of a text *)
Lemma digits_split : forall c s, is_digit c -> exists u v, c :: s = u ++ v /\ u <> [] /\ Forall is_digit u /\ no_digit v.
Proof.
  intros c s C. revert c C. induction s as [|x s IH]; intros c C.
  - exists [c], []. repeat split; [discriminate|constructor; [exact C|constructor]|]. intros a b E. discriminate.
  - destruct (digit x) eqn:X.
    + destruct (IH x) as (u & v & E & N & D & Q); [apply digit_is, X|]. exists (c :: u), v. cbn [app]. rewrite <- E. repeat split; [discriminate|constructor; assumption|exact Q].
    + exists [c], (x :: s). repeat split; [discriminate|constructor; [exact C|constructor]|]. intros a b E. injection E as <- <-. intro Y. apply digit_is in Y. congruence.
Qed.

Lemma channel_found : forall text, match rfind channel_pattern text with Some y => exists s, y = [s] /\ first_channel text s | None => forall s, ~ first_channel text s end.
Proof.
  induction text as [|x text IH].
  - cbn [rfind]. destruct (rmatch channel_pattern [] [] _) as [y|] eqn:M; [vm_compute in M; discriminate|]. intros s (pre & post & E & _). destruct pre; discriminate.
  - cbn [rfind]. destruct (rmatch channel_pattern [] (x :: text) fin) as [y|] eqn:M.
    + apply channel_here in M as (u & v & E & N & D & Q & ->). exists u. split; [reflexivity|]. exists [], v. split; [exact E|]. split; [exact N|]. split; [exact D|]. split; [exact Q|].
      intros; cbn [length]; lia.
    + assert (H : forall c rest, x :: text = str "channel:" ++ c :: rest -> ~ is_digit c).
      { intros c rest E C. destruct (digits_split c rest C) as (u & v & E' & N & D & Q). rewrite E, E', (channel_there u v N D Q) in M. discriminate. }

      destruct (rfind channel_pattern text) as [y|].
      * destruct IH as (s & -> & pre & post & -> & N & D & Q & F). exists s. split; [reflexivity|]. exists (x :: pre), post. split; [reflexivity|]. split; [exact N|]. split; [exact D|]. split; [exact Q|].
        intros [|p pre'] c rest E C; [exfalso; exact (H c rest E C)|]. injection E as <- E. cbn [length]. apply F in E; [lia|exact C].
      * intros s (pre & post & E & N & D & Q & F). destruct pre as [|p pre].
        -- destruct s as [|c s]; [congruence|]. inversion D; subst. exact (H c (s ++ post) E ltac:(assumption)).
        -- injection E as <- E. apply (IH s). exists pre, post. split; [exact E|]. split; [exact N|]. split; [exact D|]. split; [exact Q|].
           intros pre' c rest E' C. specialize (F (x :: pre') c rest). cbn [length app] in F. rewrite <- E' in F. specialize (F eq_refl C). lia.
Qed.

Lemma first_unique : forall text s s', first_channel text s -> first_channel text s' -> s = s'.
Proof.
  intros text s s' (pre & post & E & N & D & Q & F) (pre' & post' & E' & N' & D' & Q' & F').
  destruct s as [|c s]; [congruence|]. destruct s' as [|c' s']; [congruence|]. inversion D as [|? ? Dc Ds]; subst. inversion D' as [|? ? Dc' Ds']; subst.
  pose proof (F' pre c (s ++ post) eq_refl Dc) as L1. pose proof (F pre' c' (s' ++ post') E' Dc') as L2.
  assert (L : length pre = length pre') by lia. clear L1 L2 F F'.
  assert (G : pre = pre' /\ str "channel:" ++ (c :: s) ++ post = str "channel:" ++ (c' :: s') ++ post').
  { clear - E' L. revert pre' L E'. induction pre as [|x pre IH]; intros [|y pre'] L E; try discriminate; [auto|]. injection E as -> E. injection L as L. destruct (IH pre' L E) as [-> G]. auto. }
  apply proj2 in G. apply app_inv_head in G. clear E' L. revert D D' G. generalize (c :: s) (c' :: s'). clear c s c' s' N N' Dc Ds Dc' Ds'. intros u u' D. revert u'. induction D as [|x u X D IH]; intros [|y u'] D' G.
  - reflexivity.
  - exfalso. cbn [app] in G. exact (Q y (u' ++ post') G (Forall_inv D')).
  - exfalso. cbn [app] in G. exact (Q' x (u ++ post) (eq_sym G) X).
  - cbn [app] in G. injection G as -> G. f_equal. exact (IH u' (Forall_inv_tail D') G).
Qed.

Theorem channel_text : forall text,
  (forall c, channel_unmarshal text = Ok c <-> exists s, first_channel text s /\ c = digits_value s /\ c <= 15) /\
  (channel_unmarshal text = Err \/ exists c, channel_unmarshal text = Ok c).
Proof.
  intro text. unfold channel_unmarshal. change (cat [lit (str "channel:"); Group (plus digit)]) with channel_pattern. pose proof (channel_found text) as H.
  destruct (rfind channel_pattern text) as [y|].
  - destruct H as (s & -> & F). assert (F' := F). destruct F' as (pre & post & E & N & D & Q & M).
    assert (R : parse_uint 8 s = if digits_value s <? 256 then Ok (digits_value s) else Err).
    { destruct (Z.ltb_spec (digits_value s) 256) as [L|L].
      - apply parse_uint_num; [split; [exact N|split; [exact D|reflexivity]]|exact L].
      - destruct (parse_uint 8 s) as [n| | | |] eqn:P; try reflexivity; [|unfold parse_uint in P; destruct s; [discriminate|]; destruct (forallb digit (z :: s)); [destruct (_ <? _)|]; discriminate..].
        apply parse_uint_inv in P as [(_ & _ & ->) B]. change (2 ^ 8) with 256 in B. lia. }
    rewrite R. split.
    + intro c. destruct (Z.ltb_spec (digits_value s) 256) as [L|L]; cbn [bind].
      * destruct (Z.ltb_spec 15 (digits_value s)) as [G|G].
        -- split; [discriminate|]. intros (s' & F' & -> & C). rewrite (first_unique _ _ _ F' F) in C. lia.
        -- split; [intro X; apply Ok_inj in X; subst c; exists s; auto|]. intros (s' & F' & -> & C). rewrite (first_unique _ _ _ F' F). reflexivity.
      * split; [discriminate|]. intros (s' & F' & -> & C). rewrite (first_unique _ _ _ F' F) in C. lia.
    + destruct (_ <? 256); cbn [bind]; [|auto]. destruct (15 <? _); eauto.
  - split; [|auto]. intro c. split; [discriminate|]. intros (s & F & _). exfalso. exact (H s F).
Qed.

(** ** Middle C *)

Theorem middle_c : (forall c, c = 0 \/ c = 1 -> exists s, middle_c_string c = Ok s /\ middle_c_set s = Ok c) /\
  (forall s c, middle_c_set s = Ok c <-> (c = 0 /\ (s = str "C3" \/ s = str "c3")) \/ (c = 1 /\ (s = str "C4" \/ s = str "c4"))).
Proof.
  split; [intros c [-> | ->]; eexists; split; reflexivity|]. intros s c. unfold middle_c_set. split.
  - destruct (bytes_eqb s (str "C3")) eqn:E1; [apply bytes_eqb_eq in E1; intro H; apply Ok_inj in H; subst; auto|].
    destruct (bytes_eqb s (str "c3")) eqn:E2; [apply bytes_eqb_eq in E2; intro H; apply Ok_inj in H; subst; auto|]. cbn [orb].
    destruct (bytes_eqb s (str "C4")) eqn:E3; [apply bytes_eqb_eq in E3; intro H; apply Ok_inj in H; subst; auto|].
    destruct (bytes_eqb s (str "c4")) eqn:E4; [apply bytes_eqb_eq in E4; intro H; apply Ok_inj in H; subst; auto|]. discriminate.
  - intros [[-> [-> | ->]]|[-> [-> | ->]]]; reflexivity.
Qed.

(** ** Tempo *)

(** A division without remainder, or one that leaves a half, is exact. *)
Lemma nearest_exact : forall q b, 0 < b -> nearest (q * b) b = q.
Proof. intros q b B. unfold nearest. rewrite Z.div_mul, Z.mod_mul by lia. replace (2 * 0 <? b) with true by lia. reflexivity. Qed.

Lemma half_exact : forall a b j, 0 < a < 67108864 -> 0 < b -> 2 * a = j * b -> numer (round64 a b) * b = a * denom (round64 a b).
Proof.
  intros a b j A B E. unfold round64. destruct (Z.eqb_spec a 0); [lia|]. pose proof (log2_ratio a b ltac:(lia) B) as R. cbv zeta in R |- *.
  set (e := if reaches (Z.log2 a - Z.log2 b) a b then Z.log2 a - Z.log2 b else Z.log2 a - Z.log2 b - 1) in *. clearbody e.
  assert (L : e < 26).
  { unfold reaches in R. destruct (Z.leb_spec 0 e) as [P|P]; [|lia]. apply Z.leb_le in R. destruct (Z_lt_ge_dec e 26) as [|G]; [assumption|]. exfalso.
    assert (2 ^ 26 <= 2 ^ e) by (apply Z.pow_le_mono_r; lia). change (2 ^ 26) with 67108864 in *. nia. }
  set (k := 52 - e). assert (K : 1 < k) by (unfold k; lia). clearbody k. replace (0 <=? k) with true by lia.
  assert (P : 2 ^ k = 2 * 2 ^ (k - 1)) by (rewrite <- (Z.pow_1_r 2) at 2; rewrite <- Z.pow_add_r by lia; f_equal; lia).
  assert (X : a * 2 ^ k = (j * 2 ^ (k - 1)) * b) by (rewrite P; nia).
  rewrite X, (nearest_exact _ b B). set (m := j * 2 ^ (k - 1)) in *.
  destruct (Z.eqb_spec m 9007199254740992) as [Em|_]; unfold numer, denom; cbn [fst snd].
  - replace (0 <=? 1 - k) with false by lia. replace (- (1 - k)) with (k - 1) by lia. rewrite Em, P in X. lia.
  - replace (0 <=? - k) with false by lia. rewrite Z.opp_involutive. lia.
Qed.

Theorem tempo_text : forall t, 0 < t -> exists n, decimal n (tempo_string t) /\ rounded 60000000 t n.
Proof.
  intros t T. unfold tempo_string. set (v := round64 60000000 t). exists (round_up v). split; [apply dec_decimal|].
  destruct (round_bound 60000000 t ltac:(lia) T) as [N0 BD]. fold v in N0, BD. pose proof (denom_pos v) as D. unfold rounded, round_up. set (n := numer v) in *. set (d := denom v) in *.
  assert (DM := Z.div_mod (2 * n + d) (2 * d) ltac:(lia)). assert (M := Z.mod_pos_bound (2 * n + d) (2 * d) ltac:(lia)).
  set (q := (2 * n + d) / (2 * d)) in *. set (r := (2 * n + d) mod (2 * d)) in *. clearbody q r.
  assert (TIE : 2 * 60000000 = (2 * q + 1) * t -> n * t = 60000000 * d) by (intro E; exact (half_exact 60000000 t (2 * q + 1) ltac:(lia) T E)).
  clearbody n d v. assert (B2 : 2 * Z.abs (n * t - 60000000 * d) < d) by lia. clear BD.
  assert (L1 : (2 * q - 1) * d <= 2 * n) by lia. assert (L2 : 2 * n < (2 * q + 1) * d) by lia. clear DM M r. split.
  - assert (U : (2 * q - 1) * d * t <= 2 * n * t) by nia. assert ((2 * q - 1) * t * d < (2 * 60000000 + 1) * d) by lia. nia.
  - assert (U : 2 * n * t < (2 * q + 1) * d * t) by nia. assert (V : (2 * 60000000 - 1) * d < (2 * q + 1) * t * d) by lia.
    assert (W : 2 * 60000000 <= (2 * q + 1) * t) by nia. destruct (Z.eq_dec (2 * 60000000) ((2 * q + 1) * t)) as [E|]; [|lia]. exfalso. specialize (TIE E). nia.
Qed.

Theorem time_signature_text : forall n d, exists a b, decimal n a /\ decimal d b /\ time_signature_string n d = a ++ [47] ++ b.
Proof. intros n d. exists (dec n), (dec d). split; [apply dec_decimal|]. split; [apply dec_decimal|reflexivity]. Qed.
