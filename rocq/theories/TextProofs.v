(** * TextProofs: printed events are read again. *)
From Verif Require Import Base Strings Vlq SpecVlq Tables Event Marshal SpecEvent SpecTrack SpecDecoded SpecKey SpecDecimal SpecText SpecNote SpecTable SpecAssemble SpecSurvive SpecRead
  Manufacturer Utf8 Hex Disassemble Regex TextEvent DecimalProofs HexProofs EventProofs AssembleProofs DecodedProofs RegexProofs.

(** ** Numbers *)

Lemma dec_digits : forall n, 0 <= n -> forallb digit (dec n) = true /\ dec n <> [] /\ decimal_value (dec n) = n.
Proof.
  intros n N. pose proof (dec_decimal n) as D.
  assert (F : forall s, Forall is_digit s -> forallb digit s = true).
  { intros s F. apply forallb_forall. intros c I. rewrite Forall_forall in F. specialize (F c I). unfold is_digit in F. unfold digit. lia. }
  remember (dec n) as t eqn:Et. clear Et. destruct D as [|s Fs Hs|s Fs Hs].
  - split; [reflexivity|]. split; [discriminate|reflexivity].
  - split; [apply F, Fs|]. split; [|reflexivity]. intros ->. cbn in Hs. lia.
  - pose proof (value_pos s Fs Hs). lia.
Qed.

Lemma parse_dec : forall bits n, 0 <= n < 2 ^ bits -> parse_uint bits (dec n) = Ok n.
Proof.
  intros bits n N. destruct (dec_digits n ltac:(lia)) as (F & NE & V). unfold parse_uint. rewrite F, V.
  replace (n <? 2 ^ bits) with true by lia. destruct (dec n); [congruence|reflexivity].
Qed.

Lemma parse_delta_dec : forall n, 0 <= n < 4294967296 -> parse_delta (dec n) = Ok n.
Proof. intros n N. apply parse_dec. exact N. Qed.

Lemma parse_channel_dec : forall n, 0 <= n < 16 -> parse_channel (dec n) = Ok n.
Proof.
  intros n N. unfold parse_channel. rewrite parse_dec by (change (2 ^ 8) with 256; lia). cbn [bind].
  replace (15 <? n) with false by lia. reflexivity.
Qed.

Lemma dec_starts : forall n v c, 0 <= n -> (forall x, 48 <= x <= 57 -> c x = false) -> starts c (dec n ++ v) = false.
Proof.
  intros n v c N C. destruct (dec_digits n N) as (F & NE & _). destruct (dec n) as [|x r]; [congruence|]. cbn [app starts].
  cbn [forallb] in F. apply andb_prop in F as [F _]. apply C. unfold digit in F. lia.
Qed.

(** ** The line *)

Lemma pad_spaces : forall w s, exists n, pad w s = s ++ repeat 32 n.
Proof. intros w s. unfold pad. destruct (_ <? _); [exists O; rewrite app_nil_r; reflexivity|eexists; reflexivity]. Qed.

(** Characters of the columns before "delta:". *)
Definition calm (c : Z) : Prop := c = 32 \/ 48 <= c <= 57 \/ 65 <= c <= 71 \/ 128 <= c \/ c = 45.

Lemma calm_spaces : forall n, Forall calm (repeat 32 n).
Proof. induction n; cbn [repeat]; constructor; auto. left. reflexivity. Qed.

Lemma calm_dec : forall n, Forall calm (dec n).
Proof.
  intros n. assert (G : forall s, Forall is_digit s -> Forall calm s).
  { intros s F. eapply Forall_impl; [|exact F]. intros c D. unfold is_digit in D. unfold calm. lia. }
  pose proof (dec_decimal n) as D. destruct D; [repeat constructor; unfold calm; lia|apply G; assumption|].
  constructor; [unfold calm; lia|apply G; assumption].
Qed.

Lemma calm_hex : forall bs s, hex_form bs s -> Forall calm s.
Proof.
  assert (D : forall c v, digit16 c v -> calm c) by (intros c v K; inversion K; unfold calm; lia).
  intros bs s H. induction H; repeat (constructor; [first [eapply D; eassumption | left; reflexivity]|]); auto.
Qed.

Lemma hexdigit_range : forall v, 0 <= v < 16 -> 48 <= hexdigit v <= 57 \/ 65 <= hexdigit v <= 70.
Proof. intros v V. unfold hexdigit. destruct (v <? 10) eqn:E; lia. Qed.

Lemma calm_no_l : forall s, Forall calm s -> no_l s.
Proof. intros s F. eapply Forall_impl; [|exact F]. intros c C. unfold calm in C. lia. Qed.

Definition event_tail (b : body) (m : nat) : bytes :=
  match b with EndOfTrack => [] | _ => repeat 32 m ++ event_details b end.

(** What a line looks like. *)
Lemma line_shape : forall e l d x, event_line e = Ok l -> e_bytes e = d ++ x -> vlq_string d -> is_bytes (d ++ x) ->
  0 <= e_status e < 256 -> 0 <= e_type e < 256 ->
  exists col t n m h1 h2, Forall calm col /\ Forall calm t /\ (2 <= n)%nat /\ (1 <= m)%nat /\
    (48 <= h1 <= 57 \/ 65 <= h1 <= 70) /\ (48 <= h2 <= 57 \/ 65 <= h2 <= 70) /\
    l = (col ++ str "  tick:" ++ t ++ str "  ") ++ str "delta:" ++ dec (e_delta e) ++ gap n h1 h2 ++ body_tag (e_body e) ++ event_tail (e_body e) m ++ [10].
Proof.
  intros e l d x H E V B S T. unfold event_line in H. rewrite E in H.
  destruct (hex_column_spec d x V B) as (col & i & shown & C & _ & F & D). rewrite C in H. cbn [bind] in H. apply Ok_inj in H. subst l.
  destruct (pad_spaces 9 (dec (e_tick e))) as [n1 P1]. destruct (pad_spaces 9 (dec (e_delta e))) as [n2 P2]. rewrite P1, P2.
  assert (Cc : Forall calm col).
  { apply calm_hex in F. destruct D as [[_ [k ->]]|[_ [_ ->]]]; unfold spaces; repeat (apply Forall_app; split); auto using calm_spaces.
    repeat constructor; unfold calm; lia. }
  set (b := if is_meta (e_body e) then e_type e else e_status e).
  assert (R : 0 <= b < 256) by (unfold b; destruct (is_meta _); lia).
  assert (M : exists m, (1 <= m)%nat /\ event_text e = hex2 b ++ [32] ++ body_tag (e_body e) ++ event_tail (e_body e) m).
  { unfold event_text. fold b. destruct (pad_spaces 22 (body_tag (e_body e))) as [m P]. exists (m + 1)%nat. split; [lia|].
    unfold event_tail. destruct (e_body e); rewrite ?P, ?repeat_app; cbn [repeat]; rewrite <- ?app_assoc; cbn [app]; rewrite ?app_nil_r; reflexivity. }
  destruct M as (m & M1 & ->).
  exists col, (dec (e_tick e) ++ repeat 32 n1), (n2 + 2)%nat, m, (hexdigit (b / 16)), (hexdigit (b mod 16)).
  split; [exact Cc|]. split; [apply Forall_app; split; [apply calm_dec|apply calm_spaces]|]. split; [lia|]. split; [exact M1|].
  split; [apply hexdigit_range; lia|]. split; [apply hexdigit_range; lia|].
  unfold gap, hex2. rewrite repeat_app. cbn [repeat]. change (str "  delta:") with (str "  " ++ str "delta:").
  change (str "  ") with [32; 32]. rewrite <- ?app_assoc. cbn [app]. reflexivity.
Qed.

(** ** Which kind is read *)

Definition letter (c : Z) : bool := ((65 <=? c) && (c <=? 90)) || ((97 <=? c) && (c <=? 122)).
Definition small (c : Z) : bool := (97 <=? c) && (c <=? 122).

Lemma occurs_sep : forall t a x b, occurs t (a ++ x :: b) -> ~ In x t -> occurs t a \/ occurs t b.
Proof.
  intros t a x b (u & v & E) N. apply app_eq_app in E as [l [[E1 E2]|[E1 E2]]].
  - apply app_eq_app in E2 as [l2 [[E3 E4]|[E3 E4]]].
    + destruct l2 as [|y l2].
      * left. exists u, []. rewrite app_nil_r in E3. rewrite E1, app_nil_r, E3. rewrite ?app_nil_r. reflexivity.
      * cbn [app] in E4. injection E4 as <- _. exfalso. apply N. rewrite E3. apply in_or_app. right. left. reflexivity.
    + left. exists u, l2. rewrite E1, E3. reflexivity.
  - destruct l as [|y l].
    + destruct t as [|z t]; [left; exists a, []; rewrite app_nil_r; reflexivity|]. cbn [app] in E2. injection E2 as -> _. exfalso. apply N. left. reflexivity.
    + cbn [app] in E2. injection E2 as _ ->. right. exists l, v. reflexivity.
Qed.

(** All words that the assembler looks for. *)
Definition chunk_words : list bytes := [str "MThd"; str "MTrk"].
Definition words : list bytes := tag_order ++ chunk_words.

Lemma tags_letters : forall t, In t words -> forallb letter t = true /\ existsb small t = true.
Proof.
  intros t I. assert (F : forallb (fun t => forallb letter t && existsb small t) words = true) by reflexivity.
  rewrite forallb_forall in F. apply andb_prop, F, I.
Qed.

Lemma not_letter : forall t x, In t words -> letter x = false -> ~ In x t.
Proof.
  intros t x T L I. destruct (tags_letters t T) as [F _]. rewrite forallb_forall in F. rewrite (F x I) in L. discriminate.
Qed.

Lemma occurs_calm : forall t a, In t words -> forallb (fun c => negb (small c)) a = true -> ~ occurs t a.
Proof.
  intros t a T F (u & v & ->). destruct (tags_letters t T) as [_ E]. apply existsb_exists in E as (x & I & S).
  rewrite forallb_forall in F. specialize (F x). rewrite S in F. discriminate F. apply in_or_app. right. apply in_or_app. left. exact I.
Qed.

Lemma occ_skip : forall t a b, In t words -> forallb (fun c => negb (small c)) a = true -> starts letter b = false -> occurs t (a ++ b) -> occurs t b.
Proof.
  intros t a [|x b] T A S O; [rewrite app_nil_r in O; exfalso; eapply occurs_calm; eassumption|]. cbn [starts] in S.
  apply occurs_sep in O as [O|O]; [exfalso; eapply occurs_calm; eassumption| |apply not_letter; assumption].
  destruct O as (u & v & ->). exists (x :: u), v. reflexivity.
Qed.

Definition word_ok (w : bytes) : bool :=
  match rev w with
  | x :: r => negb (letter x) && forallb (fun t => negb (contains (rev r) t)) words
  | [] => false
  end.

Lemma occ_lit : forall t w b, In t words -> word_ok w = true -> occurs t (w ++ b) -> occurs t b.
Proof.
  intros t w b T W O. unfold word_ok in W. destruct (rev w) as [|x r] eqn:R; [discriminate|]. apply andb_prop in W as [L F].
  assert (E : w = rev r ++ [x]) by (rewrite <- (rev_involutive w), R; reflexivity).
  rewrite E, <- app_assoc in O. cbn [app] in O. apply occurs_sep in O as [O|O]; [|exact O|apply not_letter; [exact T|destruct (letter x); [discriminate|reflexivity]]].
  rewrite forallb_forall in F. specialize (F t T). apply contains_spec in O. rewrite O in F. discriminate.
Qed.

Lemma calm_small : forall s, Forall calm s -> forallb (fun c => negb (small c)) s = true.
Proof.
  intros s F. apply forallb_forall. intros c I. rewrite Forall_forall in F. specialize (F c I). unfold calm in F. unfold small. lia.
Qed.

Lemma precedes_in : forall t u, precedes t u -> In t tag_order /\ In u tag_order.
Proof. intros t u (i & j & _ & A & B). split; eapply nth_error_In; eassumption. Qed.

Lemma early_in : forall t b, precedes t (kind_name b) \/ In t chunk_words -> In t words.
Proof. intros t b [P|C]; apply in_or_app; [left; exact (proj1 (precedes_in _ _ P))|right; exact C]. Qed.

(** Note names and event bodies as they are printed. *)
Definition printed (env : env) (b : body) : Prop :=
  decoded_body env b /\
  match b with NoteOff _ n _ | NoteOn _ n _ => exists middle flats, note_name middle flats (n_value n) (n_name n) | _ => True end.

Lemma calm_const : forall s, forallb (fun c => (c =? 32) || ((48 <=? c) && (c <=? 57)) || ((65 <=? c) && (c <=? 71)) || (128 <=? c)) s = true -> Forall calm s.
Proof. intros s H. rewrite forallb_forall in H. apply Forall_forall. intros c I. specialize (H c I). cbn beta in H. unfold calm. lia. Qed.

Lemma note_name_calm : forall middle flats n s, note_name middle flats n s -> Forall calm s.
Proof.
  intros middle flats n s (o & D & ->). apply Forall_app. split.
  - unfold pitch_class_name. repeat (destruct (_ =? _); [destruct flats; apply calm_const; reflexivity|]). apply calm_const; reflexivity.
  - assert (G : forall s, Forall is_digit s -> Forall calm s).
    { intros s F. eapply Forall_impl; [|exact F]. intros c C. unfold is_digit in C. unfold calm. lia. }
    destruct D; [repeat constructor; unfold calm; lia|apply G; assumption|]. constructor; [unfold calm; lia|apply G; assumption].
Qed.

Lemma lookup_controller_id : forall id, 0 <= id < 256 -> c_id (lookup_controller id) = id.
Proof.
  intros id H. pose proof (byte_sweep (fun id => c_id (lookup_controller id) =? id) ltac:(vm_compute; reflexivity) id H). lia.
Qed.

Ltac occ_start := match goal with |- starts letter (dec ?n ++ _) = false => apply dec_starts; [assumption || lia|intros; unfold letter; lia] | |- _ => reflexivity end.

Lemma dec_starts_letter : forall n v, 0 <= n -> starts letter (dec n ++ v) = false.
Proof. intros. apply dec_starts; [assumption|]. intros. unfold letter. lia. Qed.

Lemma occ_dec : forall t n b, In t words -> starts letter b = false -> occurs t (dec n ++ b) -> occurs t b.
Proof. intros t n b T S. apply occ_skip; [exact T|apply calm_small, calm_dec|exact S]. Qed.

Lemma occ_nil : forall t, In t words -> ~ occurs t [].
Proof. intros t T. apply occurs_calm; [exact T|reflexivity]. Qed.

Lemma occ_end : forall t n, In t words -> ~ occurs t (dec n).
Proof. intros t n T. apply occurs_calm; [exact T|apply calm_small, calm_dec]. Qed.

Lemma occ_channel : forall t c b, In t words -> starts letter b = false -> occurs t ((str "channel:" ++ pad 2 (dec c)) ++ b) -> occurs t b.
Proof.
  intros t c b T S O. destruct (pad_spaces 2 (dec c)) as [n P]. rewrite P, <- app_assoc in O. apply occ_lit in O; [|exact T|vm_compute; reflexivity].
  apply occ_skip in O; [exact O|exact T| |exact S]. apply calm_small, Forall_app. split; [apply calm_dec|apply calm_spaces].
Qed.

Lemma occ_hex : forall t d, In t words -> is_bytes d -> ~ occurs t (hex_string d).
Proof. intros t d T B. apply occurs_calm; [exact T|]. eapply calm_small, calm_hex, hex_string_form, B. Qed.

(** The controllers' names contain no name of a kind that is looked for before "Controller", no line feed and nothing that looks
    like the fields of the line. *)
Lemma controller_names : forall id, 0 <= id < 256 ->
  forallb (fun t => negb (contains (c_name (lookup_controller id)) t)) (firstn 21 tag_order ++ chunk_words) = true /\
  forallb dot (c_name (lookup_controller id)) = true /\
  forallb (clash (str "channel:")) (suffixes (c_name (lookup_controller id) ++ str ", value:")) = true.
Proof.
  intros id H. pose proof (byte_sweep (fun id => forallb (fun t => negb (contains (c_name (lookup_controller id)) t)) (firstn 21 tag_order ++ chunk_words) &&
    (forallb dot (c_name (lookup_controller id)) &&
     forallb (clash (str "channel:")) (suffixes (c_name (lookup_controller id) ++ str ", value:")))) ltac:(vm_compute; reflexivity) id H) as K.
  apply andb_prop in K as [A K]. apply andb_prop in K as [B C]. auto.
Qed.

Lemma key_names : forall (minor : bool) acc, key_range acc -> forallb (fun t => negb (contains (key_name minor acc) t)) words = true.
Proof.
  intros minor acc K. assert (A : acc = -7 \/ acc = -6 \/ acc = -5 \/ acc = -4 \/ acc = -3 \/ acc = -2 \/ acc = -1 \/ acc = 0 \/ acc = 1 \/
    acc = 2 \/ acc = 3 \/ acc = 4 \/ acc = 5 \/ acc = 6 \/ acc = 7) by (unfold key_range in K; lia).
  repeat (destruct A as [-> | A]; [destruct minor; vm_compute; reflexivity|]). subst acc. destruct minor; vm_compute; reflexivity.
Qed.

(** An earlier name in the details is in the free text. *)
Lemma details_free : forall env t b, printed env b -> precedes t (kind_name b) \/ In t chunk_words -> occurs t (event_details b) -> occurs t (free_text b).
Proof.
  intros env t b [D N] P O. pose proof (early_in _ _ P) as T.
  destruct b; cbn [event_details free_text] in *; try exact O;
    try (exfalso; eapply occ_end; eassumption).
  all: try (apply occ_channel in O; [|exact T|reflexivity]).
  all: try (apply occ_lit in O; [|exact T|vm_compute; reflexivity]).
  all: try (exfalso; eapply occ_end; eassumption).
  all: try (exfalso; eapply occ_nil; eassumption).
  - (* NoteOff *) destruct N as (mid & fl & N). apply note_name_calm, calm_small in N. exfalso. eapply occ_end; [exact T|].
    apply occ_skip in O; [|exact T|exact N|reflexivity]. apply occ_lit in O; [exact O|exact T|vm_compute; reflexivity].
  - (* NoteOn *) destruct N as (mid & fl & N). apply note_name_calm, calm_small in N. exfalso. eapply occ_end; [exact T|].
    apply occ_skip in O; [|exact T|exact N|reflexivity]. apply occ_lit in O; [exact O|exact T|vm_compute; reflexivity].
  - (* Controller *)
    destruct D as (_ & (id & I & ->) & _). exfalso. apply occ_dec in O; [|exact T|reflexivity]. apply occ_lit in O; [|exact T|vm_compute; reflexivity].
    change (str ", value:" ++ dec value) with (44 :: str " value:" ++ dec value) in O.
    apply occurs_sep in O; [|apply not_letter; [exact T|reflexivity]]. destruct O as [O|O].
    + destruct (controller_names id I) as [F _]. rewrite forallb_forall in F. apply contains_spec in O. specialize (F t). rewrite O in F. discriminate F.
      apply in_or_app. destruct P as [P|P]; [left|right; exact P]. destruct P as (i & j & IJ & Pi & Pj). cbn [kind_name] in Pj.
      assert (J : j = 21%nat).
      { do 29 (destruct j as [|j]; [try reflexivity; discriminate Pj|]). destruct j; discriminate Pj. }
      subst j.
      rewrite <- (firstn_skipn 21 tag_order) in Pi. rewrite nth_error_app1 in Pi by exact IJ. eapply nth_error_In, Pi.
    + apply occ_lit in O; [|exact T|vm_compute; reflexivity]. eapply occ_end; eassumption.
  - (* ProgramChange *) exfalso. apply occ_dec in O; [|exact T|reflexivity]. apply occ_lit in O; [|exact T|vm_compute; reflexivity]. eapply occ_end; eassumption.
  - (* SMPTEOffset *) exfalso. do 5 (apply occ_dec in O; [|exact T|reflexivity]; apply occ_lit in O; [|exact T|vm_compute; reflexivity]).
    eapply occ_end; eassumption.
  - (* TimeSignature *) exfalso. do 4 (apply occ_dec in O; [|exact T|reflexivity]; try (apply occ_lit in O; [|exact T|vm_compute; reflexivity])).
    apply contains_spec in O. revert O. assert (F : forallb (fun t => negb (contains (str "/32 per quarter") t)) words = true) by (vm_compute; reflexivity).
    rewrite forallb_forall in F. specialize (F t T). intros O. rewrite O in F. discriminate.
  - (* KeySignature *) destruct D as (K & minor & _ & ->). exfalso. apply contains_spec in O. pose proof (key_names minor _ K) as F.
    rewrite forallb_forall in F. specialize (F t T). rewrite O in F. discriminate.
  - (* SequencerSpecific *) destruct D as [B _]. change (str ", " ++ hex_string data) with (44 :: [32] ++ hex_string data) in O.
    apply occurs_sep in O; [|apply not_letter; [exact T|reflexivity]]. destruct O as [O|O]; [exact O|]. exfalso.
    apply occ_lit in O; [|exact T|vm_compute; reflexivity]. eapply occ_hex; eassumption.
  - (* SysExMessage *) destruct D as [B _]. change (str ", " ++ hex_string data) with (44 :: [32] ++ hex_string data) in O.
    apply occurs_sep in O; [|apply not_letter; [exact T|reflexivity]]. destruct O as [O|O]; [exact O|]. exfalso.
    apply occ_lit in O; [|exact T|vm_compute; reflexivity]. eapply occ_hex; eassumption.
  - exfalso. eapply occ_hex; [exact T| |exact O]. apply D.
  - exfalso. eapply occ_hex; [exact T| |exact O]. apply D.
Qed.

Lemma occ_spaces : forall t n b, In t words -> occurs t (repeat 32 n ++ b) -> occurs t b.
Proof.
  intros t n b T. induction n as [|n IH]; intros O; [exact O|]. apply IH. cbn [repeat app] in O.
  change (32 :: repeat 32 n ++ b) with ([32] ++ repeat 32 n ++ b) in O. apply occ_lit in O; [exact O|exact T|vm_compute; reflexivity].
Qed.

(** The part of the line before the line feed. *)
Definition line_of (col t : bytes) (delta : Z) (n m : nat) (h1 h2 : Z) (b : body) : bytes :=
  (col ++ str "  tick:" ++ t ++ str "  ") ++ str "delta:" ++ dec delta ++ gap n h1 h2 ++ body_tag b ++ event_tail b m.

Definition line_ok (col t : bytes) (n m : nat) (h1 h2 : Z) : Prop :=
  Forall calm col /\ Forall calm t /\ (2 <= n)%nat /\ (1 <= m)%nat /\
  (48 <= h1 <= 57 \/ 65 <= h1 <= 70) /\ (48 <= h2 <= 57 \/ 65 <= h2 <= 70).

Lemma tail_occurs : forall t b m, In t words -> occurs t (body_tag b ++ event_tail b m) -> (1 <= m)%nat ->
  occurs t (body_tag b) \/ occurs t (event_details b).
Proof.
  intros t b [|m] T O M; [lia|].
  assert (E : b = EndOfTrack \/ event_tail b (S m) = 32 :: repeat 32 m ++ event_details b) by (destruct b; auto).
  destruct E as [-> | E]; [left; cbn [event_tail] in O; rewrite app_nil_r in O; exact O|]. rewrite E in O.
  apply occurs_sep in O; [|apply not_letter; [exact T|reflexivity]]. destruct O as [O|O]; [left; exact O|right].
  eapply occ_spaces; eassumption.
Qed.

Lemma line_occurs : forall t col tk delta n m h1 h2 b, In t words -> line_ok col tk n m h1 h2 ->
  occurs t (line_of col tk delta n m h1 h2 b) -> occurs t (body_tag b) \/ occurs t (event_details b).
Proof.
  intros t col tk delta n m h1 h2 b T (C & K & N & M & H1 & H2) O. unfold line_of in O. rewrite <- !app_assoc in O.
  apply occ_skip in O; [|exact T|apply calm_small, C|reflexivity].
  apply occ_lit in O; [|exact T|vm_compute; reflexivity].
  apply occ_skip in O; [|exact T|apply calm_small, K|reflexivity].
  do 2 (apply occ_lit in O; [|exact T|vm_compute; reflexivity]).
  apply occ_dec in O; [|exact T|destruct n; [lia|reflexivity]].
  unfold gap in O. rewrite <- app_assoc in O. apply occ_spaces in O; [|exact T].
  change ([h1; h2; 32] ++ body_tag b ++ event_tail b m) with ([h1; h2] ++ 32 :: body_tag b ++ event_tail b m) in O.
  apply occurs_sep in O; [|apply not_letter; [exact T|reflexivity]]. destruct O as [O|O].
  - exfalso. eapply occurs_calm; [exact T| |exact O]. cbn [forallb]. unfold small. lia.
  - eapply tail_occurs; eassumption.
Qed.

Lemma line_has_tag : forall col tk delta n m h1 h2 b, occurs (body_tag b) (line_of col tk delta n m h1 h2 b).
Proof.
  intros. unfold line_of. exists ((col ++ str "  tick:" ++ tk ++ str "  ") ++ str "delta:" ++ dec delta ++ gap n h1 h2), (event_tail b m).
  rewrite <- !app_assoc. reflexivity.
Qed.

Lemma kind_tag : forall b, body_tag b = kind_name b.
Proof. destruct b; reflexivity. Qed.

(** No name is part of a name that is looked for later. *)
Lemma tags_apart : forall i j t u, (i < j)%nat -> nth_error tag_order i = Some t -> nth_error tag_order j = Some u -> contains u t = false.
Proof.
  assert (F : forallb (fun j => forallb (fun i => negb (contains (nth j tag_order []) (nth i tag_order []))) (seq 0 j)) (seq 0 28) = true) by (vm_compute; reflexivity).
  intros i j t u L I J. assert (B : (j < 28)%nat) by (change 28%nat with (length tag_order); apply nth_error_Some; congruence).
  rewrite forallb_forall in F. specialize (F j). assert (IJ : In j (seq 0 28)) by (apply in_seq; lia). specialize (F IJ).
  rewrite forallb_forall in F. assert (II : In i (seq 0 j)) by (apply in_seq; lia). specialize (F i II).
  rewrite (nth_error_nth _ _ _ I), (nth_error_nth _ _ _ J) in F. destruct (contains u t); [discriminate|reflexivity].
Qed.

Lemma first_case_nth : forall cases s i t f, nth_error cases i = Some (t, f) -> contains s t = true ->
  (forall j t' f', (j < i)%nat -> nth_error cases j = Some (t', f') -> contains s t' = false) -> first_case cases s = f s.
Proof.
  induction cases as [|[t0 f0] cases IH]; intros s i t f N C E; [destruct i; discriminate|]. cbn [first_case].
  destruct i as [|i].
  - cbn [nth_error] in N. injection N as -> ->. rewrite C. reflexivity.
  - rewrite (E O t0 f0) by (reflexivity || lia). apply (IH s i t f); [exact N|exact C|]. intros j t' f' J. apply (E (S j)). lia.
Qed.

Lemma first_case_inv : forall cases s e, first_case cases s = Ok e -> exists i t f, nth_error cases i = Some (t, f) /\ contains s t = true /\
  f s = Ok e /\ (forall j t' f', (j < i)%nat -> nth_error cases j = Some (t', f') -> contains s t' = false).
Proof.
  induction cases as [|[t0 f0] cases IH]; intros s e H; [discriminate|]. cbn [first_case] in H. destruct (contains s t0) eqn:C.
  - exists O, t0, f0. split; [reflexivity|]. split; [exact C|]. split; [exact H|]. intros. lia.
  - destruct (IH s e H) as (i & t & f & N & C' & F & E). exists (S i), t, f. split; [exact N|]. split; [exact C'|]. split; [exact F|].
    intros [|j] t' f' J M; [cbn in M; congruence|]. apply (E j t' f'); [lia|exact M].
Qed.

Ltac read_inv H := repeat match type of H with
  | match ?x with _ => _ end = Ok _ => destruct x; try discriminate H
  | bind ?x _ = Ok _ => destruct x; try discriminate H; cbn [bind] in H
  | (if ?x then _ else _) = Ok _ => destruct x; try discriminate H
  | (let '(_, _) := ?x in _) = Ok _ => destruct x
  end.

Lemma case_kind : forall table i t f s e, nth_error (text_cases table) i = Some (t, f) -> f s = Ok e -> kind_name (e_body e) = t.
Proof.
  intros table i t f s e N H. apply nth_error_In in N. unfold text_cases in N. cbn [In] in N.
  repeat (destruct N as [N|N]; [injection N as <- <-|]); [..|contradiction].
  all: revert H; unfold text_sequence_number, text_text, text_channel_prefix, text_port, text_tempo, text_time_signature, text_key_signature,
    text_smpte_offset, text_end_of_track, text_sequencer_specific, text_note_off, text_note_on, text_polyphonic_pressure, text_controller,
    text_program_change, text_channel_pressure, text_pitch_bend, text_sysex, text_continuation, text_escape,
    make_channel_prefix, make_port, make_time_signature, make_key_signature, make_smpte_offset, make_note_on, make_polyphonic_pressure, make_controller,
    make_program_change, make_channel_pressure, make_pitch_bend; intros H; read_inv H; apply Ok_inj in H; subst e; reflexivity.
Qed.

(** The method called for a kind of event. *)
Definition parser (table : list (bytes * manufacturer)) (b : body) : bytes -> outcome event :=
  match b with
  | NoteOff _ _ _ => text_note_off | NoteOn _ _ _ => text_note_on
  | PolyphonicPressure _ _ => text_polyphonic_pressure | Controller _ _ _ => text_controller
  | ProgramChange _ _ _ => text_program_change | ChannelPressure _ _ => text_channel_pressure | PitchBend _ _ => text_pitch_bend
  | SequenceNumber _ => text_sequence_number | TextEvent k _ => text_text k
  | MIDIChannelPrefix _ => text_channel_prefix | MIDIPort _ => text_port | EndOfTrack => text_end_of_track
  | Tempo _ => text_tempo | SMPTEOffset _ _ _ _ _ _ => text_smpte_offset | TimeSignature _ _ _ _ => text_time_signature
  | KeySignature _ _ _ => text_key_signature | SequencerSpecific _ _ => text_sequencer_specific table
  | SysExMessage _ _ _ => text_sysex table | SysExContinuation _ _ => text_continuation | SysExEscape _ => text_escape
  end.

Lemma parser_position : forall table b, exists i, nth_error tag_order i = Some (kind_name b) /\
  nth_error (text_cases table) i = Some (kind_name b, parser table b).
Proof.
  intros table b. destruct b; [..|destruct k| | | | | | | | | | | ];
    match goal with |- exists i, nth_error _ i = Some (kind_name ?b) /\ _ =>
      let n := eval vm_compute in ((fix go (l : list bytes) := match l with [] => O | t :: r => if bytes_eqb t (kind_name b) then O else S (go r) end) tag_order) in
      exists n end; split; reflexivity.
Qed.

Lemma case_tags : forall table j, option_map fst (nth_error (text_cases table) j) = nth_error tag_order j.
Proof. intros table j. change tag_order with (map fst (text_cases table)). symmetry. apply nth_error_map. Qed.

Lemma tag_position_unique : forall i j t, nth_error tag_order i = Some t -> nth_error tag_order j = Some t -> i = j.
Proof.
  intros i j t I J. assert (N : NoDup tag_order).
  { assert (G : forall l, (fix go (l : list bytes) := match l with [] => true | t :: r => negb (existsb (bytes_eqb t) r) && go r end) l = true -> NoDup l).
    { induction l as [|x l IH]; intros F; constructor; apply andb_prop in F as [A B]; auto.
      intros Ix. apply Bool.negb_true_iff in A. rewrite <- Bool.not_true_iff_false in A. apply A, existsb_exists. exists x. split; [exact Ix|]. apply bytes_eqb_eq. reflexivity. }
    apply G. vm_compute. reflexivity. }
  eapply (proj1 (NoDup_nth_error tag_order) N); [|congruence]. apply nth_error_Some. congruence.
Qed.

Theorem right_kind : forall env table col tk delta n m h1 h2 b, printed env b -> line_ok col tk n m h1 h2 ->
  let l := line_of col tk delta n m h1 h2 b in
  (~ misleading b -> unmarshal_text table l = parser table b l) /\
  (misleading b -> forall e', unmarshal_text table l = Ok e' -> kind_name (e_body e') <> kind_name b).
Proof.
  intros env table col tk delta n m h1 h2 b P K l. destruct (parser_position table b) as (i & I1 & I2). split.
  - intros NM. eapply first_case_nth; [exact I2|rewrite <- kind_tag; apply contains_spec, line_has_tag|].
    intros j t' f' J N. pose proof (case_tags table j) as E. rewrite N in E. cbn [option_map fst] in E. symmetry in E.
    destruct (contains l t') eqn:C; [|reflexivity]. exfalso. apply contains_spec in C.
    assert (T : In t' tag_order) by (eapply nth_error_In, E). apply line_occurs in C; [|apply in_or_app; left; exact T|exact K].
    assert (Pr : precedes t' (kind_name b)) by (exists j, i; auto).
    destruct C as [C|C].
    + rewrite kind_tag in C. apply contains_spec in C. rewrite (tags_apart j i t' _ J E I1) in C. discriminate.
    + apply NM. exists t'. split; [exact Pr|]. eapply details_free; [eassumption|left; exact Pr|eassumption].
  - intros (t & (j & i' & JI & Tj & Ti) & O) e' H EK.
    assert (i' = i) by (eapply tag_position_unique; eassumption). subst i'.
    unfold unmarshal_text in H. apply first_case_inv in H as (i2 & t2 & f2 & N2 & C2 & F2 & Early).
    pose proof (case_kind _ _ _ _ _ _ N2 F2) as E2.
    pose proof (case_tags table i2) as E3. rewrite N2 in E3. cbn [option_map fst] in E3. symmetry in E3.
    assert (i2 = i) by (eapply tag_position_unique; [exact E3|]; congruence). subst i2.
    pose proof (case_tags table j) as E4. rewrite Tj in E4. destruct (nth_error (text_cases table) j) as [[t' f']|] eqn:N4; [|discriminate].
    cbn [option_map fst] in E4. injection E4 as ->. specialize (Early j t f' JI N4).
    assert (Oc : occurs t l).
    { unfold l, line_of. destruct O as (u & v & O).
      assert (ET : exists a z, event_tail b m = a ++ free_text b ++ z).
      { unfold event_tail. destruct b; cbn [free_text] in *; try (destruct u; [destruct t; [|discriminate O]; exfalso; destruct j; [discriminate Tj|];
          do 28 (destruct j; [discriminate Tj|]); destruct j; discriminate Tj | discriminate O]).
        - exists (repeat 32 m), []. rewrite app_nil_r. reflexivity.
        - exists (repeat 32 m), (str ", " ++ hex_string data). reflexivity.
        - exists (repeat 32 m), (str ", " ++ hex_string data). reflexivity. }
      destruct ET as (a & z & ->). rewrite O.
      exists ((col ++ str "  tick:" ++ tk ++ str "  ") ++ str "delta:" ++ dec delta ++ gap n h1 h2 ++ body_tag b ++ a ++ u), (v ++ z).
      rewrite <- !app_assoc. reflexivity. }
    apply contains_spec in Oc. congruence.
Qed.

(** ** Matching *)

Notation fin := (fun (caps : list bytes) (_ : bytes) => Some caps).

Lemma body_tag_like : forall b, tag_like (body_tag b).
Proof. intros b. destruct b; [..|destruct k| | | | | | | | | | | ]; eexists _, _, _, _; (split; [reflexivity|]); repeat split; discriminate. Qed.

Lemma event_found : forall rest col tk delta n m h1 h2 b y, line_ok col tk n m h1 h2 -> 0 <= delta ->
  rmatch (cat rest) [dec delta] (event_tail b m) fin = Some y ->
  rfind (event_re (body_tag b) rest) (line_of col tk delta n m h1 h2 b) = Some y.
Proof.
  intros rest col tk delta n m h1 h2 b y (C & K & N & M & H1 & H2) D R. unfold line_of.
  destruct (dec_digits delta D) as (F & NE & _).
  rewrite rfind_skip.
  - apply rfind_here. unfold event_re. cbn [app]. rewrite rmatch_cat. apply m_ilit. rewrite rmatch_cat.
    apply m_group_plus; [exact F|exact NE|unfold gap; destruct n; [lia|reflexivity]|]. rewrite rmatch_cat. cbn [rmatch app].
    apply star_lazy.
    + unfold gap. rewrite forallb_app. apply andb_true_intro. split.
      * clear. induction n; [reflexivity|exact IHn].
      * cbn [forallb]. unfold dot. lia.
    + intros a b' E B. rewrite rmatch_cat. cbn [rmatch ilit].
      rewrite (gap_early (body_tag b) n h1 h2 a b' _ (body_tag_like b)); [reflexivity|lia|lia|exact E|exact B].
    + rewrite rmatch_cat. apply m_ilit. exact R.
  - intros a b' E B. unfold event_re. cbn [app]. rewrite rmatch_cat. cbn [rmatch ilit]. rewrite delta_early; [reflexivity| |exact B].
    assert (NL : no_l (col ++ str "  tick:" ++ tk ++ str "  ")).
    { repeat (apply Forall_app; split); try (apply calm_no_l; assumption); repeat constructor; discriminate. }
    rewrite E in NL. apply Forall_app in NL. apply NL.
Qed.
