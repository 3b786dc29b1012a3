(** * SameJsonProofs: documents that say the same are assembled alike (C96). *)
From Coq Require Import Permutation.
From Verif Require Import Base Strings Tables Event Track File Hex Manufacturer Assemble TextAssemble SpecLine Json SpecJsonEvent JsonEventProofs SpecSameJson SpecJsonText JsonText JsonReadProofs.

Definition same_members (o o' : list (bytes * json)) : Prop :=
  forall name l l', In name meaningful -> under name o l -> under name o' l' -> Forall2 same_document l l'.

Lemma same_refl : forall l, Forall2 same_document l l.
Proof. induction l; constructor; [apply sd_value|assumption]. Qed.

Lemma members_refl : forall o, same_members o o.
Proof. intros o name l l' _ U U'. rewrite (under_once _ _ _ _ U U'). apply same_refl. Qed.

(** Outcomes that agree, up to a relation between the values *)
Definition agree {A} (R : A -> A -> Prop) (x y : outcome A) : Prop :=
  match x, y with
  | Ok a, Ok b => R a b
  | _, _ => x = y
  end.

Lemma agree_eq : forall A (x y : outcome A), agree eq x y -> x = y.
Proof. intros A [a| | | |] [b| | | |] H; cbn in H; congruence. Qed.

Lemma agree_refl : forall A (R : A -> A -> Prop) x, (forall a, R a a) -> agree R x x.
Proof. intros A R [a| | | |] H; cbn; auto. Qed.

Lemma agree_bind : forall A B (R : A -> A -> Prop) (T : B -> B -> Prop) x y f g, agree R x y -> (forall a b, R a b -> agree T (f a) (g b)) -> agree T (bind x f) (bind y g).
Proof.
  intros A B R T [a| | | |] [b| | | |] f g H F; cbn in H; try discriminate H; cbn [bind]; try reflexivity. apply F, H.
Qed.

Lemma field_agree : forall A (R : A -> A -> Prop) name (f g : A -> json -> outcome A) o o' a b, same_members o o' -> In name meaningful ->
  (forall a b v v', R a b -> same_document v v' -> agree R (f a v) (g b v')) -> R a b -> agree R (field name f a o) (field name g b o').
Proof.
  intros A R name f g o o' a b M I F H. destruct (under_some name o) as (l & U). destruct (under_some name o') as (l' & U').
  rewrite (field_under _ _ _ _ _ _ U), (field_under _ _ _ _ _ _ U'). specialize (M _ _ _ I U U'). clear U U'. revert a b H.
  induction M as [|v v' l l' V M IH]; intros a b H; cbn [each_over]; [exact H|]. apply (agree_bind _ _ R); [apply F; assumption|exact IH].
Qed.

(** Readers that do not tell such values apart *)
Definition blind {A} (f : A -> json -> outcome A) : Prop := forall a v v', same_document v v' -> f a v = f a v'.

Lemma field_same : forall A name (f : A -> json -> outcome A) o o' a, same_members o o' -> In name meaningful -> blind f -> field name f a o = field name f a o'.
Proof.
  intros A name f o o' a M I F. apply agree_eq. apply field_agree; auto. intros x y v v' -> H. rewrite (F y v v' H). apply agree_refl. reflexivity.
Qed.

Lemma object_agree : forall v v', same_document v v' -> agree same_members (object v) (object v').
Proof.
  intros v v' H. inversion H as [w E1 E2|l l' F E1 E2|o o' F E1 E2]; subst; [apply agree_refl, members_refl|reflexivity|exact F].
Qed.

Lemma elements_agree : forall v v', same_document v v' -> agree (Forall2 same_document) (elements v) (elements v').
Proof.
  intros v v' H. inversion H as [w E1 E2|l l' F E1 E2|o o' F E1 E2]; subst; [apply agree_refl, same_refl|exact F|reflexivity].
Qed.

Lemma each_agree : forall A (R : A -> A -> Prop) (f : json -> outcome A) l l', Forall2 same_document l l' -> (forall v v', same_document v v' -> agree R (f v) (f v')) ->
  agree (Forall2 R) (each f l) (each f l').
Proof.
  intros A R f l l' H F. induction H as [|v v' l l' V H IH]; cbn [each]; [constructor|]. apply (agree_bind _ _ R); [apply F, V|]. intros a b X.
  apply (agree_bind _ _ (Forall2 R)); [exact IH|]. intros x y Y. cbn. constructor; assumption.
Qed.

Lemma forall2_eq : forall A (l l' : list A), Forall2 eq l l' -> l = l'.
Proof. intros A l l' H. induction H; congruence. Qed.

Lemma each_same : forall A (f : json -> outcome A) l l', Forall2 same_document l l' -> (forall v v', same_document v v' -> f v = f v') -> each f l = each f l'.
Proof.
  intros A f l l' H F. induction H as [|v v' l l' V H IH]; cbn [each]; [reflexivity|]. rewrite (F v v' V), IH. reflexivity.
Qed.

Lemma bind_same : forall A B (x y : outcome A) (f g : A -> outcome B), x = y -> (forall a, f a = g a) -> bind x f = bind y g.
Proof. intros A B x y f g -> H. destruct y; cbn [bind]; auto. Qed.

Lemma with_elements : forall A (f : list json -> outcome A) v v', same_document v v' -> (forall l l', Forall2 same_document l l' -> f l = f l') -> (do l <- elements v; f l) = do l <- elements v'; f l.
Proof.
  intros A f v v' H F. apply agree_eq. apply (agree_bind _ _ (Forall2 same_document)); [apply elements_agree, H|]. intros a b X. rewrite (F a b X). apply agree_refl. reflexivity.
Qed.
Lemma with_object : forall A (f : list (bytes * json) -> outcome A) v v', same_document v v' -> (forall l l', same_members l l' -> f l = f l') -> (do l <- object v; f l) = do l <- object v'; f l.
Proof.
  intros A f v v' H F. apply agree_eq. apply (agree_bind _ _ same_members); [apply object_agree, H|]. intros a b X. rewrite (F a b X). apply agree_refl. reflexivity.
Qed.

Ltac leaf := intros a v v' H; inversion H; subst; reflexivity.
Lemma int_blind : forall lo hi, blind (read_int lo hi). Proof. intros lo hi. leaf. Qed.
Lemma string_blind : blind read_string. Proof. leaf. Qed.
Lemma bool_blind : blind read_bool. Proof. leaf. Qed.
Lemma pointer_blind : forall A (f : A -> json -> outcome A) a, blind f -> blind (read_pointer (f a)).
Proof.
  intros A f a B x v v' H. inversion H; subst; try reflexivity; cbn [read_pointer]; rewrite (B a _ _ H); reflexivity.
Qed.
Lemma channel_blind : blind read_channel. Proof. intros a v v' H. unfold read_channel. rewrite (int_blind _ _ 0 v v' H). reflexivity. Qed.

Lemma octets_same : forall a v v', same_document v v' -> (do l <- elements v; each (read_int 0 max_uint a) l) = do l <- elements v'; each (read_int 0 max_uint a) l.
Proof. intros a v v' H. apply (with_elements _ (each (read_int 0 max_uint a))); [exact H|]. intros l l' F. apply each_same; [exact F|]. apply int_blind. Qed.

Lemma hex_blind : blind read_hex.
Proof. intros a v v' H. unfold read_hex. apply with_elements; [exact H|]. intros l l' F. rewrite (each_same _ _ l l' F); [reflexivity|apply int_blind]. Qed.

Ltac meant := unfold meaningful; cbn [map In]; tauto.
(* the next field of both sides *)
Ltac next B := apply bind_same; [apply field_same; [assumption|meant|apply B]|intro].

Lemma maker_blind : forall env, blind (read_manufacturer env).
Proof.
  intros env a v v' H. unfold read_manufacturer. apply with_object; [exact H|]. intros l l' M. apply bind_same; [|reflexivity].
  apply field_same; [exact M|meant|]. intros x w w' W. apply octets_same, W.
Qed.

Lemma note_blind : blind read_note.
Proof. intros a v v' H. unfold read_note. apply with_object; [exact H|]. intros l l' M. next int_blind. next string_blind. next string_blind. reflexivity. Qed.
Lemma controller_blind : blind read_controller.
Proof. intros a v v' H. unfold read_controller. apply with_object; [exact H|]. intros l l' M. next int_blind. next string_blind. reflexivity. Qed.

Lemma tagged_same : forall A tag o o' (rest rest' : Z -> outcome A) make, same_members o o' -> (forall d, rest d = rest' d) -> tagged tag o rest make = tagged tag o' rest' make.
Proof.
  intros A tag o o' rest rest' make M R. unfold tagged, text_of, uint32. next string_blind. next int_blind. apply bind_same; [apply R|reflexivity].
Qed.

Lemma text_key_meant : forall k, In (text_key k) meaningful.
Proof. intros []; cbn [text_key]; meant. Qed.

Lemma cases_same : forall env o o', same_members o o' -> Forall (fun c => snd c o = snd c o') (json_cases env).
Proof.
  intros env o o' M. unfold json_cases.
  repeat (apply Forall_cons; [|]); try apply Forall_nil; cbn [snd];
    unfold json_sequence_number, Json.json_text, json_channel_prefix, json_port, json_tempo, json_time_signature, json_key_signature, json_smpte_offset, json_end_of_track,
      json_sequencer_specific, json_note_off, json_note_on, json_polyphonic_pressure, json_controller, json_program_change, json_channel_pressure, json_pitch_bend,
      json_sysex, json_continuation, json_escape, uint8, uint16, uint32, text_of, channel_of, data_of, manufacturer_of;
    apply tagged_same; try exact M; intro d;
    repeat first [reflexivity|apply bind_same; [apply field_same; [exact M|first [apply text_key_meant|meant]|first [apply int_blind|apply string_blind|apply bool_blind|apply channel_blind|apply hex_blind
      |apply maker_blind|apply note_blind|apply controller_blind]]|intro]].
Qed.

Lemma event_same : forall env v v', same_document v v' -> unmarshal_json env v = unmarshal_json env v'.
Proof.
  intros env v v' H. unfold unmarshal_json. apply with_object; [exact H|]. intros o o' M. apply agree_eq.
  apply (agree_bind _ _ (fun a b => match a, b with Some x, Some y => same_document x y | None, None => True | _, _ => False end)).
  - apply field_agree; [exact M|meant| |exact I]. intros a b w w' _ W. exact W.
  - intros [x|] [y|] X; try contradiction; [|reflexivity]. rewrite (with_object _ _ x y X); [apply agree_refl; reflexivity|].
    intros f f' F. unfold text_of. next string_blind. destruct (find _ (json_cases env)) as [[t g]|] eqn:E; [|reflexivity].
    apply find_some in E as [E _]. pose proof (cases_same env f f' F) as C. rewrite Forall_forall in C. exact (C _ E).
Qed.

Lemma header_blind : blind read_header.
Proof.
  intros a v v' H. unfold read_header. apply with_object; [exact H|]. intros l l' M.
  next (pointer_blind _ read_string [] string_blind). next (pointer_blind _ (read_int 0 65535) 0 (int_blind 0 65535)). next (pointer_blind _ (read_int 0 65535) 0 (int_blind 0 65535)). reflexivity.
Qed.

Definition same_track (t t' : jtrack) : Prop := jt_tag t = jt_tag t' /\ Forall2 same_document (jt_events t) (jt_events t').

Lemma track_agree : forall v v', same_document v v' -> agree same_track (read_track v) (read_track v').
Proof.
  intros v v' H. unfold read_track. apply (agree_bind _ _ same_members); [apply object_agree, H|]. intros o o' M.
  rewrite (field_same _ (str "tag") (read_pointer (read_string [])) o o' None M) by first [meant|exact (pointer_blind _ read_string [] string_blind)].
  rewrite (field_same _ (str "tracknumber") (read_pointer (read_int 0 65535 0)) o o' None M) by first [meant|exact (pointer_blind _ (read_int 0 65535) 0 (int_blind 0 65535))].
  apply (agree_bind _ _ eq); [apply agree_refl; reflexivity|]. intros t ? <-. apply (agree_bind _ _ eq); [apply agree_refl; reflexivity|]. intros n ? <-.
  apply (agree_bind _ _ (Forall2 same_document)); [apply field_agree; [exact M|meant| |constructor]|].
  - intros a b w w' _ W. apply elements_agree, W.
  - intros a b E. cbn. split; [reflexivity|exact E].
Qed.

Lemma tracks_same : forall env ts ts', Forall2 same_track ts ts' -> forall n, json_tracks env n ts = json_tracks env n ts'.
Proof.
  intros env ts ts' H. induction H as [|t t' ts ts' [T E] H IH]; intro n; cbn [json_tracks]; [reflexivity|].
  assert (X : json_mtrk env t = json_mtrk env t') by (unfold json_mtrk; rewrite T, (each_same _ _ _ _ E (event_same env)); reflexivity).
  rewrite X, IH. reflexivity.
Qed.

Theorem documents_same : forall env v v', same_document v v' -> assemble_json env v = assemble_json env v'.
Proof.
  intros env v v' H. unfold assemble_json. apply with_object; [exact H|]. intros o o' M. next header_blind. apply agree_eq.
  apply (agree_bind _ _ (Forall2 same_track)).
  - apply field_agree; [exact M|meant| |constructor]. intros x y w w' _ W. apply (agree_bind _ _ (Forall2 same_document)); [apply elements_agree, W|].
    intros l l' L. apply each_agree; [exact L|]. apply track_agree.
  - intros ts ts' T. destruct (json_mthd a) as [h| | | |]; try reflexivity. cbn [bind]. rewrite (tracks_same env ts ts' T). apply agree_refl. reflexivity.
Qed.

(** ** What the relation allows: another order, other spellings, other members. *)

Lemma under_app : forall name o o' l l', under name o l -> under name o' l' -> under name (o ++ o') (l ++ l').
Proof. intros name o o' l l' H H'. induction H; cbn [app]; [exact H'|apply un_here; assumption|apply un_other; assumption]. Qed.

Lemma under_permuted : forall name o o', Permutation o o' -> forall l l', under name o l -> under name o' l' -> Permutation l l'.
Proof.
  intros name o o' H. induction H as [|[k v] o o' H IH|[k v] [k' v'] o|o o' o'' H IH H' IH']; intros l l' U U'.
  - inversion U; subst. inversion U'; subst. constructor.
  - inversion U; subst; inversion U'; subst; try contradiction; [apply perm_skip|]; apply IH; assumption.
  - inversion U as [|k1 v1 o1 l1 S1 X1|k1 v1 o1 l1 S1 X1]; subst; inversion X1 as [|k2 v2 o2 l2 S2 X2|k2 v2 o2 l2 S2 X2]; subst;
      inversion U' as [|k3 v3 o3 l3 S3 X3|k3 v3 o3 l3 S3 X3]; subst; try contradiction; inversion X3 as [|k4 v4 o4 l4 S4 X4|k4 v4 o4 l4 S4 X4]; subst; try contradiction;
      rewrite (under_once _ _ _ _ X2 X4); [apply perm_swap|apply Permutation_refl|apply Permutation_refl|apply Permutation_refl].
  - destruct (under_some name o') as (m & M). eapply Permutation_trans; [apply IH; eassumption|apply IH'; assumption].
Qed.

Theorem any_order : forall o o', Permutation o o' -> (forall name l, In name meaningful -> under name o l -> (length l <= 1)%nat) -> same_document (JObj o) (JObj o').
Proof.
  intros o o' P D. apply sd_object. intros name l l' I U U'. pose proof (under_permuted _ _ _ P _ _ U U') as Q. specialize (D name l I U).
  destruct l as [|v [|w l]]; [apply Permutation_nil in Q; subst; constructor|apply Permutation_length_1_inv in Q; subst; apply same_refl|cbn in D; lia].
Qed.

Theorem others_ignored : forall o k v o', (forall name, In name meaningful -> ~ spelled name k) -> same_document (JObj (o ++ (k, v) :: o')) (JObj (o ++ o')).
Proof.
  intros o k v o' N. apply sd_object. intros name l l' I U U'. destruct (under_some name o) as (a & A). destruct (under_some name o') as (b & B).
  rewrite (under_once _ _ _ _ U' (under_app _ _ _ _ _ A B)), (under_once _ _ _ _ U (under_app _ _ _ _ _ A (un_other name k v o' b (N name I) B))). apply same_refl.
Qed.

Theorem any_spelling : forall o k k' v v' o', (forall name, In name meaningful -> (spelled name k <-> spelled name k')) -> same_document v v' ->
  same_document (JObj (o ++ (k, v) :: o')) (JObj (o ++ (k', v') :: o')).
Proof.
  intros o k k' v v' o' N V. apply sd_object. intros name l l' I U U'. destruct (under_some name o) as (a & A). destruct (under_some name o') as (b & B).
  destruct (names name k) eqn:E.
  - apply names_spelled in E. assert (E' : spelled name k') by (apply (N name I), E).
    rewrite (under_once _ _ _ _ U' (under_app _ _ _ _ _ A (un_here name k' v' o' b E' B))), (under_once _ _ _ _ U (under_app _ _ _ _ _ A (un_here name k v o' b E B))).
    apply Forall2_app; [apply same_refl|]. constructor; [exact V|apply same_refl].
  - assert (F : ~ spelled name k) by (intro X; apply names_spelled in X; congruence). assert (F' : ~ spelled name k') by (intro X; apply (N name I) in X; contradiction).
    rewrite (under_once _ _ _ _ U' (under_app _ _ _ _ _ A (un_other name k' v' o' b F' B))), (under_once _ _ _ _ U (under_app _ _ _ _ _ A (un_other name k v o' b F B))). apply same_refl.
Qed.

(** ** Texts *)

Theorem texts_same : forall env v v' t t' w w' rest rest', json_in lax_chars v t -> json_in lax_chars v' t' -> white w -> white w' -> depth v <= 10000 -> depth v' <= 10000 ->
  separated v rest -> separated v' rest' -> same_document v v' -> assemble_json_text env (w ++ t ++ rest) = assemble_json_text env (w' ++ t' ++ rest').
Proof.
  intros env v v' t t' w w' rest rest' J J' W W' D D' S' S'' H. unfold assemble_json_text. rewrite (accepted_all v t w rest), (accepted_all v' t' w' rest') by assumption.
  cbn [bind]. apply documents_same, H.
Qed.
