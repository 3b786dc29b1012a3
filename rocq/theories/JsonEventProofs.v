(** * JsonEventProofs: a JSON value is read as the event it says (C79). *)
From Verif Require Import Base Strings Tables Event Regex Hex Manufacturer SpecTable SpecKey SpecNote SpecEvent SpecTrack SpecLine Json SpecJsonEvent
  JsonReadProofs NoteProofs DecodedProofs ParseProofs SaysProofs LineProofs.

(** ** Fields *)

Lemma names_spelled : forall name key, names name key = true <-> spelled name key.
Proof.
  intros name key. unfold names. split.
  - intros H. destruct (strip_fold name key) as [r|] eqn:E; [|discriminate]. destruct r as [|c r]; [|discriminate].
    apply strip_says in E as (x & -> & X). rewrite app_nil_r. exact X.
  - intros H. pose proof (strip_spelled name key [] H) as E. rewrite app_nil_r in E. rewrite E. reflexivity.
Qed.

Fixpoint each_over {A} (f : A -> json -> outcome A) (a : A) (l : list json) : outcome A :=
  match l with [] => Ok a | v :: r => do a' <- f a v; each_over f a' r end.

Lemma each_over_app : forall A (f : A -> json -> outcome A) l l' a, each_over f a (l ++ l') = do x <- each_over f a l; each_over f x l'.
Proof. induction l as [|v l IH]; intros l' a; [reflexivity|]. cbn [app each_over]. destruct (f a v); cbn [bind]; auto. Qed.

Lemma under_once : forall name o l l', under name o l -> under name o l' -> l = l'.
Proof.
  intros name o l l' H. revert l'. induction H as [|k v o l S H IH|k v o l S H IH]; intros l' H'; inversion H'; subst; try contradiction; [reflexivity|f_equal|]; auto.
Qed.

Lemma under_some : forall name o, exists l, under name o l.
Proof.
  intros name o. induction o as [|[k v] o [l IH]]; [exists []; constructor|].
  destruct (names name k) eqn:N.
  - exists (v :: l). apply un_here; [apply names_spelled, N|exact IH].
  - exists l. apply un_other; [intros S; apply names_spelled in S; congruence|exact IH].
Qed.

Lemma field_under : forall A name (f : A -> json -> outcome A) o l a, under name o l -> field name f a o = each_over f a l.
Proof.
  intros A name f o l a H. revert a. induction H as [|k v o l S H IH|k v o l S H IH]; intros a; cbn [field each_over]; [reflexivity| |].
  - apply names_spelled in S. rewrite S. destruct (f a v); cbn [bind]; auto.
  - destruct (names name k) eqn:N; [apply names_spelled in N; contradiction|]. apply IH.
Qed.

Lemma field_is : forall A name (f : A -> json -> outcome A) a (P : list json -> A -> Prop), (forall l x, each_over f a l = Ok x <-> P l x) ->
  forall o x, field name f a o = Ok x <-> exists l, under name o l /\ P l x.
Proof.
  intros A name f a P H o x. destruct (under_some name o) as [l U]. rewrite (field_under A name f o l a U), H. split.
  - intros K. exists l. auto.
  - intros (l' & U' & K). rewrite (under_once _ _ _ _ U U'). exact K.
Qed.

Lemma latest_is : forall A (f : A -> json -> outcome A) (sort : json -> A -> Prop) a, (forall x v y, f x v = Ok y <-> sort v y) ->
  forall l x, each_over f a l = Ok x <-> latest sort a l x.
Proof.
  intros A f sort a H l. induction l as [|v l IH] using rev_ind; intros x.
  - split; [intros E; apply Ok_inj in E; subst; constructor|]. intros E. inversion E as [|l' x' v' y' _ _ N]; [reflexivity|destruct l'; discriminate].
  - rewrite each_over_app. split.
    + intros E. apply bind_ok in E as (y & E & E'). cbn [each_over] in E'. apply bind_ok in E' as (z & E' & Z). apply Ok_inj in Z. subst z.
      apply (lt_value _ _ l y); [apply IH, E|apply (H y), E'].
    + intros E. inversion E as [N|l' x' v' y' E1 E2 N]; [destruct l; discriminate|]. apply app_inj_tail in N as [-> ->]. subst y'.
      apply IH in E1. rewrite E1. cbn [bind each_over]. apply (H x') in E2. rewrite E2. reflexivity.
Qed.

Lemma latest_given_is : forall A (f : A -> json -> outcome A) (sort : json -> A -> Prop) a, (forall x v y, f x v = Ok y <-> (v = JNull /\ y = x) \/ sort v y) ->
  forall l x, each_over f a l = Ok x <-> latest_given sort a l x.
Proof.
  intros A f sort a H l. induction l as [|v l IH] using rev_ind; intros x.
  - split; [intros E; apply Ok_inj in E; subst; constructor|]. intros E. inversion E as [|l' x' _ N|l' x' v' y' _ _ N]; [reflexivity|destruct l'; discriminate..].
  - rewrite each_over_app. split.
    + intros E. apply bind_ok in E as (y & E & E'). cbn [each_over] in E'. apply bind_ok in E' as (z & E' & Z). apply Ok_inj in Z. subst z.
      apply H in E' as [[-> ->] |E']; [apply lg_null, IH, E|apply (lg_value _ _ l y); [apply IH, E|exact E']].
    + intros E. inversion E as [N|l' x' E1 N|l' x' v' y' E1 E2 N]; [destruct l; discriminate| |]; apply app_inj_tail in N as [-> <-].
      * apply IH in E1. rewrite E1. cbn [bind each_over]. rewrite (proj2 (H x JNull x) (or_introl (conj eq_refl eq_refl))). reflexivity.
      * subst y'. apply IH in E1. rewrite E1. cbn [bind each_over]. rewrite (proj2 (H x' v' x) (or_intror E2)). reflexivity.
Qed.

(** ** Values *)

Lemma read_int_is : forall lo hi x v y, read_int lo hi x v = Ok y <-> (v = JNull /\ y = x) \/ is_number lo hi v y.
Proof.
  intros lo hi x v y. unfold is_number. destruct v; cbn [read_int]; split; intros H;
    try (apply Ok_inj in H; subst; auto; fail); try discriminate H; try (destruct H as [[A B]|[A B]]; try discriminate A; subst; reflexivity).
  - destruct ((lo <=? n) && (n <=? hi)) eqn:R; [|discriminate H]. apply Ok_inj in H. subst. right. split; [reflexivity|lia].
  - destruct H as [[A B]|[A B]]; [discriminate A|]. injection A as ->. replace ((lo <=? y) && (y <=? hi)) with true by lia. reflexivity.
Qed.

Lemma number_is : forall name lo hi o n, field name (read_int lo hi) 0 o = Ok n <-> number_field name lo hi o n.
Proof. intros name lo hi. apply (field_is _ name _ _ (latest_given (is_number lo hi) 0)). apply latest_given_is, read_int_is. Qed.

Lemma read_string_is : forall x v y, read_string x v = Ok y <-> (v = JNull /\ y = x) \/ is_string v y.
Proof.
  intros x v y. unfold is_string. destruct v; cbn [read_string]; split; intros H;
    try (apply Ok_inj in H; subst; auto; fail); try discriminate H; destruct H as [[A B]|A]; try discriminate A; subst; try reflexivity.
  injection A as ->. reflexivity.
Qed.

Lemma string_is : forall name o s, field name read_string [] o = Ok s <-> string_field name o s.
Proof. intros name. apply (field_is _ name _ _ (latest_given is_string [])). apply latest_given_is, read_string_is. Qed.

Lemma read_bool_is : forall x v y, read_bool x v = Ok y <-> (v = JNull /\ y = x) \/ is_bool v y.
Proof.
  intros x v y. unfold is_bool. destruct v; cbn [read_bool]; split; intros H;
    try (apply Ok_inj in H; subst; auto; fail); try discriminate H; destruct H as [[A B]|A]; try discriminate A; subst; try reflexivity.
  injection A as ->. reflexivity.
Qed.

Lemma bool_is : forall name o b, field name read_bool false o = Ok b <-> bool_field name o b.
Proof. intros name. apply (field_is _ name _ _ (latest_given is_bool false)). apply latest_given_is, read_bool_is. Qed.

Lemma channel_is : forall o c, channel_of o = Ok c <-> channel_field o c.
Proof.
  apply (field_is _ (str "channel") _ _ (latest is_channel 0)). apply latest_is. intros x v y. unfold read_channel, is_channel. split.
  - intros H. apply bind_ok in H as (c & H & E). destruct (Z.ltb_spec 15 c); [discriminate|]. apply Ok_inj in E. subst y.
    apply read_int_is in H as [H|[-> H]]; [left; exact H|right; split; [reflexivity|lia]].
  - intros [[-> ->] |[-> H]]; [reflexivity|]. rewrite (proj2 (read_int_is 0 max_uint 0 (JNum y) y)) by (right; split; [reflexivity|unfold max_uint; lia]).
    cbn [bind]. replace (15 <? y) with false by lia. reflexivity.
Qed.

Lemma octets_each : forall l ns, each (read_int 0 max_uint 0) l = Ok ns -> Forall2 is_octet l (map (fun n => n mod 256) ns).
Proof.
  induction l as [|v l IH]; intros ns H; cbn [each] in H; [apply Ok_inj in H; subst; constructor|].
  apply bind_ok in H as (n & N & H). apply bind_ok in H as (r & R & H). apply Ok_inj in H. subst ns. cbn [map]. constructor; [|apply IH, R].
  apply read_int_is in N as [[-> ->] |[-> N]]; [exact io_null|]. apply io_number. unfold max_uint in N. lia.
Qed.

Lemma each_octets : forall l bs, Forall2 is_octet l bs -> exists ns, each (read_int 0 max_uint 0) l = Ok ns /\ map (fun n => n mod 256) ns = bs /\
  Forall (fun n => 0 <= n < 2 ^ 64) ns.
Proof.
  induction 1 as [|v b l bs O _ (ns & E & <- & F)]; [exists []; auto|]. cbn [each]. destruct O as [|n N].
  - exists (0 :: ns). cbn [read_int bind map]. rewrite E. cbn [bind]. split; [reflexivity|]. split; [reflexivity|constructor; [lia|exact F]].
  - exists (n :: ns). rewrite (proj2 (read_int_is 0 max_uint 0 (JNum n) n)) by (right; split; [reflexivity|unfold max_uint; lia]).
    cbn [bind map]. rewrite E. cbn [bind]. split; [reflexivity|]. split; [reflexivity|constructor; [exact N|exact F]].
Qed.

Lemma read_hex_is : forall x v y, read_hex x v = Ok y <-> are_octets v y.
Proof.
  intros x v y. unfold read_hex, hex_of_json. split.
  - intros H. apply bind_ok in H as (l & L & H). apply bind_ok in H as (ns & N & H). destruct (forallb _ ns); [|discriminate]. apply Ok_inj in H. subst y.
    apply octets_each in N. destruct v; try discriminate L; apply Ok_inj in L; subst l; [|constructor; exact N]. inversion N as [E|]. constructor.
  - intros [|l bs O]; [reflexivity|]. cbn [elements bind]. destruct (each_octets l bs O) as (ns & -> & <- & F). cbn [bind].
    rewrite (proj2 (forallb_forall _ ns)); [reflexivity|]. intros n I. rewrite Forall_forall in F. specialize (F n I). lia.
Qed.

Lemma data_is : forall o bs, data_of o = Ok bs <-> data_field o bs.
Proof. apply (field_is _ (str "data") _ _ (latest are_octets [])). apply latest_is, read_hex_is. Qed.

Lemma object_is : forall v o, object v = Ok o <-> fields_of_value v o.
Proof.
  intros v o. split.
  - intros H. destruct v; try discriminate H; apply Ok_inj in H; subst; constructor.
  - intros []; reflexivity.
Qed.

Lemma assocb_first : forall A key (table : list (bytes * A)) m, assocb key table = Some m <->
  exists pre post, table = pre ++ (key, m) :: post /\ ~ In key (map fst pre).
Proof.
  intros A key table m. induction table as [|[k x] table IH]; cbn [assocb].
  - split; [discriminate|]. intros (pre & post & E & _). destruct pre; discriminate.
  - destruct (bytes_eqb key k) eqn:E.
    + apply bytes_eqb_eq in E. subst k. split.
      * intros H. injection H as ->. exists [], table. split; [reflexivity|intros []].
      * intros (pre & post & T & N). destruct pre as [|[k' x'] pre]; [injection T as -> _; reflexivity|]. injection T as <- _ _. destruct N. left. reflexivity.
    + rewrite IH. split.
      * intros (pre & post & -> & N). exists ((k, x) :: pre), post. split; [reflexivity|]. cbn [map fst In]. intros [Q|Q]; [|exact (N Q)].
        symmetry in Q. apply bytes_eqb_eq in Q. congruence.
      * intros (pre & post & T & N). destruct pre as [|[k' x'] pre].
        -- injection T as -> _ _. pose proof (proj2 (bytes_eqb_eq key key) eq_refl). congruence.
        -- injection T as <- <- ->. exists pre, post. split; [reflexivity|]. intros Q. apply N. right. exact Q.
Qed.

Lemma assocb_none : forall A key (table : list (bytes * A)), assocb key table = None <-> ~ In key (map fst table).
Proof.
  intros A key table. induction table as [|[k x] table IH]; cbn [assocb map fst In].
  - tauto.
  - destruct (bytes_eqb key k) eqn:E.
    + apply bytes_eqb_eq in E. subst k. split; [discriminate|]. intros N. destruct N. left. reflexivity.
    + rewrite IH. split; [|tauto]. intros N [Q|Q]; [|exact (N Q)]. symmetry in Q. apply bytes_eqb_eq in Q. congruence.
Qed.

Lemma maker_lookup : forall env id m, is_bytes id -> lookup_manufacturer env id = m <-> maker_of (env_manufacturers env) id m.
Proof.
  intros env id m B.
  assert (K : (length id = 1%nat \/ length id = 3%nat) -> lookup_manufacturer env id =
    match assocb (id_key id) (env_manufacturers env) with Some m => m | None => Manufacturer id (str "<unknown>") (str "<unknown>") end).
  { intros L. destruct id as [|a [|b [|c [|d id]]]]; cbn [length] in L; try lia; unfold lookup_manufacturer, id_key.
    - inversion B. rewrite hex2_byte by assumption. reflexivity.
    - inversion B as [|? ? _ B']. inversion B' as [|? ? Bb B'']. inversion B''. rewrite !hex2_byte by assumption. reflexivity. }
  assert (N : ~ (length id = 1%nat \/ length id = 3%nat) -> lookup_manufacturer env id = Manufacturer id (str "<unknown>") (str "<unknown>")).
  { intros L. destruct id as [|a [|b [|c [|d id]]]]; cbn [length] in L; try (destruct L; lia); reflexivity. }
  assert (D : {length id = 1%nat \/ length id = 3%nat} + {~ (length id = 1%nat \/ length id = 3%nat)}) by (destruct (Nat.eq_dec (length id) 1); destruct (Nat.eq_dec (length id) 3); (left; lia) || (right; lia)).
  split.
  - intros <-. destruct D as [D|D].
    + rewrite (K D). destruct (assocb (id_key id) (env_manufacturers env)) as [x|] eqn:E.
      * apply assocb_first in E as (pre & post & T & I). exact (mo_known _ _ pre x post D T I).
      * apply mo_unknown. intros _. apply assocb_none, E.
    + rewrite (N D). apply mo_unknown. intros L. destruct (D L).
  - intros [pre x post L T I|U].
    + rewrite (K L). rewrite (proj2 (assocb_first _ (id_key id) (env_manufacturers env) x) (ex_intro _ pre (ex_intro _ post (conj T I)))). reflexivity.
    + destruct D as [D|D]; [|apply N, D]. rewrite (K D). rewrite (proj2 (assocb_none _ _ _) (U D)). reflexivity.
Qed.

Definition raw_octets (v : json) (ns : list Z) : Prop := (do l <- elements v; each (read_int 0 max_uint 0) l) = Ok ns.

Lemma raw_are : forall v ns, raw_octets v ns -> are_octets v (map (fun n => n mod 256) ns).
Proof.
  intros v ns H. apply bind_ok in H as (l & L & H). apply octets_each in H. destruct v; try discriminate L; apply Ok_inj in L; subst l; [|constructor; exact H].
  inversion H. constructor.
Qed.

Lemma are_raw : forall v bs, are_octets v bs -> exists ns, raw_octets v ns /\ map (fun n => n mod 256) ns = bs.
Proof.
  intros v bs [|l bs' O]; [exists []; split; reflexivity|]. destruct (each_octets l bs' O) as (ns & E & M & _). exists ns. split; [exact E|exact M].
Qed.

Lemma octets_bytes : forall (l : list json) (bs : bytes), latest are_octets [] l bs -> is_bytes bs.
Proof.
  intros l bs H. destruct H as [|l x v y _ [|l' bs O]]; [constructor..|]. induction O as [|w b l' bs O _ IH]; constructor; [|exact IH].
  destruct O; unfold is_byte; lia.
Qed.

Lemma ids_are : forall o bs, (exists raw, field (str "id") (fun _ v => do l <- elements v; each (read_int 0 max_uint 0) l) [] o = Ok raw /\ map (fun n => n mod 256) raw = bs) <->
  exists l, under (str "id") o l /\ latest are_octets [] l bs.
Proof.
  intros o bs.
  assert (F : forall raw, field (str "id") (fun _ v => do l <- elements v; each (read_int 0 max_uint 0) l) [] o = Ok raw <-> exists l, under (str "id") o l /\ latest raw_octets [] l raw).
  { apply (field_is _ (str "id") _ _ (latest raw_octets [])). apply latest_is. intros x v y. reflexivity. }
  split.
  - intros (raw & H & <-). apply F in H as (l & U & H). exists l. split; [exact U|]. clear U. induction H as [|l x v y H IH S]; [constructor|].
    apply (lt_value _ _ l (map (fun n => n mod 256) x) v); [exact IH|apply raw_are, S].
  - intros (l & U & H).
    assert (R : exists raw, latest raw_octets [] l raw /\ map (fun n => n mod 256) raw = bs).
    { clear U. induction H as [|l x v y H (raw & IH & _) S]; [exists []; split; constructor|]. apply are_raw in S as (ns & S & <-). exists ns. split; [|reflexivity].
      apply (lt_value _ _ l raw v); [exact IH|exact S]. }
    destruct R as (raw & R & <-). exists raw. split; [|reflexivity]. apply F. exists l. auto.
Qed.

Lemma read_maker_is : forall env x v m, read_manufacturer env x v = Ok m <-> is_maker (env_manufacturers env) v m.
Proof.
  intros env x v m. unfold read_manufacturer, is_maker. split.
  - intros H. apply bind_ok in H as (o & O & H). apply bind_ok in H as (raw & R & H). apply Ok_inj in H.
    destruct (proj1 (ids_are o _) (ex_intro _ raw (conj R eq_refl))) as (l & U & L). exists o, l, (map (fun n => n mod 256) raw).
    split; [apply object_is, O|]. split; [exact U|]. split; [exact L|]. apply maker_lookup; [apply (octets_bytes l), L|exact H].
  - intros (o & l & id & O & U & L & M). apply object_is in O. rewrite O. cbn [bind].
    destruct (proj2 (ids_are o id) (ex_intro _ l (conj U L))) as (raw & R & E). rewrite R. cbn [bind]. rewrite E.
    apply maker_lookup in M; [rewrite M; reflexivity|apply (octets_bytes l), L].
Qed.

Lemma maker_is : forall env o m, manufacturer_of env o = Ok m <-> maker_field (env_manufacturers env) o m.
Proof. intros env. apply (field_is _ (str "manufacturer") _ _ (latest (is_maker (env_manufacturers env)) (Manufacturer [] [] []))). apply latest_is, read_maker_is. Qed.

(** ** Notes and controllers *)

Lemma field_app : forall A name (f : A -> json -> outcome A) o o' a, field name f a (o ++ o') = do x <- field name f a o; field name f x o'.
Proof.
  induction o as [|[k v] o IH]; intros o' a; [reflexivity|]. cbn [app field]. destruct (names name k); [|apply IH]. destruct (f a v); cbn [bind]; auto.
Qed.

Lemma notes_is : forall l a n, each_over read_note a l = Ok n <->
  exists r, together l r /\ field (str "value") (read_int 0 255) (n_value a) r = Ok (n_value n) /\ field (str "name") read_string (n_name a) r = Ok (n_name n) /\
    field (str "alias") read_string (n_alias a) r = Ok (n_alias n).
Proof.
  induction l as [|v l IH]; intros a n; cbn [each_over].
  - split.
    + intros H. apply Ok_inj in H. subst. exists []. split; [constructor|]. auto.
    + intros (r & T & V & N & A). inversion T. subst r. cbn [field] in *. apply Ok_inj in V, N, A. destruct a, n; cbn in *; congruence.
  - split.
    + intros H. apply bind_ok in H as (b & B & H). unfold read_note in B. apply bind_ok in B as (o & O & B). apply bind_ok in B as (x & X & B).
      apply bind_ok in B as (y & Y & B). apply bind_ok in B as (z & Z & B). apply Ok_inj in B. subst b. apply IH in H as (r & T & V & N & A). cbn [n_value n_name n_alias] in *.
      exists (o ++ r). split; [constructor; [apply object_is, O|exact T]|]. rewrite !field_app, X, Y, Z. cbn [bind]. auto.
    + intros (r & T & V & N & A). inversion T as [|v' o l' r' O T' E1 E2]. subst. rewrite field_app in V, N, A.
      apply bind_ok in V as (x & X & V). apply bind_ok in N as (y & Y & N). apply bind_ok in A as (z & Z & A).
      unfold read_note. apply object_is in O. rewrite O. cbn [bind]. rewrite X, Y, Z. cbn [bind]. apply IH. exists r'. auto.
Qed.

Lemma note_is : forall o n, (exists x, field (str "note") read_note (Note 0 [] []) o = Ok x /\ n_value x = n) <-> note_field o n.
Proof.
  intros o n. unfold note_field. split.
  - intros (x & H & <-). destruct (under_some (str "note") o) as [l U]. rewrite (field_under _ _ _ _ _ _ U) in H. apply notes_is in H as (r & T & V & N & A).
    cbn [n_value n_name n_alias] in *. exists l, r, (n_name x), (n_alias x). split; [exact U|]. split; [exact T|]. split; [apply number_is, V|]. split; apply string_is; assumption.
  - intros (l & r & s & t & U & T & V & N & A). exists (Note n s t). split; [|reflexivity]. rewrite (field_under _ _ _ _ _ _ U). apply notes_is. exists r.
    split; [exact T|]. split; [apply number_is, V|]. split; apply string_is; assumption.
Qed.

Lemma controllers_is : forall l a n, each_over read_controller a l = Ok n <->
  exists r, together l r /\ field (str "id") (read_int 0 255) (c_id a) r = Ok (c_id n) /\ field (str "name") read_string (c_name a) r = Ok (c_name n).
Proof.
  induction l as [|v l IH]; intros a n; cbn [each_over].
  - split.
    + intros H. apply Ok_inj in H. subst. exists []. split; [constructor|]. auto.
    + intros (r & T & V & N). inversion T. subst r. cbn [field] in *. apply Ok_inj in V, N. destruct a, n; cbn in *; congruence.
  - split.
    + intros H. apply bind_ok in H as (b & B & H). unfold read_controller in B. apply bind_ok in B as (o & O & B). apply bind_ok in B as (x & X & B).
      apply bind_ok in B as (y & Y & B). apply Ok_inj in B. subst b. apply IH in H as (r & T & V & N). cbn [c_id c_name] in *.
      exists (o ++ r). split; [constructor; [apply object_is, O|exact T]|]. rewrite !field_app, X, Y. cbn [bind]. auto.
    + intros (r & T & V & N). inversion T as [|v' o l' r' O T' E1 E2]. subst. rewrite field_app in V, N.
      apply bind_ok in V as (x & X & V). apply bind_ok in N as (y & Y & N).
      unfold read_controller. apply object_is in O. rewrite O. cbn [bind]. rewrite X, Y. cbn [bind]. apply IH. exists r'. auto.
Qed.

Lemma controller_is : forall o c, field (str "controller") read_controller (MkController 0 []) o = Ok c <-> controller_field o c.
Proof.
  intros o c. unfold controller_field. split.
  - intros H. destruct (under_some (str "controller") o) as [l U]. rewrite (field_under _ _ _ _ _ _ U) in H. apply controllers_is in H as (r & T & V & N).
    exists l, r. split; [exact U|]. split; [exact T|]. split; [apply number_is, V|apply string_is, N].
  - intros (l & r & U & T & V & N). rewrite (field_under _ _ _ _ _ _ U). apply controllers_is. exists r.
    split; [exact T|]. split; [apply number_is, V|apply string_is, N].
Qed.

(** ** Events *)

Lemma tagged_is : forall A tag o (rest : Z -> outcome A) make e, tagged tag o rest make = Ok e <->
  string_field (str "tag") o tag /\ exists d x, number_field (str "delta") 0 4294967295 o d /\ rest d = Ok x /\ make x = Ok e.
Proof.
  intros A tag o rest make e. unfold tagged. split.
  - intros H. apply bind_ok in H as (t & T & H). apply bind_ok in H as (d & D & H). apply bind_ok in H as (x & X & H).
    destruct (bytes_eqb t tag) eqn:E; [|discriminate]. apply bytes_eqb_eq in E. subst t. split; [apply string_is, T|]. exists d, x. split; [apply number_is, D|auto].
  - intros (T & d & x & D & X & M). apply string_is in T. unfold text_of. rewrite T. cbn [bind]. apply number_is in D. unfold Json.uint32. rewrite D. cbn [bind]. rewrite X. cbn [bind].
    rewrite (proj2 (bytes_eqb_eq tag tag) eq_refl). exact M.
Qed.

Lemma note_named : forall env n s, note_name (middle_octave env) false n s <-> s = format_note env false n.
Proof.
  intros env n s. split; [intros H; apply (note_name_unique _ _ _ _ _ H), format_note_name|intros ->; apply format_note_name].
Qed.

Lemma key_made : forall d acc kt e, make_key_signature 0 d acc kt [] = Ok e <->
  exists minor : bool, kt = (if minor then 1 else 0) /\ key_range acc /\ e = Event 0 d [] 255 89 (KeySignature acc kt (key_name minor acc)).
Proof.
  intros d acc kt e. unfold make_key_signature. split.
  - intros H. destruct (Z.eqb_spec kt 0) as [->|K0].
    + destruct (major_scale acc) as [s|] eqn:M; [|discriminate]. apply Ok_inj in H. destruct (key_table acc s) as [T _]. destruct (T M) as [R N].
      exists false. split; [reflexivity|]. split; [exact R|]. rewrite <- N. symmetry. exact H.
    + destruct (Z.eqb_spec kt 1) as [->|K1]; [|discriminate]. destruct (minor_scale acc) as [s|] eqn:M; [|discriminate]. apply Ok_inj in H.
      destruct (key_table acc s) as [_ T]. destruct (T M) as [R N]. exists true. split; [reflexivity|]. split; [exact R|]. rewrite <- N. symmetry. exact H.
  - intros (minor & -> & R & ->). destruct (key_read acc R) as (_ & [s M] & [s' M']). destruct minor.
    + change (1 =? 0) with false. change (1 =? 1) with true. cbv iota. rewrite M'. destruct (key_table acc s') as [_ T]. destruct (T M') as [_ N]. rewrite N. reflexivity.
    + change (0 =? 0) with true. cbv iota. rewrite M. destruct (key_table acc s) as [T _]. destruct (T M) as [_ N]. rewrite N. reflexivity.
Qed.

Lemma channel_range : forall o c, channel_field o c -> 0 <= c < 16.
Proof. intros o c (l & _ & H). destruct H as [|l x v y _ [[-> ->] |[_ R]]]; lia. Qed.

Lemma number_range : forall name lo hi o n, lo <= 0 <= hi -> number_field name lo hi o n -> lo <= n <= hi.
Proof. intros name lo hi o n R (l & _ & H). induction H as [|l x H IH|l x v y H IH [_ S]]; auto. Qed.

Lemma header_is : forall d st ty b, legal_header (Event 0 d [] st ty b) -> (forall s, line_status b = Some s -> st = s) -> (st <> 255 -> ty = 0) ->
  line_header (Event 0 d [] st ty b).
Proof. intros d st ty b L S T. split; [reflexivity|]. split; [reflexivity|]. split; [exact L|]. split; [exact S|exact T]. Qed.

Ltac parts := repeat match goal with H : bind _ _ = Ok _ |- _ => apply bind_ok in H as (? & ? & H) end.
Ltac fields_found := repeat match goal with
  | H : Json.uint8 _ _ = Ok _ |- _ => apply number_is in H
  | H : Json.uint16 _ _ = Ok _ |- _ => apply number_is in H
  | H : Json.uint32 _ _ = Ok _ |- _ => apply number_is in H
  | H : field _ (read_int _ _) 0 _ = Ok _ |- _ => apply number_is in H
  | H : text_of _ _ = Ok _ |- _ => apply string_is in H
  | H : channel_of _ = Ok _ |- _ => apply channel_is in H
  | H : data_of _ = Ok _ |- _ => apply data_is in H
  | H : manufacturer_of _ _ = Ok _ |- _ => apply maker_is in H
  | H : field _ read_bool false _ = Ok _ |- _ => apply bool_is in H
  | H : field _ read_controller _ _ = Ok _ |- _ => apply controller_is in H
  end.
Ltac put := unfold Json.uint8, Json.uint16, Json.uint32, byte_field, word_field, text_of in *;
  repeat match goal with
  | H : number_field _ _ _ _ _ |- _ => apply number_is in H
  | H : string_field _ _ _ |- _ => apply string_is in H
  | H : bool_field _ _ _ |- _ => apply bool_is in H
  | H : channel_field _ _ |- _ => apply channel_is in H
  | H : data_field _ _ |- _ => apply data_is in H
  | H : maker_field _ _ _ |- _ => apply maker_is in H
  | H : controller_field _ _ |- _ => apply controller_is in H
  end;
  repeat match goal with H : ?x = Ok _ |- context [bind ?x _] => rewrite H; cbn [bind] end; try reflexivity.
Ltac pass := match goal with |- (if ?c then _ else _) = _ => replace c with false by (try match goal with H : In _ _ |- _ => cbn [In] in H end; lia) end.
Ltac checks := repeat match goal with H : (if ?c then _ else _) = Ok _ |- _ => let E := fresh "C" in destruct c eqn:E; [discriminate H|] end.
Ltac headed := apply header_is; [first [exact I|split; reflexivity|reflexivity]| |]; cbn [line_status].

Lemma case_inj : forall A B (a a' : A) (b b' : B), Some (a, b) = Some (a', b') -> a = a' /\ b = b'.
Proof. intros A B a a' b b' H. injection H as -> ->. auto. Qed.

Lemma json_says_one : forall env i t f o e, nth_error (json_cases env) i = Some (t, f) -> f o = Ok e ->
  t = kind_name (e_body e) /\ string_field (str "tag") o t /\ number_field (str "delta") 0 4294967295 o (e_delta e) /\
  values (env_manufacturers env) (middle_octave env) o (e_body e) /\ line_header e.
Proof.
  intros env i t f o e N H.
  assert (TX : forall k, json_text k o = Ok e -> text_tag k = kind_name (e_body e) /\ string_field (str "tag") o (text_tag k) /\
    number_field (str "delta") 0 4294967295 o (e_delta e) /\ values (env_manufacturers env) (middle_octave env) o (e_body e) /\ line_header e).
  { intros k K. unfold json_text in K. apply tagged_is in K as (T & d & x & D & X & M). parts. apply Ok_inj in X. subst x. apply Ok_inj in M. subst e. fields_found.
    unfold make_text. cbn [e_body e_delta]. split; [destruct k; reflexivity|]. split; [exact T|]. split; [exact D|]. split; [apply va_text; destruct k; assumption|].
    apply header_is; [destruct k; split; reflexivity|discriminate|congruence]. }
  destruct i as [|[|[|[|[|[|[|[|[|[|[|[|[|[|[|[|[|[|[|[|[|[|[|[|[|[|[|[|i]]]]]]]]]]]]]]]]]]]]]]]]]]]]; [apply case_inj in N as [<- <-]..|destruct i; discriminate N];
    try (destruct (TX _ H) as (A & B); split; [exact A|exact B]; fail); clear TX.
  all: match type of H with ?f _ = _ => unfold f in H | ?f _ _ = _ => unfold f in H end.
  all: apply tagged_is in H as (T & d & x & D & X & M); parts.
  all: apply Ok_inj in X; subst x.
  - apply Ok_inj in M. subst e. fields_found; split; [reflexivity|]; split; [exact T|]; split; [exact D|]; split; [apply va_seqno; assumption|]. headed; [discriminate|congruence].
  - unfold make_channel_prefix in M. checks. apply Ok_inj in M. subst e. fields_found; split; [reflexivity|]; split; [exact T|]; split; [exact D|]; split; [apply va_prefix; [assumption|lia]|]. headed; [discriminate|congruence].
  - unfold make_port in M. checks. apply Ok_inj in M. subst e. fields_found; split; [reflexivity|]; split; [exact T|]; split; [exact D|]; split; [apply va_port; [assumption|lia]|]. headed; [discriminate|congruence].
  - apply Ok_inj in M. subst e. fields_found; split; [reflexivity|]; split; [exact T|]; split; [exact D|]; split; [apply va_tempo; assumption|]. headed; [discriminate|congruence].
  - unfold make_time_signature in M. apply bind_ok in M as (g & G & M). apply Ok_inj in M. subst e. fields_found.
    match goal with F : number_field (str "denominator") _ _ _ ?q |- _ => pose proof (number_range _ 0 255 _ _ ltac:(lia) F) as DR; pose proof (proj1 (log2_limit q ltac:(lia)) (ex_intro _ g G)) end.
    split; [reflexivity|]. split; [exact T|]. split; [exact D|]. split; [apply va_time; assumption|]. headed; [discriminate|congruence].
  - apply key_made in M as (minor & -> & KR & ->). fields_found; split; [reflexivity|]; split; [exact T|]; split; [exact D|]; split; [apply va_key; assumption|]. headed; [discriminate|congruence].
  - unfold make_smpte_offset in M. checks. apply Ok_inj in M. subst e. fields_found; split; [reflexivity|]; split; [exact T|]; split; [exact D|]; split; [apply va_smpte; try assumption; cbn [In]; lia|]. headed; [discriminate|congruence].
  - apply Ok_inj in M. subst e. fields_found; split; [reflexivity|]; split; [exact T|]; split; [exact D|]; split; [apply va_end|]. headed; [discriminate|congruence].
  - apply Ok_inj in M. subst e. fields_found; split; [reflexivity|]; split; [exact T|]; split; [exact D|]; split; [apply va_seqspec; assumption|]. headed; [discriminate|congruence].
  - checks. apply Ok_inj in M. subst e. fields_found; split; [reflexivity|]; split; [exact T|]; split; [exact D|]; split; [destruct (note_is o (n_value x1)) as [NI _]; apply va_off; [assumption|apply NI; exists x1; auto|assumption|apply note_named; reflexivity]|].
    match goal with H : channel_field _ ?c |- _ => pose proof (channel_range _ _ H) as CR end. destruct (status_is _ CR) as (S0 & S1 & S2 & S3 & S4 & S5 & S6).
    headed; [intros st E; injection E as <-; exact S0|reflexivity].
  - unfold make_note_on in M. checks. apply Ok_inj in M. subst e. fields_found; split; [reflexivity|]; split; [exact T|]; split; [exact D|]; split; [destruct (note_is o (n_value x1)) as [NI _]; apply va_on; [assumption|apply NI; exists x1; auto|assumption|lia|apply note_named; reflexivity]|].
    match goal with H : channel_field _ ?c |- _ => pose proof (channel_range _ _ H) as CR end. destruct (status_is _ CR) as (S0 & S1 & S2 & S3 & S4 & S5 & S6).
    headed; [intros st E; injection E as <-; exact S1|reflexivity].
  - unfold make_polyphonic_pressure in M. checks. apply Ok_inj in M. subst e. fields_found; split; [reflexivity|]; split; [exact T|]; split; [exact D|]; split; [apply va_poly; [assumption|assumption|lia]|].
    match goal with H : channel_field _ ?c |- _ => pose proof (channel_range _ _ H) as CR end. destruct (status_is _ CR) as (S0 & S1 & S2 & S3 & S4 & S5 & S6).
    headed; [intros st E; injection E as <-; exact S2|reflexivity].
  - unfold make_controller in M. checks. apply Ok_inj in M. subst e. fields_found; split; [reflexivity|]; split; [exact T|]; split; [exact D|]; split; [apply va_control; assumption|].
    match goal with H : channel_field _ ?c |- _ => pose proof (channel_range _ _ H) as CR end. destruct (status_is _ CR) as (S0 & S1 & S2 & S3 & S4 & S5 & S6).
    headed; [intros st E; injection E as <-; exact S3|reflexivity].
  - unfold make_program_change in M. checks. apply Ok_inj in M. subst e. fields_found; split; [reflexivity|]; split; [exact T|]; split; [exact D|]; split; [apply va_program; assumption|].
    match goal with H : channel_field _ ?c |- _ => pose proof (channel_range _ _ H) as CR end. destruct (status_is _ CR) as (S0 & S1 & S2 & S3 & S4 & S5 & S6).
    headed; [intros st E; injection E as <-; exact S4|reflexivity].
  - unfold make_channel_pressure in M. checks. apply Ok_inj in M. subst e. fields_found; split; [reflexivity|]; split; [exact T|]; split; [exact D|]; split; [apply va_pressure; [assumption|assumption|lia]|].
    match goal with H : channel_field _ ?c |- _ => pose proof (channel_range _ _ H) as CR end. destruct (status_is _ CR) as (S0 & S1 & S2 & S3 & S4 & S5 & S6).
    headed; [intros st E; injection E as <-; exact S5|reflexivity].
  - unfold make_pitch_bend in M. checks. apply Ok_inj in M. subst e. fields_found; split; [reflexivity|]; split; [exact T|]; split; [exact D|]; split; [apply va_bend; assumption|].
    match goal with H : channel_field _ ?c |- _ => pose proof (channel_range _ _ H) as CR end. destruct (status_is _ CR) as (S0 & S1 & S2 & S3 & S4 & S5 & S6).
    headed; [intros st E; injection E as <-; exact S6|reflexivity].
  - apply Ok_inj in M. subst e. fields_found; split; [reflexivity|]; split; [exact T|]; split; [exact D|]; split; [apply va_sysex; assumption|]. headed; [discriminate|reflexivity].
  - apply Ok_inj in M. subst e. fields_found; split; [reflexivity|]; split; [exact T|]; split; [exact D|]; split; [eapply va_cont; eassumption|]. headed; [discriminate|reflexivity].
  - apply Ok_inj in M. subst e. fields_found; split; [reflexivity|]; split; [exact T|]; split; [exact D|]; split; [apply va_escape; assumption|]. headed; [discriminate|reflexivity].
Qed.

Lemma find_case : forall env i t f, nth_error (json_cases env) i = Some (t, f) -> find (fun c => bytes_eqb t (fst c)) (json_cases env) = Some (t, f).
Proof.
  intros env i t f N. destruct i as [|[|[|[|[|[|[|[|[|[|[|[|[|[|[|[|[|[|[|[|[|[|[|[|[|[|[|[|i]]]]]]]]]]]]]]]]]]]]]]]]]]]]; [apply case_inj in N as [<- <-]; reflexivity..|destruct i; discriminate N].
Qed.

Lemma find_nth : forall env t c, find (fun c => bytes_eqb t (fst c)) (json_cases env) = Some c -> exists i f, nth_error (json_cases env) i = Some (t, f) /\ c = (t, f).
Proof.
  intros env t [t' f] H. pose proof (find_some _ _ H) as [I E]. cbn [fst] in E. apply bytes_eqb_eq in E. subst t'. apply In_nth_error in I as [i I]. exists i, f. auto.
Qed.

Lemma says_case : forall env f e, string_field (str "tag") f (kind_name (e_body e)) -> number_field (str "delta") 0 4294967295 f (e_delta e) ->
  values (env_manufacturers env) (middle_octave env) f (e_body e) -> line_header e ->
  exists i g, nth_error (json_cases env) i = Some (kind_name (e_body e), g) /\ g f = Ok e.
Proof.
  intros env o [tick d raw st ty b] T D V LH. cbn [e_body e_delta] in *. pose proof LH as (T0 & B0 & HL & HS & HY). cbn in T0, B0. subst tick raw.
  unfold legal_header in HL. destruct V; cbn [e_body e_status e_type line_status] in HL, HS, HY.
  1: { destruct HL as [-> ->]. exists 0%nat. eexists. split; [reflexivity|]. apply tagged_is. split; [exact T|]. exists d, (d, n). split; [exact D|]. split; [put|reflexivity]. }
  1: { destruct HL as [-> ->].
       assert (K : json_text k o = Ok (Event 0 d [] 255 (smf_text_type k) (TextEvent k s))).
       { apply tagged_is. split; [destruct k; exact T|]. exists d, (d, s). split; [exact D|]. split; [replace (text_key k) with (text_name k) by (destruct k; reflexivity); put|destruct k; reflexivity]. }
       exists (match k with KText => 1 | KCopyright => 2 | KTrackName => 3 | KInstrumentName => 4 | KLyric => 5 | KMarker => 6 | KCuePoint => 7 | KProgramName => 8 | KDeviceName => 9 end)%nat.
       exists (json_text k). split; [destruct k; reflexivity|exact K]. }
  1: { destruct HL as [-> ->]. exists 10%nat. eexists. split; [reflexivity|]. apply tagged_is. split; [exact T|]. exists d, (d, c). split; [exact D|]. split; [put|unfold make_channel_prefix; repeat pass; reflexivity]. }
  1: { destruct HL as [-> ->]. exists 11%nat. eexists. split; [reflexivity|]. apply tagged_is. split; [exact T|]. exists d, (d, p). split; [exact D|]. split; [put|unfold make_port; repeat pass; reflexivity]. }
  1: { destruct HL as [-> ->]. exists 16%nat. eexists. split; [reflexivity|]. apply tagged_is. split; [exact T|]. exists d, d. split; [exact D|]. split; reflexivity. }
  1: { destruct HL as [-> ->]. exists 12%nat. eexists. split; [reflexivity|]. apply tagged_is. split; [exact T|]. exists d, (d, t). split; [exact D|]. split; [put|reflexivity]. }
  1: { destruct HL as [-> ->]. exists 15%nat. eexists. split; [reflexivity|]. apply tagged_is. split; [exact T|]. exists d, (d, h, m, s, r, f, ff). split; [exact D|]. split; [put|unfold make_smpte_offset; repeat pass; reflexivity]. }
  1: { destruct HL as [-> ->]. pose proof (number_range _ 0 255 _ _ ltac:(lia) H0) as DR. destruct (proj2 (log2_limit d0 ltac:(lia)) ltac:(assumption)) as [g G].
       exists 13%nat. eexists. split; [reflexivity|]. apply tagged_is. split; [exact T|]. exists d, (d, n, d0, t, q). split; [exact D|]. split; [put|]. unfold make_time_signature. rewrite G. reflexivity. }
  1: { destruct HL as [-> ->]. exists 14%nat. eexists. split; [reflexivity|]. apply tagged_is. split; [exact T|]. exists d, (d, a, if minor then 1 else 0). split; [exact D|]. split; [put|].
       apply key_made. exists minor. auto. }
  1: { destruct HL as [-> ->]. exists 17%nat. eexists. split; [reflexivity|]. apply tagged_is. split; [exact T|]. exists d, (d, m, d0). split; [exact D|]. split; [put|reflexivity]. }
  1: { match goal with H : note_field _ _ |- _ => apply note_is in H as (nx & NX & <-) end. match goal with H : note_name _ _ _ _ |- _ => apply note_named in H; subst s end. match goal with H : channel_field _ ?c |- _ => pose proof (channel_range _ _ H) as CR end. destruct (status_is _ CR) as (S0 & S1 & S2 & S3 & S4 & S5 & S6).
       pose proof (HS _ eq_refl) as ->. rewrite (HY ltac:(lia)). exists 18%nat. eexists. split; [reflexivity|]. apply tagged_is. split; [exact T|]. exists d, (d, c, nx, v). split; [exact D|].
       split; [put|rewrite S0; reflexivity]. }
  1: { match goal with H : note_field _ _ |- _ => apply note_is in H as (nx & NX & <-) end. match goal with H : note_name _ _ _ _ |- _ => apply note_named in H; subst s end. match goal with H : channel_field _ ?c |- _ => pose proof (channel_range _ _ H) as CR end. destruct (status_is _ CR) as (S0 & S1 & S2 & S3 & S4 & S5 & S6).
       pose proof (HS _ eq_refl) as ->. rewrite (HY ltac:(lia)). exists 19%nat. eexists. split; [reflexivity|]. apply tagged_is. split; [exact T|]. exists d, (d, c, nx, v). split; [exact D|].
       split; [put|unfold make_note_on; repeat pass; rewrite S1; reflexivity]. }
  1: { match goal with H : channel_field _ ?c |- _ => pose proof (channel_range _ _ H) as CR end. destruct (status_is _ CR) as (S0 & S1 & S2 & S3 & S4 & S5 & S6).
       pose proof (HS _ eq_refl) as ->. rewrite (HY ltac:(lia)). exists 20%nat. eexists. split; [reflexivity|]. apply tagged_is. split; [exact T|]. exists d, (d, c, p). split; [exact D|].
       split; [put|unfold make_polyphonic_pressure; repeat pass; rewrite S2; reflexivity]. }
  1: { match goal with H : channel_field _ ?c |- _ => pose proof (channel_range _ _ H) as CR end. destruct (status_is _ CR) as (S0 & S1 & S2 & S3 & S4 & S5 & S6).
       pose proof (HS _ eq_refl) as ->. rewrite (HY ltac:(lia)). exists 21%nat. eexists. split; [reflexivity|]. apply tagged_is. split; [exact T|]. exists d, (d, c, k, v). split; [exact D|].
       split; [put|unfold make_controller; repeat pass; rewrite S3; reflexivity]. }
  1: { match goal with H : channel_field _ ?c |- _ => pose proof (channel_range _ _ H) as CR end. destruct (status_is _ CR) as (S0 & S1 & S2 & S3 & S4 & S5 & S6).
       pose proof (HS _ eq_refl) as ->. rewrite (HY ltac:(lia)). exists 22%nat. eexists. split; [reflexivity|]. apply tagged_is. split; [exact T|]. exists d, (d, c, b, p). split; [exact D|].
       split; [put|unfold make_program_change; repeat pass; rewrite S4; reflexivity]. }
  1: { match goal with H : channel_field _ ?c |- _ => pose proof (channel_range _ _ H) as CR end. destruct (status_is _ CR) as (S0 & S1 & S2 & S3 & S4 & S5 & S6).
       pose proof (HS _ eq_refl) as ->. rewrite (HY ltac:(lia)). exists 23%nat. eexists. split; [reflexivity|]. apply tagged_is. split; [exact T|]. exists d, (d, c, p). split; [exact D|].
       split; [put|unfold make_channel_pressure; repeat pass; rewrite S5; reflexivity]. }
  1: { match goal with H : channel_field _ ?c |- _ => pose proof (channel_range _ _ H) as CR end. destruct (status_is _ CR) as (S0 & S1 & S2 & S3 & S4 & S5 & S6).
       pose proof (HS _ eq_refl) as ->. rewrite (HY ltac:(lia)). exists 24%nat. eexists. split; [reflexivity|]. apply tagged_is. split; [exact T|]. exists d, (d, c, b). split; [exact D|].
       split; [put|unfold make_pitch_bend; repeat pass; rewrite S6; reflexivity]. }
  1: { subst st. rewrite (HY ltac:(lia)). exists 25%nat. eexists. split; [reflexivity|]. apply tagged_is. split; [exact T|]. exists d, (d, m, d0, s). split; [exact D|]. split; [put|reflexivity]. }
  1: { subst st. rewrite (HY ltac:(lia)). exists 26%nat. eexists. split; [reflexivity|]. apply tagged_is. split; [exact T|]. exists d, (d, d0). split; [exact D|]. split; [put|reflexivity]. }
  1: { subst st. rewrite (HY ltac:(lia)). exists 27%nat. eexists. split; [reflexivity|]. apply tagged_is. split; [exact T|]. exists d, (d, d0). split; [exact D|]. split; [put|reflexivity]. }
Qed.

Theorem json_reads : forall env v e, unmarshal_json env v = Ok e <-> json_says (env_manufacturers env) (middle_octave env) v e.
Proof.
  intros env v e. unfold unmarshal_json, json_says. split.
  - intros H. apply bind_ok in H as (o & O & H). apply bind_ok in H as (raw & R & H). destruct raw as [w|]; [|discriminate].
    destruct (under_some (str "event") o) as [l U]. rewrite (field_under _ _ _ _ _ _ U) in R.
    destruct l as [|w' l _] using rev_ind; [discriminate R|]. rewrite each_over_app in R. apply bind_ok in R as (x & _ & R). cbn [each_over bind] in R. apply Ok_inj in R. injection R as ->.
    apply bind_ok in H as (f & F & H). apply bind_ok in H as (t & T & H).
    destruct (find _ _) as [[t' g]|] eqn:E in H; [|discriminate]. apply find_nth in E as (i & g' & I & E). injection E as -> ->.
    destruct (json_says_one _ _ _ _ _ _ I H) as (-> & T' & D & V & LH).
    exists o, l, w, f. split; [apply object_is, O|]. split; [exact U|]. split; [apply object_is, F|]. auto.
  - intros (o & l & w & f & O & U & F & T & D & V & LH). apply object_is in O. rewrite O. cbn [bind]. rewrite (field_under _ _ _ _ _ _ U).
    assert (L : forall l a, exists x, each_over (fun (_ : option json) v => Ok (Some v)) a l = Ok x) by (clear; induction l as [|v l IH]; intros a; [eexists; reflexivity|apply IH]).
    destruct (L l None) as [x X]. rewrite each_over_app, X. cbn [bind each_over]. apply object_is in F. rewrite F. cbn [bind].
    destruct (says_case env f e T D V LH) as (i & g & I & G). apply string_is in T. unfold text_of. rewrite T. cbn [bind]. rewrite (find_case _ _ _ _ I). exact G.
Qed.

Lemma json_ranges : forall env v e, unmarshal_json env v = Ok e -> 0 <= e_delta e < 4294967296 /\ json_range (e_body e).
Proof.
  intros env v e H. apply json_reads in H as (o & l & w & f & _ & _ & _ & _ & D & V & _). split; [pose proof (number_range _ 0 4294967295 _ _ ltac:(lia) D); lia|].
  destruct V; cbn [json_range n_value];
    repeat match goal with
    | H : byte_field _ _ _ |- _ => apply (number_range _ 0 255 _ _ ltac:(lia)) in H
    | H : word_field _ _ _ |- _ => apply (number_range _ 0 65535 _ _ ltac:(lia)) in H
    | H : number_field _ _ _ _ _ |- _ => apply number_range in H; [|lia]
    | H : channel_field _ _ |- _ => apply channel_range in H
    | H : data_field _ _ |- _ => destruct H as (? & _ & H); apply octets_bytes in H
    | H : controller_field _ _ |- _ => destruct H as (? & ? & _ & _ & H & _)
    | H : note_field _ _ |- _ => destruct H as (? & ? & ? & ? & _ & _ & H & _)
    | H : In _ [_; _; _; _] |- _ => cbn [In] in H
    end; try exact I; try assumption; unfold key_range in *; repeat split; try lia; destruct minor; lia.
Qed.
