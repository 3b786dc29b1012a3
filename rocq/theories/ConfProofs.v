(** * ConfProofs: what loading a configuration file does (C72). *)
From Verif Require Import Base Strings Tables Event Manufacturer Json JsonText SpecEvent SpecJsonText ParseProofs EventProofs JsonProofs JsonTextProofs JsonExportProofs Conf SpecConf.

Lemma skip_white : forall w, white w -> skip w = [].
Proof.
  intros w H. induction H as [|c w Hc _ IH]; [reflexivity|]. cbn [skip].
  replace (space c) with true; [exact IH|]. unfold space. destruct Hc as [-> | [-> | [-> | ->]]]; reflexivity.
Qed.

(** ** Any text *)

(** What is displayed for a key. *)
Definition shown (t : list (bytes * manufacturer)) (k : bytes) : bytes * bytes :=
  match assocb k t with Some m => (m_region m, m_name m) | None => (str "<unknown>", str "<unknown>") end.

Definition own_key (m : manufacturer) : bytes :=
  match m_id m with [a] => hex2 a | [_; b; c] => hex2 b ++ hex2 c | _ => [] end.

Lemma builtin_entries : forall k m, In (k, m) manufacturers ->
  (k = own_key m \/ own_key m = str "7E") /\ trim (m_region m) = m_region m /\ trim (m_name m) = m_name m /\ m_name m <> [] /\
  (length (m_id m) = 1 \/ length (m_id m) = 3)%nat.
Proof.
  intros k m H.
  assert (T : forallb (fun km => (bytes_eqb (fst km) (own_key (snd km)) || bytes_eqb (own_key (snd km)) (str "7E")) &&
    bytes_eqb (trim (m_region (snd km))) (m_region (snd km)) && bytes_eqb (trim (m_name (snd km))) (m_name (snd km)) &&
    negb (bytes_eqb (m_name (snd km)) []) && (Nat.eqb (length (m_id (snd km))) 1 || Nat.eqb (length (m_id (snd km))) 3)) manufacturers = true) by (vm_compute; reflexivity).
  rewrite forallb_forall in T. specialize (T _ H). cbn [fst snd] in T.
  repeat (apply andb_true_iff in T as [T ?]). repeat split.
  - apply orb_true_iff in T as [T|T]; apply bytes_eqb_eq in T; auto.
  - apply bytes_eqb_eq; assumption.
  - apply bytes_eqb_eq; assumption.
  - intro E. rewrite E in *. discriminate.
  - apply orb_true_iff in H0 as [E|E]; apply Nat.eqb_eq in E; auto.
Qed.

Lemma assocb_app : forall A k (s t : list (bytes * A)), assocb k (s ++ t) = match assocb k s with Some m => Some m | None => assocb k t end.
Proof. intros A k s t. induction s as [|[k' m'] s IH]; cbn [assocb app]; [reflexivity|]. destruct (bytes_eqb k k'); auto. Qed.

(** The entry made for an element. *)
Lemma made_entry : forall c4 id k M, let m := lookup_manufacturer (Env c4 manufacturers) id in
  make_manufacturer (m_id m) (m_region m) (m_name m) = Ok (k, M) -> k = str "7E" \/ (m_region M, m_name M) = shown manufacturers k.
Proof.
  intros c4 id k M m H. subst m.
  assert (K : forall k0 m, assocb k0 manufacturers = Some m -> make_manufacturer (m_id m) (m_region m) (m_name m) = Ok (k, M) ->
    k = str "7E" \/ (m_region M, m_name M) = shown manufacturers k).
  { intros k0 m E Hm. destruct (builtin_entries _ _ (assocb_in _ _ _ _ E)) as (Hk & R & N & Z & L). unfold make_manufacturer in Hm. rewrite R, N in Hm.
    assert (Hm' : Ok (own_key m, Manufacturer (m_id m) (m_region m) (m_name m)) = Ok (k, M)).
    { rewrite <- Hm. unfold own_key. destruct (m_id m) as [|a [|b [|c [|]]]]; cbn [length] in L; try lia; destruct (m_name m); congruence. }
    apply Ok_inj in Hm'. apply pair_equal_spec in Hm' as [<- <-]. cbn [m_region m_name].
    destruct Hk as [Hk|Hk]; [|left; exact Hk]. right. unfold shown. rewrite <- Hk, E. reflexivity. }
  unfold lookup_manufacturer in H. cbn [env_manufacturers] in H.
  destruct id as [|a [|b [|c [|]]]]; try discriminate H.
  - destruct (assocb (hex2 a) manufacturers) as [m|] eqn:E; [exact (K _ _ E H)|]. right. cbn [m_id m_region m_name make_manufacturer] in H.
    change (trim (str "<unknown>")) with (str "<unknown>") in H. cbv iota in H.
    apply Ok_inj in H. apply pair_equal_spec in H as [<- <-]. unfold shown. rewrite E. reflexivity.
  - destruct (assocb (hex2 b ++ hex2 c) manufacturers) as [m|] eqn:E; [exact (K _ _ E H)|]. right. cbn [m_id m_region m_name make_manufacturer] in H.
    change (trim (str "<unknown>")) with (str "<unknown>") in H. cbv iota in H.
    apply Ok_inj in H. apply pair_equal_spec in H as [<- <-]. unfold shown. rewrite E. reflexivity.
Qed.

Lemma load_entries : forall c4 ms l, Forall (fun m => exists id, m = lookup_manufacturer (Env c4 manufacturers) id) ms ->
  load_manufacturers (map (fun m => (m_id m, m_region m, m_name m)) ms) = Ok l ->
  forall k M, In (k, M) l -> k = str "7E" \/ (m_region M, m_name M) = shown manufacturers k.
Proof.
  intros c4 ms. induction ms as [|m ms IH]; intros l F H k M I; cbn [map load_manufacturers] in H.
  - apply Ok_inj in H. subst l. contradiction.
  - inversion F as [|? ? [id Hm] F']; subst.
    match type of H with bind ?x _ = _ => destruct x as [[k0 M0]| | | |] eqn:E; try discriminate H end. cbn [bind] in H.
    match type of H with bind ?x _ = _ => destruct x as [l'| | | |] eqn:E'; try discriminate H end. cbn [bind] in H.
    apply Ok_inj in H. subst l. apply in_app_or in I as [I|[I|[]]]; [exact (IH _ F' eq_refl _ _ I)|].
    injection I as -> ->. exact (made_entry c4 id k M E).
Qed.

Lemma each_looked_up : forall env l ms, each (read_manufacturer env (Manufacturer [] [] [])) l = Ok ms ->
  Forall (fun m => exists id, m = lookup_manufacturer env id) ms.
Proof.
  intros env l. induction l as [|v l IH]; intros ms H; cbn [each] in H; [apply Ok_inj in H; subst; constructor|].
  destruct (read_manufacturer env (Manufacturer [] [] []) v) as [m| | | |] eqn:E; try discriminate H. cbn [bind] in H.
  destruct (each (read_manufacturer env (Manufacturer [] [] [])) l) as [r| | | |] eqn:E'; try discriminate H. cbn [bind] in H.
  apply Ok_inj in H. subst ms. constructor; [|apply IH; reflexivity]. unfold read_manufacturer in E.
  destruct (object v) as [o| | | |]; try discriminate E. cbn [bind] in E.
  match type of E with bind ?x _ = _ => destruct x as [id| | | |]; try discriminate E end. cbn [bind] in E.
  apply Ok_inj in E. eexists. symmetry. exact E.
Qed.

Lemma field_last : forall A (P : A -> Prop) name (f : json -> outcome A), (forall v x, f v = Ok x -> P x) ->
  forall o a x, P a -> field name (fun _ v => f v) a o = Ok x -> P x.
Proof.
  intros A P name f Hf o. induction o as [|[k v] o IH]; intros a x Ha H; cbn [field] in H; [apply Ok_inj in H; subst; exact Ha|].
  destruct (names name k); [|exact (IH _ _ Ha H)].
  destruct (f v) as [y| | | |] eqn:E; try discriminate H. cbn [bind] in H. exact (IH _ _ (Hf _ _ E) H).
Qed.

Lemma hex2_7E : forall a, is_byte a -> hex2 a = str "7E" -> a = 126.
Proof.
  intros a H E.
  assert (T : forallb (fun a => negb (bytes_eqb (hex2 a) (str "7E")) || (a =? 126)) all_bytes = true) by (vm_compute; reflexivity).
  rewrite forallb_forall in T. specialize (T a (all_bytes_in a H)). rewrite E in T. cbn in T. lia.
Qed.

Theorem names_stay : forall c4 s l, load_text (Env c4 manufacturers) s = Ok l -> forall id, is_bytes id -> id <> [126] ->
  let before := lookup_manufacturer (Env c4 manufacturers) id in let after := lookup_manufacturer (add_manufacturers (Env c4 manufacturers) l) id in
  m_region after = m_region before /\ m_name after = m_name before.
Proof.
  intros c4 s l H id B N before after. unfold load_text in H.
  destruct (unmarshal_value s) as [v| | | |]; try discriminate H. cbn [bind] in H.
  destruct (object v) as [o| | | |]; try discriminate H. cbn [bind] in H.
  match type of H with bind ?x _ = _ => destruct x as [ms| | | |] eqn:E; try discriminate H end. cbn [bind] in H.
  assert (F : Forall (fun m => exists id, m = lookup_manufacturer (Env c4 manufacturers) id) ms).
  { refine (field_last _ (fun ms => Forall (fun m => exists id, m = lookup_manufacturer (Env c4 manufacturers) id) ms) _ _ _ o [] ms (Forall_nil _) E).
    intros v' ms' H'. cbn beta in H'. destruct (elements v') as [l'| | | |]; try discriminate H'. exact (each_looked_up _ _ _ H'). }
  pose proof (load_entries c4 ms l F H) as K.
  assert (G : forall k u, k <> str "7E" -> m_region u = str "<unknown>" -> m_name u = str "<unknown>" ->
    m_region (match assocb k (l ++ manufacturers) with Some m => m | None => u end) = m_region (match assocb k manufacturers with Some m => m | None => u end) /\
    m_name (match assocb k (l ++ manufacturers) with Some m => m | None => u end) = m_name (match assocb k manufacturers with Some m => m | None => u end)).
  { intros k u Hk U1 U2. rewrite assocb_app. destruct (assocb k l) as [M|] eqn:EM; [|split; reflexivity].
    destruct (K _ _ (assocb_in _ _ _ _ EM)) as [C|C]; [contradiction|]. unfold shown in C.
    destruct (assocb k manufacturers) as [m|]; apply pair_equal_spec in C as [C1 C2]; rewrite ?U1, ?U2; split; assumption. }
  subst before after. unfold lookup_manufacturer, add_manufacturers. cbn [env_manufacturers].
  destruct id as [|a [|b [|c [|]]]]; try (split; reflexivity).
  - apply G; try reflexivity. intro C. apply N. f_equal. apply hex2_7E; [inversion B; assumption|exact C].
  - apply G; try reflexivity. intro C. apply (f_equal (@length Z)) in C. rewrite app_length in C. cbn in C. lia.
Qed.

(** ** Files of the documented form *)

Lemma lookup_shape : forall c4 id, (length id = 1 \/ length id = 3)%nat -> let m := lookup_manufacturer (Env c4 manufacturers) id in
  trim (m_name m) = m_name m /\ m_name m <> [] /\ (length (m_id m) = 1 \/ length (m_id m) = 3)%nat.
Proof.
  intros c4 id L m. subst m. unfold lookup_manufacturer. cbn [env_manufacturers].
  destruct id as [|a [|b [|c [|]]]]; cbn [length] in L; try lia.
  - destruct (assocb (hex2 a) manufacturers) as [m|] eqn:E; [|repeat split; [discriminate|auto]].
    destruct (builtin_entries _ _ (assocb_in _ _ _ _ E)) as (_ & _ & T & Z & H). auto.
  - destruct (assocb (hex2 b ++ hex2 c) manufacturers) as [m|] eqn:E; [|repeat split; [discriminate|auto]].
    destruct (builtin_entries _ _ (assocb_in _ _ _ _ E)) as (_ & _ & T & Z & H). auto.
Qed.

Lemma load_ok : forall c4 ms, Forall (fun m => (length (fst (fst m)) = 1 \/ length (fst (fst m)) = 3)%nat /\ is_bytes (fst (fst m))) ms ->
  exists l, load_manufacturers (map (fun m => (m_id m, m_region m, m_name m)) (map (fun m : bytes * bytes * bytes => lookup_manufacturer (Env c4 manufacturers) (fst (fst m))) ms)) = Ok l.
Proof.
  intros c4 ms F. induction F as [|m ms [L B] _ [l IH]]; [eexists; reflexivity|]. cbn [map load_manufacturers]. rewrite IH.
  destruct (lookup_shape c4 _ L) as (T & N & S). remember (lookup_manufacturer (Env c4 manufacturers) (fst (fst m))) as x eqn:X. clear X.
  unfold make_manufacturer. rewrite T.
  destruct (m_id x) as [|a [|b [|c [|]]]]; cbn [length] in S; try lia; destruct (m_name x); try congruence; eexists; reflexivity.
Qed.

Lemma mod_bytes : forall id, is_bytes id -> map (fun n => n mod 256) id = id.
Proof. intros id B. induction B as [|a id H _ IH]; [reflexivity|]. cbn [map]. rewrite IH. unfold is_byte in H. f_equal. lia. Qed.

Lemma listed_read : forall env a m, is_bytes (fst (fst m)) -> read_manufacturer env a (listed m) = Ok (lookup_manufacturer env (fst (fst m))).
Proof.
  intros env a [[id region] name] B. cbn [fst snd] in *. unfold read_manufacturer, listed. cbn [object bind fst snd]. keys. cbn [elements bind].
  rewrite each_ints by (eapply Forall_impl; [|exact B]; unfold is_byte, max_uint; intros; lia). cbn [bind]. keys.
  rewrite mod_bytes by exact B. reflexivity.
Qed.

Lemma depth_ints : forall id, depth (JArr (map JNum id)) = 1.
Proof. intro id. cbn [depth]. induction id as [|a id IH]; [reflexivity|]. cbn [map fold_right depth] in *. lia. Qed.

Lemma depth_listed : forall m, depth (listed m) = 2.
Proof. intros [[id region] name]. unfold listed. cbn [depth fold_right snd fst]. pose proof (depth_ints id) as D. cbn [depth] in D. lia. Qed.

Theorem configuration_loads : forall c4 ms s, configuration ms s ->
  Forall (fun m => (length (fst (fst m)) = 1 \/ length (fst (fst m)) = 3)%nat /\ is_bytes (fst (fst m))) ms ->
  exists l, load_text (Env c4 manufacturers) s = Ok l.
Proof.
  intros c4 ms s (w1 & t & w2 & -> & W1 & W2 & J) F. destruct (load_ok c4 ms F) as [l L].
  exists l. unfold load_text, unmarshal_value. rewrite (any_text_read _ _ _ _ J W1); [|..|exact I].
  - cbn [bind]. rewrite skip_white by exact W2. cbn [bind object]. keys. cbn [elements bind].
    replace (each (read_manufacturer (Env c4 manufacturers) (Manufacturer [] [] [])) (map listed ms)) with
      (Ok (map (fun m : bytes * bytes * bytes => lookup_manufacturer (Env c4 manufacturers) (fst (fst m))) ms)).
    + cbn [bind]. keys. exact L.
    + symmetry. clear - F. induction F as [|m ms [_ B] _ IH]; [reflexivity|]. cbn [map each]. rewrite listed_read by exact B. cbn [bind]. rewrite IH. reflexivity.
  - cbn [depth fold_right snd]. assert (D : fold_right (fun v m => Z.max (depth v) m) 0 (map listed ms) <= 2).
    { clear. induction ms as [|m ms IH]; cbn [map fold_right]; [lia|]. rewrite depth_listed. lia. }
    lia.
Qed.
