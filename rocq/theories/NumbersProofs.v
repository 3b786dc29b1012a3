(** * Proofs for C121. *)
From Verif Require Import Base Strings Tables Event Track File SpecEvent EventProofs SpecDecoded DecodedProofs SpecNumbers AssembleProofs ParseProofs.

Definition has (l : list (Z * bytes)) (id : Z) : bool := existsb (fun p => fst p =? id) l.
Definition with_suffix (l : list (Z * bytes)) (id : Z) (suffix name : bytes) : bool := existsb (fun p => (fst p =? id) && bytes_eqb name (snd p ++ suffix)) l.
Definition named_b (id : Z) (name : bytes) : bool :=
  with_suffix paired_controllers id (str " (MSB)") name || with_suffix paired_controllers (id - 32) (str " (LSB)") name ||
  existsb (fun p => (fst p =? id) && has_prefix (snd p) name) single_controllers ||
  with_suffix parameter_numbers id (str " (LSB)") name || with_suffix parameter_numbers (id - 1) (str " (MSB)") name ||
  (bytes_eqb name (str "<unknown>") && negb (has paired_controllers id) && negb (has paired_controllers (id - 32)) && negb (has single_controllers id) &&
   negb (has parameter_numbers id) && negb (has parameter_numbers (id - 1))).

Lemma has_in : forall l id, has l id = false -> ~ In id (map fst l).
Proof.
  intros l id H K. apply in_map_iff in K as (p & E & K). assert (has l id = true); [|congruence]. apply existsb_exists. exists p. split; [exact K|lia].
Qed.

Lemma with_suffix_in : forall l id suffix name, with_suffix l id suffix name = true -> exists w, In (id, w) l /\ name = w ++ suffix.
Proof.
  intros l id suffix name H. apply existsb_exists in H as ([k w] & K & H). cbn [fst snd] in H. apply andb_true_iff in H as [H1 H2].
  apply Z.eqb_eq in H1. subst k. apply bytes_eqb_eq in H2. exists w. auto.
Qed.

Lemma named_b_ok : forall id name, named_b id name = true -> controller_named id name.
Proof.
  intros id name H. unfold named_b in H. rewrite !orb_true_iff in H. destruct H as [[[[[H|H]|H]|H]|H]|H].
  - apply with_suffix_in in H as (w & K & ->). constructor. exact K.
  - apply with_suffix_in in H as (w & K & ->). replace id with (id - 32 + 32) by lia. constructor. exact K.
  - apply existsb_exists in H as ([k w] & K & H). cbn [fst snd] in H. apply andb_true_iff in H as [H1 H2]. apply Z.eqb_eq in H1. subst k.
    apply has_prefix_spec in H2 as [rest ->]. constructor. exact K.
  - apply with_suffix_in in H as (w & K & ->). apply cn_par_lsb. exact K.
  - apply with_suffix_in in H as (w & K & ->). replace id with (id - 1 + 1) by lia. apply cn_par_msb. exact K.
  - repeat (apply andb_true_iff in H as [H ?]). apply bytes_eqb_eq in H. subst name.
    apply cn_free; apply has_in; apply negb_true_iff; assumption.
Qed.

Theorem controllers_numbered : forall id, 0 <= id < 256 -> c_id (lookup_controller id) = id /\ controller_named id (c_name (lookup_controller id)).
Proof.
  intros id H. split; [apply lookup_controller_id, H|]. apply named_b_ok.
  apply (byte_sweep (fun b => named_b b (c_name (lookup_controller b)))); [vm_compute; reflexivity|exact H].
Qed.

Definition region_b (id region : bytes) : bool :=
  match id with
  | [a] => ((1 <=? a) && (a <? 32) && bytes_eqb region (str "American")) || ((32 <=? a) && (a <? 64) && bytes_eqb region (str "European")) ||
           ((64 <=? a) && (a <? 96) && bytes_eqb region (str "Japanese")) || ((125 <=? a) && (a <? 128) && bytes_eqb region (str "Special Purpose"))
  | [z; b; _] => (z =? 0) && (((0 <=? b) && (b <? 32) && bytes_eqb region (str "American")) || ((32 <=? b) && (b <? 64) && bytes_eqb region (str "European")) ||
           ((64 <=? b) && (b <? 96) && bytes_eqb region (str "Japanese")))
  | _ => false
  end.

Lemma region_b_ok : forall id region, region_b id region = true -> region_of id region.
Proof.
  intros id region H. destruct id as [|a [|b [|c [|? ?]]]]; try discriminate H; cbn [region_b] in H.
  - repeat (apply orb_true_iff in H as [H|H]); apply andb_true_iff in H as [H1 H2]; apply bytes_eqb_eq in H2; subst region; constructor; lia.
  - apply andb_true_iff in H as [H0 H]. apply Z.eqb_eq in H0. subst a.
    repeat (apply orb_true_iff in H as [H|H]); apply andb_true_iff in H as [H1 H2]; apply bytes_eqb_eq in H2; subst region; constructor; lia.
Qed.

Definition told_b (k : bytes) (m : manufacturer) : bool :=
  existsb (fun p => bytes_eqb (id_key (fst p)) k && region_b (fst p) (m_region m) && contains (m_name m) (snd p)) owners.

Lemma owners_wire : forall p, In p owners -> wire_id (fst p).
Proof.
  apply Forall_forall. repeat (constructor; [cbn [fst]; constructor; lia|]). constructor.
Qed.

Lemma told_table : forallb (fun e => told_b (fst e) (snd e)) manufacturers = true.
Proof. vm_compute. reflexivity. Qed.

Lemma owners_table : forallb (fun p => match assocb (id_key (fst p)) manufacturers with Some _ => true | None => false end) owners = true.
Proof. vm_compute. reflexivity. Qed.

Lemma lookup_by_key : forall c4 id, wire_id id -> lookup_manufacturer (Env c4 manufacturers) id =
  match assocb (id_key id) manufacturers with Some m => m | None => Manufacturer id (str "<unknown>") (str "<unknown>") end.
Proof. intros c4 id [a H|b c H1 H2]; unfold lookup_manufacturer, id_key; cbn [env_manufacturers]; rewrite ?hex2_byte by (unfold is_byte; lia); reflexivity. Qed.

Theorem manufacturers_numbered : forall c4 id, wire_id id ->
  let m := lookup_manufacturer (Env c4 manufacturers) id in manufacturer_named id (m_region m) (m_name m).
Proof.
  intros c4 id W m. subst m. rewrite lookup_by_key by exact W. destruct (assocb (id_key id) manufacturers) as [m|] eqn:E.
  - right. apply assocb_in in E. pose proof (proj1 (forallb_forall _ _) told_table _ E) as T. cbn [fst snd] in T.
    apply existsb_exists in T as ([id' w] & I & T). cbn [fst snd] in T. rewrite !andb_true_iff in T. destruct T as [[T1 T2] T3].
    apply bytes_eqb_eq in T1. apply id_key_inj in T1; [|exact (owners_wire _ I)|exact W]. subst id'.
    split; [apply region_b_ok, T2|]. exists w. split; [exact I|]. apply contains_spec in T3. exact T3.
  - left. repeat split. intros K. apply in_map_iff in K as ([id' w] & Q & K). cbn [fst] in Q. subst id'.
    pose proof (proj1 (forallb_forall _ _) owners_table _ K) as T. cbn [fst] in T. rewrite E in T. discriminate T.
Qed.

(** Regions of the entries of the table by the ID they hold themselves *)
Lemma regions_table : forallb (fun e => region_b (m_id (snd e)) (m_region (snd e))) manufacturers = true.
Proof. vm_compute. reflexivity. Qed.

Lemma lookup_region : forall c4 id, let m := lookup_manufacturer (Env c4 manufacturers) id in m_region m = str "<unknown>" \/ region_of (m_id m) (m_region m).
Proof.
  intros c4 id m.
  assert (C : (exists k, In (k, m) manufacturers) \/ m_region m = str "<unknown>").
  { subst m. unfold lookup_manufacturer. destruct id as [|a [|b [|c [|? ?]]]]; try (right; reflexivity); cbn [env_manufacturers];
    match goal with |- context [assocb ?k manufacturers] => destruct (assocb k manufacturers) as [m|] eqn:E; [left; exists k; apply assocb_in, E|right; reflexivity] end. }
  destruct C as [[k I]|C]; [|left; exact C]. right. apply region_b_ok. exact (proj1 (forallb_forall _ _) regions_table _ I).
Qed.


Theorem decoded_numbered : forall c4 r f, is_bytes r -> decode (Env c4 manufacturers) r = Ok f -> Forall (fun t => Forall (fun e => numbered (e_body e)) (t_events t)) (f_tracks f).
Proof.
  intros c4 r f Hr H. apply decoded_file in H; [|exact Hr]. revert H. apply Forall_impl. intros t (_ & _ & H). revert H. apply Forall_impl. intros e (_ & _ & H).
  destruct (e_body e); cbn [decoded_body numbered] in *; auto.
  - destruct H as (_ & (id & K & ->) & _). destruct (controllers_numbered id K) as [Q N]. rewrite Q. exact N.
  - destruct H as (_ & id & _ & _ & ->). apply lookup_region.
  - destruct H as (_ & id & _ & ->). apply lookup_region.
Qed.

Theorem controllers_told_apart : forall i j, 0 <= i < 256 -> 0 <= j < 256 -> c_name (lookup_controller i) = c_name (lookup_controller j) ->
  i = j \/ c_name (lookup_controller i) = str "<unknown>".
Proof.
  intros i j Hi Hj E.
  assert (S1 : forallb (fun a => forallb (fun b => (a =? b) || bytes_eqb (c_name (lookup_controller a)) (str "<unknown>") ||
     negb (bytes_eqb (c_name (lookup_controller a)) (c_name (lookup_controller b)))) all_bytes) all_bytes = true) by (vm_compute; reflexivity).
  rewrite forallb_forall in S1. specialize (S1 i (all_bytes_in i Hi)). rewrite forallb_forall in S1. specialize (S1 j (all_bytes_in j Hj)).
  rewrite !orb_true_iff in S1. destruct S1 as [[S1|S1]|S1].
  - left. lia.
  - right. apply bytes_eqb_eq, S1.
  - rewrite E, bytes_eqb_refl in S1. discriminate S1.
Qed.
