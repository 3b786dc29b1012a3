(** * Configuration files: C72, and C48 with manufacturers from one.  Theorems only; proofs in ConfProofs.v. *)
From Verif Require Import Base Strings Tables Event Manufacturer Json Conf SpecConf ConfProofs ConfSamples.
From Coq Require Import Permutation.

(** C72, full statement: the manufacturers that a configuration file lists are known after loading it, by their regions and names; no others
    change.  False: [Manufacturer.UnmarshalJSON] looks the ID up and forgets region and name of the file, so nothing new can be defined.  Proved: a
    file of the documented form with IDs of one or three bytes is loaded without an error ... *)
Theorem C72_loaded_partial : forall c4 ms s, configuration ms s ->
  Forall (fun m => (length (fst (fst m)) = 1 \/ length (fst (fst m)) = 3)%nat /\ is_bytes (fst (fst m))) ms ->
  exists l, load_text (Env c4 manufacturers) s = Ok l.
Proof. exact configuration_loads. Qed.
Print Assumptions C72_loaded_partial.

(** ... and, whatever the file contains, all manufacturers but 7E keep the region and the name that they had (also "<unknown>"). *)
Theorem C72_others_partial : forall c4 s l, load_text (Env c4 manufacturers) s = Ok l -> forall id, is_bytes id -> id <> [126] ->
  let before := lookup_manufacturer (Env c4 manufacturers) id in let after := lookup_manufacturer (add_manufacturers (Env c4 manufacturers) l) id in
  m_region after = m_region before /\ m_name after = m_name before.
Proof. exact names_stay. Qed.
Print Assumptions C72_others_partial.

Example C72_example : configuration acme (conf_file acme) /\
  Forall (fun m => (length (fst (fst m)) = 1 \/ length (fst (fst m)) = 3)%nat /\ is_bytes (fst (fst m))) acme /\
  exists l, load_text default_env (conf_file acme) = Ok l /\ length l = 3%nat /\ m_name (lookup_manufacturer (add_manufacturers default_env l) [67]) = str "Yamaha".
Proof.
  split; [exact acme_ok|]. split; [repeat constructor; cbn; auto; lia|]. eexists. split; [vm_compute; reflexivity|]. split; vm_compute; reflexivity.
Qed.

Theorem C72_names_refuted : exists ms s l id region name, configuration ms s /\ load_text default_env s = Ok l /\ In (id, region, name) ms /\ name = str "Acme" /\
  m_name (lookup_manufacturer (add_manufacturers default_env l) id) = str "<unknown>".
Proof.
  exists acme, (conf_file acme). eexists. exists [100], (str "Here"), (str "Acme"). split; [exact acme_ok|]. split; [vm_compute; reflexivity|].
  split; [left; reflexivity|]. split; [reflexivity|]. vm_compute. reflexivity.
Qed.
Print Assumptions C72_names_refuted.

(** A file that lists only 7F changes the name of 7E. *)
Theorem C72_others_refuted : exists ms s l, configuration ms s /\ map (fun m => fst (fst m)) ms = [[127]] /\ load_text default_env s = Ok l /\
  m_name (lookup_manufacturer default_env [126]) = str "Non-RealTime Extensions" /\
  m_name (lookup_manufacturer (add_manufacturers default_env l) [126]) = str "RealTime Extensions".
Proof.
  exists realtime, (conf_file realtime). eexists. split; [exact realtime_ok|]. split; [reflexivity|]. split; [vm_compute; reflexivity|].
  split; vm_compute; reflexivity.
Qed.
Print Assumptions C72_others_refuted.

(** C48 (PropEvent.v): after a configuration file with two unknown manufacturers has been loaded, the one found by the name that is displayed depends
    on the order of the iteration. *)
Theorem C48_find_manufacturer_refuted : exists l it1 it2 s m1 m2,
  load_text default_env (conf_file acme) = Ok l /\
  Permutation (l ++ manufacturers) it1 /\ Permutation (l ++ manufacturers) it2 /\
  find_manufacturer it1 s = Ok m1 /\ find_manufacturer it2 s = Ok m2 /\ m_id m1 = [0; 127; 1] /\ m_id m2 = [100].
Proof. exact order_matters. Qed.
Print Assumptions C48_find_manufacturer_refuted.
