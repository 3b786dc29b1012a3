(** * ConfSamples: configuration files for examples and witnesses. *)
From Verif Require Import Base Strings Tables Event Manufacturer Json JsonText SpecText SpecJsonText JsonWriteProofs JsonExportProofs Conf SpecConf.
From Coq Require Import Permutation.

Definition conf_file (ms : list (bytes * bytes * bytes)) : bytes := write_json 0 (JObj [(str "manufacturers", JArr (map listed ms))]).

Lemma conf_file_ok : forall ms, Forall (fun m => well_formed (snd (fst m)) /\ well_formed (snd m)) ms -> configuration ms (conf_file ms).
Proof.
  intros ms F. exists [], (conf_file ms), []. split; [symmetry; apply app_nil_r|]. split; [constructor|]. split; [constructor|].
  apply plain_json_text. cbn [plain_json fold_right fst snd]. split; [apply check_ascii; vm_compute; reflexivity|]. split; [|exact I].
  induction F as [|[[id region] name] ms [H1 H2] _ IH]; [exact I|]. cbn [map fold_right]. split; [|exact IH]. unfold listed. cbn [plain_json fold_right fst snd] in *.
  split; [apply check_ascii; vm_compute; reflexivity|]. split; [clear; induction id; cbn; auto|].
  split; [apply check_ascii; vm_compute; reflexivity|]. split; [exact H1|].
  split; [apply check_ascii; vm_compute; reflexivity|]. split; [exact H2|exact I].
Qed.

(** Two manufacturers that the program does not know, and one that it knows by another name. *)
Definition acme : list (bytes * bytes * bytes) := [([100], str "Here", str "Acme"); ([0; 127; 1], str "There", str "Other"); ([67], str "Here", str "Mine")].

Lemma acme_ok : configuration acme (conf_file acme).
Proof. apply conf_file_ok. repeat constructor; apply check_ascii; vm_compute; reflexivity. Qed.

(** Only the manufacturer 7F. *)
Definition realtime : list (bytes * bytes * bytes) := [([127], str "Special Purpose", str "RealTime Extensions")].
Lemma realtime_ok : configuration realtime (conf_file realtime).
Proof. apply conf_file_ok. repeat constructor; apply check_ascii; vm_compute; reflexivity. Qed.

Lemma order_matters : exists l it1 it2 s m1 m2,
  load_text default_env (conf_file acme) = Ok l /\
  Permutation (l ++ manufacturers) it1 /\ Permutation (l ++ manufacturers) it2 /\
  find_manufacturer it1 s = Ok m1 /\ find_manufacturer it2 s = Ok m2 /\ m_id m1 = [0; 127; 1] /\ m_id m2 = [100].
Proof.
  destruct (load_text default_env (conf_file acme)) as [l| | | |] eqn:E; try (vm_compute in E; discriminate E).
  exists l, (l ++ manufacturers), (rev l ++ manufacturers), (str "<unknown>").
  assert (X : l = [(str "43", lookup_manufacturer default_env [67]); (str "7F01", Manufacturer [0; 127; 1] (str "<unknown>") (str "<unknown>"));
    (str "64", Manufacturer [100] (str "<unknown>") (str "<unknown>"))]) by (vm_compute in E; apply Ok_inj in E; subst l; vm_compute; reflexivity).
  rewrite X. eexists _, _. split; [reflexivity|]. split; [apply Permutation_refl|].
  split; [apply Permutation_app_tail; apply Permutation_rev|]. split; [vm_compute; reflexivity|]. split; [vm_compute; reflexivity|]. split; reflexivity.
Qed.
