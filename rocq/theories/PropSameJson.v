(** * The order of members in JSON documents, their spelling and other members: C96.  Theorems only; proofs in SameJsonProofs.v and SameJsonSamples.v. *)
From Coq Require Import Permutation.
From Verif Require Import Base Strings Tables Event SpecText SpecLine Manufacturer Json SpecJsonEvent SpecJsonText JsonText JsonReadProofs SpecSameJson SameJsonProofs SameJsonSamples.

(** C96: documents with the same values under each meaningful name are assembled alike. *)
Theorem C96_trees : forall env v v', same_document v v' -> assemble_json env v = assemble_json env v'.
Proof. exact documents_same. Qed.
Print Assumptions C96_trees.

Theorem C96_texts : forall env v v' t t' w w' rest rest', json_in lax_chars v t -> json_in lax_chars v' t' -> white w -> white w' -> depth v <= 10000 -> depth v' <= 10000 ->
  separated v rest -> separated v' rest' -> same_document v v' -> assemble_json_text env (w ++ t ++ rest) = assemble_json_text env (w' ++ t' ++ rest').
Proof. exact texts_same. Qed.
Print Assumptions C96_texts.

(** In particular the order of members does not matter if no name is given twice, *)
Theorem C96_order : forall o o', Permutation o o' -> (forall name l, In name meaningful -> under name o l -> (length l <= 1)%nat) -> same_document (JObj o) (JObj o').
Proof. exact any_order. Qed.
Print Assumptions C96_order.

Example C96_order_example : let o := [(str "tag", JStr (str "Tempo")); (str "delta", JNum 0); (str "tempo", JNum 500000)] in
  Permutation o (rev o) /\ o <> rev o /\ forall name l, In name meaningful -> under name o l -> (length l <= 1)%nat.
Proof. split; [apply Permutation_rev|]. split; [discriminate|]. apply once_check. vm_compute. reflexivity. Qed.

(** nor do members with other names, *)
Theorem C96_others : forall o k v o', (forall name, In name meaningful -> ~ spelled name k) -> same_document (JObj (o ++ (k, v) :: o')) (JObj (o ++ o')).
Proof. exact others_ignored. Qed.
Print Assumptions C96_others.

Example C96_others_example : forall name, In name meaningful -> ~ spelled name (str "comment").
Proof. apply other_check. vm_compute. reflexivity. Qed.

(** nor the spelling of names. *)
Theorem C96_spelling : forall o k k' v v' o', (forall name, In name meaningful -> (spelled name k <-> spelled name k')) -> same_document v v' ->
  same_document (JObj (o ++ (k, v) :: o')) (JObj (o ++ (k', v') :: o')).
Proof. exact any_spelling. Qed.
Print Assumptions C96_spelling.

Example C96_spelling_example : forall name, In name meaningful -> (spelled name (str "PPQN") <-> spelled name (str "ppqn")).
Proof. apply spelling_check. vm_compute. reflexivity. Qed.

Example C96_example : exists v v' t t', json_in lax_chars v t /\ json_in lax_chars v' t' /\ plain_text = [] ++ t ++ [] /\ fancy_text = [] ++ t' ++ [] /\
  depth v <= 10000 /\ depth v' <= 10000 /\ separated v [] /\ separated v' [] /\ v <> v' /\ same_document v v' /\
  exists bs, assemble_json_text default_env plain_text = Ok bs /\ assemble_json_text default_env fancy_text = Ok bs.
Proof.
  assert (A : forall s, forallb (fun c => (0 <=? c) && (c <? 256)) s = true -> read_text s = Ok (tree s, []) -> exists w t, s = w ++ t ++ [] /\ white w /\ json_in lax_chars (tree s) t /\ depth (tree s) <= 10000).
  { intros s B R. apply accepted_only in R; [exact R|]. apply Forall_forall. rewrite forallb_forall in B. intros c C. specialize (B c C). unfold is_byte. lia. }
  destruct (A plain_text) as (w & t & E & W & J & D); [vm_compute; reflexivity|vm_compute; reflexivity|].
  destruct (A fancy_text) as (w' & t' & E' & W' & J' & D'); [vm_compute; reflexivity|vm_compute; reflexivity|].
  assert (N : forall w t s, white w -> 123 :: s = w ++ t ++ [] -> w = []).
  { intros x y s X F. destruct x as [|c x]; [reflexivity|]. apply Forall_inv in X. injection F as F _. lia. }
  assert (w = []) as -> by (eapply N; [exact W|exact E]). assert (w' = []) as -> by (eapply N; [exact W'|exact E']).
  exists (tree plain_text), (tree fancy_text), t, t'. split; [exact J|]. split; [exact J'|]. split; [exact E|]. split; [exact E'|]. split; [exact D|]. split; [exact D'|].
  split; [vm_compute; exact I|]. split; [vm_compute; exact I|]. split; [vm_compute; discriminate|]. split; [exact trees_same|].
  let r := eval vm_compute in (assemble_json_text default_env plain_text) in match r with Ok ?b => exists b end. split; vm_compute; reflexivity.
Qed.
