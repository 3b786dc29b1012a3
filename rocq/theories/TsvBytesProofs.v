(** * TsvBytesProofs: the cells of the table of a decoded file are bytes. *)
From Verif Require Import Base Strings Tables Event Track File SpecEvent SpecDecoded DecodedProofs JsonProofs JsonWriteProofs JsonExportProofs Manufacturer Hex HexProofs Utf8 Utf8Proofs Tsv TsvProofs SpecTable.

Ltac pieces := repeat (apply Forall_app; split); try (apply check_bytes; vm_compute; reflexivity); try apply dec_bytes.

Lemma dec2_bytes : forall n, is_bytes (dec2 n).
Proof. intro n. unfold dec2. destruct (_ && _); [constructor; [unfold is_byte; lia|]|]; apply dec_bytes. Qed.

Lemma spaced_bytes : forall l, is_bytes (spaced (map dec l)).
Proof.
  induction l as [|x l IH]; [constructor|]. cbn [map spaced]. destruct (map dec l) eqn:E; [apply dec_bytes|]. apply Forall_app. split; [apply dec_bytes|].
  apply Forall_app. split; [apply check_bytes; reflexivity|exact IH].
Qed.

Lemma hex_bytes : forall d, is_bytes d -> is_bytes (hex_string d).
Proof. intros d B. rewrite hex_string_hexsp by exact B. apply hexsp_is_bytes. exact B. Qed.

Lemma details_bytes : forall env b, conf_ok env -> decoded_body env b -> named b -> is_bytes (tsv_details b).
Proof.
  intros env b C D N. destruct b as [c n v|c n v|c p|c k v|c b p|c p|c b|n|k s|c|p| |t|h m s r f ff|n d t q|a k key|m d|m d s|d f|d]; cbn [decoded_body named tsv_details] in *;
    try (pieces; fail); try apply dec_bytes.
  - apply N.
  - apply N.
  - destruct D as (_ & (id & _ & ->) & _). pieces. apply controller_ok.
  - exact D.
  - pieces; apply dec2_bytes.
  - destruct D as (K & minor & _ & ->). apply key_ok. exact K.
  - destruct D as (B & id & _ & _ & ->). pieces; [apply lookup_ok; exact C|apply hex_bytes; exact B].
  - destruct D as (B & id & _ & ->). unfold bytes_v. pieces; try (apply lookup_ok; exact C); [apply spaced_bytes|apply hex_bytes; exact B].
  - apply hex_bytes. apply D.
  - apply hex_bytes. exact D.
Qed.

Lemma fields_bytes : forall env e, conf_ok env -> decoded_body env (e_body e) -> named (e_body e) -> Forall is_bytes (fields e).
Proof.
  intros env e C D N. pose proof (details_bytes env _ C D N) as B. unfold fields.
  assert (T : is_bytes (body_tag (e_body e))) by (destruct (e_body e); try (apply check_bytes; reflexivity); destruct k; apply check_bytes; reflexivity).
  clear D N. revert B T. destruct (e_body e); intros B T; cbv beta iota zeta; repeat (first [apply Forall_nil|apply Forall_cons; [first [exact T|exact B|apply dec_bytes|constructor]|]]).
Qed.

Definition table_bytes (t : list (list bytes)) : Prop := Forall (Forall is_bytes) t.

Lemma upd_forall : forall A (P : A -> Prop) i x l, P x -> Forall P l -> Forall P (upd i x l).
Proof. intros A P i x l Px F. revert i. induction F as [|y l Py F IH]; intros [|i]; cbn [upd]; constructor; auto. Qed.

Lemma set_cell_bytes : forall t row col v t', table_bytes t -> is_bytes v -> set_cell t row col v = Ok t' -> table_bytes t'.
Proof.
  intros t row col v t' T V H. unfold set_cell in H. destruct (nth_error t row) as [r|] eqn:E; [|discriminate]. destruct (nth_error r col) as [x|]; [|discriminate].
  apply Ok_inj in H. subst t'. apply upd_forall; [|exact T]. apply upd_forall; [exact V|]. apply nth_error_In in E. unfold table_bytes in T. rewrite Forall_forall in T. exact (T _ E).
Qed.

Lemma set_cells_bytes : forall vs t row col t', table_bytes t -> Forall is_bytes vs -> set_cells t row col vs = Ok t' -> table_bytes t'.
Proof.
  induction vs as [|v vs IH]; intros t row col t' T V H; cbn [set_cells] in H; [apply Ok_inj in H; subst; exact T|]. inversion V as [|? ? V1 V2]; subst.
  destruct (set_cell t row col v) as [t1| | | |] eqn:E; try discriminate. cbn [bind] in H. exact (IH _ _ _ _ (set_cell_bytes _ _ _ _ _ T V1 E) V2 H).
Qed.

Lemma set_titles_bytes : forall tracks t i t', table_bytes t -> set_titles t i tracks = Ok t' -> table_bytes t'.
Proof.
  induction tracks as [|x tracks IH]; intros t i t' T H; cbn [set_titles] in H; [apply Ok_inj in H; subst; exact T|].
  destruct (set_cells t 0 (i * 7) tsv_header) as [t1| | | |] eqn:E; try discriminate. cbn [bind] in H. refine (IH _ _ _ (set_cells_bytes _ _ _ _ _ T _ E) H).
  repeat (apply Forall_cons; [apply check_bytes; reflexivity|]). constructor.
Qed.

Lemma set_events_bytes : forall es t row col t', table_bytes t -> Forall (fun e => Forall is_bytes (fields e)) es -> set_events t row col es = Ok t' -> table_bytes t'.
Proof.
  induction es as [|e es IH]; intros t row col t' T F H; cbn [set_events] in H; [apply Ok_inj in H; subst; exact T|]. inversion F as [|? ? F1 F2]; subst.
  destruct (set_cells t row col (fields e)) as [t1| | | |] eqn:E; try discriminate. cbn [bind] in H. exact (IH _ _ _ _ (set_cells_bytes _ _ _ _ _ T F1 E) F2 H).
Qed.

Lemma set_tracks_bytes : forall tracks t i t', table_bytes t -> Forall (fun x => Forall (fun e => Forall is_bytes (fields e)) (t_events x)) tracks -> set_tracks t i tracks = Ok t' -> table_bytes t'.
Proof.
  induction tracks as [|x tracks IH]; intros t i t' T F H; cbn [set_tracks] in H; [apply Ok_inj in H; subst; exact T|]. inversion F as [|? ? F1 F2]; subst.
  destruct (set_events t 1 (i * 7) (t_events x)) as [t1| | | |] eqn:E; try discriminate. cbn [bind] in H. exact (IH _ _ _ (set_events_bytes _ _ _ _ _ T F1 E) F2 H).
Qed.

Theorem export_bytes : forall env r s t, is_bytes r -> conf_ok env -> decode env r = Ok s -> tsv_export s = Ok t -> Forall (Forall is_bytes) t.
Proof.
  intros env r s t Hr C H E. pose proof (decoded_file env r s Hr H) as F. pose proof (file_names env r s Hr H) as N. unfold tsv_export in E.
  destruct (set_titles _ 0 (f_tracks s)) as [t1| | | |] eqn:E1; try discriminate. cbn [bind] in E.
  refine (set_tracks_bytes _ _ _ _ (set_titles_bytes _ _ _ _ _ E1) _ E).
  - unfold table_bytes. apply Forall_forall. intros x I. apply repeat_spec in I. subst x. apply Forall_forall. intros y I. apply repeat_spec in I. subst y. constructor.
  - clear - C F N. induction (f_tracks s) as [|t ts IH]; [constructor|]. inversion F as [|? ? (F1 & _ & F3) F4]; inversion N as [|? ? N1 N2]; subst. constructor; [|apply IH; assumption].
    clear - C F3 N1. induction (t_events t) as [|e es IH]; [constructor|]. inversion F3 as [|? ? (_ & _ & D) F4]; inversion N1 as [|? ? N3 N4]; subst. constructor; [|apply IH; assumption].
    exact (fields_bytes env e C D N3).
Qed.
