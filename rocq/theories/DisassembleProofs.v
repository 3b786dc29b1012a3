(** * DisassembleProofs: disassembly of decoded files; tables of decoded files. *)
From Verif Require Import Base Strings Vlq SpecVlq Tables Event Track File Parse SpecPacket SpecDecoded SpecEvent Utf8 Hex Disassemble Tsv SpecText SpecTable
  Utf8Proofs HexProofs TsvProofs ParseProofs DecodeProofs TrackProofs DecodedProofs NotesTimeProofs ValidateProofs Samples.

(** The bytes of a decoded event are its delta time and what follows. *)
Lemma loop_bytes : forall n env c tick r es c', (length r <= n)%nat -> is_bytes r -> ctx_ok c ->
  loop_from env c tick r = Ok (es, c') -> Forall (fun e => exists d x, e_bytes e = d ++ x /\ reads d (e_delta e) /\ is_bytes (d ++ x)) es.
Proof.
  induction n as [|n IH]; intros env c tick r es c' Hn Hr Hc H.
  - destruct r; [|cbn in Hn; lia]. rewrite loop_from_eq, parse_nil in H. apply Ok_inj, pair_equal_spec in H as [<- <-]. constructor.
  - rewrite loop_from_eq in H. destruct (parse env c tick r) as [[[e c1] rest]| | | |] eqn:E; try discriminate.
    + pose proof (parse_shorter _ _ _ _ _ _ _ E) as Hlt.
      destruct (parse_inv _ _ _ _ _ _ _ Hr Hc E) as (p & delta & k & -> & Hs & HR & (_ & SD & SB) & Hc1). apply is_bytes_app in Hr as [Hp Hr].
      destruct (post_process env c1 e) as [e' c2] eqn:P.
      destruct (post_process_facts _ _ _ _ _ P) as (_ & P2 & P3 & P4).
      destruct (loop_from env c2 _ rest) as [[es1 c3]| | | |] eqn:L; try discriminate.
      cbn [bind] in H. apply Ok_inj, pair_equal_spec in H as [<- <-].
      assert (Hc2 : ctx_ok c2) by (unfold ctx_ok; rewrite P4; exact Hc1).
      assert (Hle : (length rest <= n)%nat) by lia.
      constructor; [|eapply (IH _ _ _ _ _ _ Hle Hr Hc2 L)].
      rewrite P2, P3, SD, SB. destruct Hs; eexists _, _; (split; [reflexivity|]); (split; [eassumption|exact Hp]).
    + apply Ok_inj, pair_equal_spec in H as [<- <-]. constructor.
Qed.

Lemma decoded_bytes : forall env r s, is_bytes r -> decode env r = Ok s ->
  Forall (fun t => Forall (fun e => exists d x, e_bytes e = d ++ x /\ reads d (e_delta e) /\ is_bytes (d ++ x)) (t_events t)) (f_tracks s).
Proof.
  intros env r s Hr H. eapply Forall_impl; [|eapply decoded_tracks; [exact Hr|exact H]].
  intros t (w & c & Bw & E). cbn beta. rewrite decode_events_eq in E. eapply loop_bytes; [apply le_n|exact Bw| |exact E]; left; reflexivity.
Qed.

Lemma event_lines_total : forall es, Forall (fun e => exists l, event_line e = Ok l) es -> exists ls, event_lines es = Ok ls.
Proof.
  intros es F. induction F as [|e es (l & E) F (ls & IH)]; [exists []; reflexivity|]. cbn [event_lines]. rewrite E, IH. eexists. reflexivity.
Qed.

Lemma event_line_spec : forall e d x, e_bytes e = d ++ x -> vlq_string d -> is_bytes (d ++ x) ->
  exists col n shown rest, event_line e = Ok (col ++ str "  tick:" ++ rest) /\ chars col 42 /\
    hex_form (firstn n (e_bytes e)) shown /\
    ((n = length (e_bytes e) /\ exists k, col = spaces (3 * (3 - length d)) ++ shown ++ spaces k) \/
     ((0 < n < length (e_bytes e))%nat /\ (n + (3 - length d) = 14)%nat /\ col = spaces (3 * (3 - length d)) ++ shown ++ [226; 128; 166])).
Proof.
  intros e d x E V B. destruct (hex_column_spec d x V B) as (col & n & shown & H & C & F & D). rewrite E.
  exists col, n, shown. eexists. split; [unfold event_line; rewrite E, H; reflexivity|]. auto.
Qed.

Theorem decoded_lines : forall env r s t e, is_bytes r -> decode env r = Ok s -> In t (f_tracks s) -> In e (t_events t) ->
  exists col d n shown rest, event_line e = Ok (col ++ str "  tick:" ++ rest) /\ chars col 42 /\
    reads d (e_delta e) /\ firstn (length d) (e_bytes e) = d /\ hex_form (firstn n (e_bytes e)) shown /\
    ((n = length (e_bytes e) /\ exists k, col = spaces (3 * (3 - length d)) ++ shown ++ spaces k) \/
     ((0 < n < length (e_bytes e))%nat /\ (n + (3 - length d) = 14)%nat /\ col = spaces (3 * (3 - length d)) ++ shown ++ [226; 128; 166])).
Proof.
  intros env r s t e Hr H It Ie. pose proof (decoded_bytes env r s Hr H) as F. rewrite Forall_forall in F. specialize (F t It).
  rewrite Forall_forall in F. destruct (F e Ie) as (d & x & E & [V D] & B). destruct (event_line_spec e d x E V B) as (col & n & shown & rest & L & C & R).
  exists col, d, n, shown, rest. split; [exact L|]. split; [exact C|]. split; [split; auto|]. split; [|exact R].
  rewrite E, firstn_app, firstn_all, Nat.sub_diag, firstn_O. apply app_nil_r.
Qed.

Theorem decoded_disassembles : forall env r s, is_bytes r -> decode env r = Ok s -> exists text, disassemble s = Ok text.
Proof.
  intros env r s Hr H. unfold disassemble. destruct (decoded_header env r s H) as (h & -> & _).
  pose proof (decoded_bytes env r s Hr H) as F.
  assert (G : exists ts, mtrks_text (f_tracks s) = Ok ts).
  { clear - F. induction F as [|t ts Ft F (x & IH)]; [exists []; reflexivity|]. cbn [mtrks_text]. unfold mtrk_text.
    destruct (event_lines_total (t_events t)) as (ls & ->).
    - eapply Forall_impl; [|exact Ft]. intros e (d & y & E & [V _] & B). destruct (event_line_spec e d y E V B) as (? & ? & ? & ? & L & _). eauto.
    - cbn [bind]. rewrite IH. eexists. reflexivity. }
  destruct G as (ts & ->). eexists. reflexivity.
Qed.

(** The columns of the chunk lines. *)
Lemma chunk_column : forall bs n, is_bytes bs -> 0 < n <= 42 -> chars (pad 42 (ellipsize (hex_string bs) n)) 42.
Proof.
  intros bs n B N. rewrite hex_string_hexsp by exact B. pose proof (hexsp_ascii bs B) as A. pose proof (hexsp_is_bytes bs B) as BX.
  set (x := hexsp bs) in *. rewrite ellipsize_ascii by (auto; lia). destruct (zlen x <=? n) eqn:C.
  - rewrite pad_ascii by (auto; lia). replace 42%nat with (length (x ++ spaces (Z.to_nat (42 - zlen x)))).
    + apply chars_ascii; apply Forall_app; split; first [exact BX|exact A|apply is_bytes_spaces|apply ascii_spaces].
    + rewrite app_length. unfold spaces. rewrite repeat_length. unfold zlen in *. lia.
  - set (y := firstn (Z.to_nat (n - 1)) x).
    assert (Ay : ascii y). { unfold ascii in *. rewrite <- (firstn_skipn (Z.to_nat (n - 1)) x) in A. apply Forall_app in A. apply A. }
    assert (By : is_bytes y). { unfold is_bytes in *. rewrite <- (firstn_skipn (Z.to_nat (n - 1)) x) in BX. apply Forall_app in BX. apply BX. }
    assert (Ly : zlen y = n - 1). { unfold y, zlen in *. rewrite firstn_length. lia. }
    unfold pad. rewrite runes_ascii_app by exact Ay. rewrite runes_ellipsis.
    assert (Z : zlen (map (fun c => [c]) y ++ [[226; 128; 166]]) = n) by (rewrite zlen_app, zlen_map, Ly; unfold zlen; cbn [length]; lia).
    rewrite Z. replace (42 <? n) with false by lia. rewrite <- app_assoc.
    replace 42%nat with (length y + (1 + Z.to_nat (42 - n)))%nat by (unfold zlen in Ly; lia).
    apply chars_app_ascii; auto.
    change ([226; 128; 166] ++ repeat 32 (Z.to_nat (42 - n))) with ([224 + 8230 / 4096; 128 + 8230 / 64 mod 64; 128 + 8230 mod 64] ++ spaces (Z.to_nat (42 - n))).
    apply (chars_cons 8230); [apply utf8_3; lia|]. replace (Z.to_nat (42 - n)) with (length (spaces (Z.to_nat (42 - n)))) at 2 by (unfold spaces; apply repeat_length).
    apply chars_ascii; [apply is_bytes_spaces|apply ascii_spaces].
Qed.

(** ** Tables of decoded files *)

Lemma decoded_printable : forall env b, decoded_body env b -> printable b.
Proof. intros env b H. destruct b; cbn [decoded_body printable] in *; tauto || lia || auto. Qed.

Theorem decoded_tsv : forall env r s, is_bytes r -> decode env r = Ok s ->
  Forall (fun t => Forall (fun e => printable (e_body e)) (t_events t)) (f_tracks s).
Proof.
  intros env r s Hr H. eapply Forall_impl; [|eapply decoded_file; [exact Hr|exact H]]. intros t (_ & _ & F). cbn beta.
  eapply Forall_impl; [|exact F]. intros e (_ & _ & D). eapply decoded_printable. exact D.
Qed.

Lemma written_rows : forall s t, tsv_export s = Ok t -> written_records t = titles :: t.
Proof. reflexivity. Qed.

Lemma written_rows_refuted : exists s t, decode default_env sample_file = Ok s /\ tsv_export s = Ok t /\
  written_records t <> t /\ map (@length bytes) (firstn 3 (written_records t)) = [7%nat; 14%nat; 14%nat].
Proof.
  exists sample_smf. eexists. split; [vm_compute; reflexivity|]. split; [vm_compute; reflexivity|]. split.
  - intro H. apply (f_equal (@length (list bytes))) in H. vm_compute in H. discriminate.
  - vm_compute. reflexivity.
Qed.
