(** * NoteNameProofs: note names parsed again. *)
From Verif Require Import Base Strings Tables Event SpecDecimal DecimalProofs SpecNote NoteProofs Regex TextEvent.

(** The name of note [n] denotes note [n - 60 + 12 * (middle + 1)] for the parser: 60 is the C of octave 4. *)
Lemma name_parsed : forall middle flats n s, middle = 3 \/ middle = 4 -> 0 <= n <= 127 -> note_name middle flats n s ->
  parse_note s = Ok (Note ((n + 12 * (middle - 4)) mod 256) s s).
Proof.
  intros middle flats n s M R N.
  set (env := if middle =? 3 then (Env true manufacturers) else default_env).
  assert (E : middle_octave env = middle) by (destruct M; subst; reflexivity).
  assert (S : s = format_note env flats n). { eapply note_name_unique; [exact N|]. rewrite <- E. apply format_note_name. }
  subst s. 
  pose proof (byte_sweep (fun n => if n <? 128 then forallb (fun flats => forallb (fun c4 : bool =>
     let s := format_note (if c4 then (Env true manufacturers) else default_env) flats n in
     match parse_note s with Ok x => (n_value x =? (n + 12 * ((if c4 then 3 else 4) - 4)) mod 256) && bytes_eqb (n_name x) s && bytes_eqb (n_alias x) s | _ => false end)
     [true; false]) [true; false] else true)
     ltac:(vm_compute; reflexivity) n ltac:(unfold is_byte; lia)) as H. cbn beta in H.
  replace (n <? 128) with true in H by lia. rewrite forallb_forall in H. specialize (H flats ltac:(destruct flats; cbn; auto)).
  cbn beta in H. rewrite forallb_forall in H. specialize (H (middle =? 3) ltac:(destruct (middle =? 3); cbn; auto)). cbn beta zeta in H.
  fold env in H. replace (if middle =? 3 then 3 else 4) with middle in H by (destruct M; subst; reflexivity).
  destruct (parse_note _) as [[v a b]| | | |]; try discriminate. cbn [n_value n_name n_alias] in H.
  apply andb_prop in H as [H H3]. apply andb_prop in H as [H1 H2]. apply bytes_eqb_eq in H2, H3. apply Z.eqb_eq in H1. congruence.
Qed.

Lemma displayed_parsed : forall env flats n, env_c4 env = false -> 0 <= n <= 127 ->
  exists x, parse_note (format_note env flats n) = Ok x /\ n_value x = n /\ note_name 4 flats n (format_note env flats n).
Proof.
  intros env flats n E R. pose proof (format_note_name env flats n) as N. unfold middle_octave in N. rewrite E in N.
  eexists. split; [apply (name_parsed 4 flats n); [right; reflexivity|exact R|exact N]|]. split; [|exact N]. cbn [n_value].
  replace (n + 12 * (4 - 4)) with n by lia. apply Z.mod_small. lia.
Qed.

Lemma middle_c_shifted : exists env flats n x, 0 <= n <= 127 /\ parse_note (format_note env flats n) = Ok x /\ n_value x <> n.
Proof. exists (Env true manufacturers), false, 60. eexists. split; [lia|]. split; [vm_compute; reflexivity|]. discriminate. Qed.
