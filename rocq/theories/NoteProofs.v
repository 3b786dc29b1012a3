(** * NoteProofs: displayed note names. *)
From Verif Require Import Base Strings Tables Event SpecDecimal DecimalProofs SpecNote.

Lemma pitch_names : forall (flats : bool) pc, 0 <= pc < 12 ->
  nth (Z.to_nat pc) (if flats then Flats else Sharps) [] = pitch_class_name flats pc.
Proof.
  intros flats pc H. assert (E : pc = Z.of_nat (Z.to_nat pc)) by lia. rewrite E at 2.
  assert (Hn : (Z.to_nat pc < 12)%nat) by lia. revert Hn. generalize (Z.to_nat pc). intros n Hn.
  do 12 (destruct n as [|n]; [destruct flats; reflexivity|]). lia.
Qed.

(** Octave of note 60. *)
Definition middle_octave (env : env) : Z := if env_c4 env then 3 else 4.

Theorem format_note_name : forall env flats n, note_name (middle_octave env) flats n (format_note env flats n).
Proof.
  intros env flats n. unfold note_name, format_note, middle_octave. exists (dec (n / 12 - (if env_c4 env then 2 else 1))). split.
  - replace (n / 12 - 5 + (if env_c4 env then 3 else 4)) with (n / 12 - (if env_c4 env then 2 else 1)) by (destruct (env_c4 env); lia).
    apply dec_decimal.
  - rewrite pitch_names; [reflexivity|]. apply Z.mod_pos_bound. lia.
Qed.

Lemma note_name_unique : forall middle flats n s t, note_name middle flats n s -> note_name middle flats n t -> s = t.
Proof.
  intros middle flats n s t (o & D & ->) (o' & D' & ->). f_equal. eapply decimal_unique; eassumption.
Qed.
