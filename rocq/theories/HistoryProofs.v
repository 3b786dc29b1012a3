(** * HistoryProofs: what the decoder shows as a function of the preceding events (C29, C31, C32). *)
From Verif Require Import Base Strings Tables SpecVlq VlqProofs Event Parse Track SpecPacket SpecHistory SpecNote NoteProofs
  ParseProofs DecodeProofs TrackProofs.

Lemma decoded_history : forall env r es c', is_bytes r -> decode_events env new_context r = Ok (es, c') ->
  forall i e, nth_error es i = Some e -> by_history env (firstn i es) e.
Proof.
  intros env r es c' Hr H. rewrite decode_events_eq in H.
  exact (proj2 (loop_history (length r) env [] new_context 0 r es c' (le_n _) Hr ltac:(left; reflexivity) hist_new H)).
Qed.

Theorem note_names : forall env r es c', is_bytes r -> decode_events env new_context r = Ok (es, c') ->
  (forall i e ch n v, nth_error es i = Some e -> e_body e = NoteOn ch n v ->
     note_name (middle_octave env) (flats_in_force (firstn i es)) (n_value n) (n_name n)) /\
  (forall i e ch n v, nth_error es i = Some e -> e_body e = NoteOff ch n v ->
     match latest (note_on_name ch (n_value n)) (firstn i es) with
     | Some s => n_name n = s
     | None => note_name (middle_octave env) (flats_in_force (firstn i es)) (n_value n) (n_name n)
     end).
Proof.
  intros env r es c' Hr H. pose proof (decoded_history env r es c' Hr H) as B. split; intros i e ch n v Hi He;
    destruct (B i e Hi) as (_ & _ & B3); rewrite He in B3.
  - rewrite B3. apply format_note_name.
  - destruct (latest (note_on_name ch (n_value n)) (firstn i es)); [exact B3|]. rewrite B3. apply format_note_name.
Qed.

Theorem bank_history : forall env r es c', is_bytes r -> decode_events env new_context r = Ok (es, c') ->
  forall i e ch bank p, nth_error es i = Some e -> e_body e = ProgramChange ch bank p ->
    bank = 128 * (latest_or_0 (select_msb ch) (firstn i es) mod 64) + latest_or_0 (select_lsb ch) (firstn i es) mod 64.
Proof.
  intros env r es c' Hr H i e ch bank p Hi He. destruct (decoded_history env r es c' Hr H i e Hi) as (_ & _ & B3).
  rewrite He in B3. exact B3.
Qed.

Theorem sysex_history : forall env r es c', is_bytes r -> decode_events env new_context r = Ok (es, c') ->
  forall i e, nth_error es i = Some e ->
  (e_status e = 247 ->
     if sysex_open (firstn i es) then exists d fin, e_body e = SysExContinuation d fin else exists d, e_body e = SysExEscape d) /\
  (e_status e = 240 -> sysex_open (firstn i es) = false /\ exists m d, e_body e = SysExMessage m d (last (e_bytes e) 0 =? 247)).
Proof.
  intros env r es c' Hr H i e Hi. destruct (decoded_history env r es c' Hr H i e Hi) as (B1 & B2 & _). split; intro Hs.
  - destruct (B1 Hs) as [C1 C2]. destruct (sysex_open (firstn i es)); [apply C1|apply C2]; reflexivity.
  - destruct (B2 Hs) as [C1 (m & d & single & C2 & ->)]. split; [assumption|]. exists m, d. assumption.
Qed.

Theorem sysex_interrupted : forall env p es c', is_bytes p -> decode_events env new_context p = Ok (es, c') ->
  concat (map e_bytes es) = p -> sysex_open es = true ->
  forall d delta l data rest, reads d delta -> reads_len l data ->
    decode_events env new_context (p ++ d ++ 240 :: l ++ data ++ rest) = Err.
Proof.
  intros env p es c' Hp H Hc Ho d delta l data rest Hd Hl. rewrite decode_events_eq in *.
  rewrite (loop_app (length p) env new_context 0 p _ es c' (le_n _) Hp ltac:(left; reflexivity) ltac:(lia) H Hc).
  destruct (loop_history (length p) env [] new_context 0 p es c' (le_n _) Hp ltac:(left; reflexivity) hist_new H) as [(_ & H2 & _) _].
  cbn [app] in H2. rewrite loop_from_eq. rewrite parse_f0_open with (delta := delta) by (auto; congruence). reflexivity.
Qed.
