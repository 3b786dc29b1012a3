From Verif Require Import Base Strings Tables Vlq SpecVlq VlqProofs Event SpecEvent Parse Track File Marshal
  SpecTrack SpecFile SpecPacket SpecHistory SpecFramed ParseProofs EncodeProofs DecodeProofs FileProofs.

Lemma latest_snoc : forall A (f : event -> option A) es e,
  latest f (es ++ [e]) = match f e with Some a => Some a | None => latest f es end.
Proof. intros. unfold latest. rewrite fold_left_app. reflexivity. Qed.

Lemma running_snoc : forall es e, running_after (es ++ [e]) = if is_channel_status (e_status e) then e_status e else 0.
Proof. intros. unfold running_after. rewrite fold_left_app. reflexivity. Qed.

Definition open_step (op : bool) (e : event) : bool :=
  let unfinished := negb (last (e_bytes e) 0 =? 247) in
  if e_status e =? 240 then unfinished else if e_status e =? 247 then op && unfinished else op.
Lemma open_snoc : forall es e, sysex_open (es ++ [e]) = open_step (sysex_open es) e.
Proof. intros. unfold sysex_open. rewrite fold_left_app. reflexivity. Qed.

(** ** One event *)

Lemma last_packet : forall d l data, vlq_string l -> (last (d ++ l ++ data) 0 =? 247) = packet_f7 data.
Proof.
  intros d l data Hl. pose proof (ends_f7_raw d l data Hl) as E. unfold ends_f7 at 1 in E. rewrite E. reflexivity.
Qed.

Inductive step_kind (e : event) : packet -> Prop :=
| sk_chan : forall st data, e_status e = st -> 128 <= st < 240 -> step_kind e (PChan st data)
| sk_meta : forall ty data, e_status e = 255 -> step_kind e (PMeta ty data)
| sk_sys : forall st data, e_status e = st -> st = 240 \/ st = 247 -> step_kind e (PSys st data).

Definition chan_body (b : body) : Prop :=
  match b with
  | NoteOff ch n _ | NoteOn ch n _ => 0 <= ch < 16 /\ 0 <= n_value n < 256
  | Controller ch _ v => 0 <= ch < 16 /\ 0 <= v < 256
  | ProgramChange ch _ _ => 0 <= ch < 16
  | _ => True
  end.

Lemma chan_split : forall st, 128 <= st < 240 ->
  exists s ch, st = s + ch /\ In s [128; 144; 160; 176; 192; 208; 224] /\ 0 <= ch < 16.
Proof.
  intros st H. exists (st / 16 * 16), (st mod 16). split; [lia|]. split; [|lia]. cbn [In].
  assert (K : In (st / 16) [8; 9; 10; 11; 12; 13; 14]) by (cbn [In]; lia). cbn [In] in K. lia.
Qed.

Lemma unmarshal_midi_kind : forall env tick delta st data raw e, 128 <= st < 256 -> is_bytes data ->
  unmarshal_midi env tick delta st data raw = Ok e ->
  e_status e = st /\ 128 <= st < 240 /\ chan_body (e_body e) /\
  match e_body e with NoteOff _ n _ | NoteOn _ n _ => n = plain_note env (n_value n) | _ => True end /\
  match e_body e with KeySignature _ _ _ | SysExContinuation _ _ | SysExMessage _ _ _ | SysExEscape _ => False | _ => True end.
Proof.
  intros env tick delta st data raw e Hst Hb H.
  pose proof (chan_status env tick delta st data raw e Hst H) as Hlt.
  destruct (chan_split st ltac:(lia)) as (s & ch & -> & Hin & Hch).
  destruct (land_channel s ch Hin Hch) as (L1 & L2 & L3). unfold unmarshal_midi in H. rewrite L1, L2 in H.
  assert (L4 : Z.lor s ch = s + ch) by (apply lor_channel; [exact Hin|lia]).
  split; [|split; [lia|]];
  cbn [In] in Hin; destruct Hin as [<-|[<-|[<-|[<-|[<-|[<-|[<-|[]]]]]]]]; cbn [Z.eqb Pos.eqb] in H;
  repeat match type of H with
  | match ?d with [] => _ | _ :: _ => _ end = _ => destruct d; try discriminate
  | (if ?b then _ else _) = _ => destruct b; try discriminate
  end; bytes_inv;
  unfold make_note_off, make_note_on, make_polyphonic_pressure, make_controller, make_program_change, make_channel_pressure, make_pitch_bend in H;
  repeat match type of H with (if ?b then _ else _) = _ => destruct b; try discriminate end;
  apply Ok_inj in H; subst e; cbn [e_status e_body chan_body plain_note n_value]; auto; try (rewrite L4; reflexivity); try exact L3;
  repeat split; auto; lia.
Qed.

Lemma unmarshal_meta_kind : forall env tick delta ty data raw e,
  unmarshal_meta env tick delta ty data raw = Ok e -> e_status e = 255 /\
  match e_body e with
  | SysExContinuation _ _ | SysExMessage _ _ _ | SysExEscape _ | NoteOn _ _ _ | NoteOff _ _ _ | Controller _ _ _ | ProgramChange _ _ _ => False
  | _ => True end.
Proof.
  intros env tick delta ty data raw e H. unfold unmarshal_meta in H. destruct (text_kind ty).
  { apply Ok_inj in H. subst e. split; [reflexivity|exact I]. }
  unfold unmarshal_smpte, unmarshal_key, unmarshal_seqspec in H.
  repeat match type of H with
  | (if ?b then _ else _) = _ => destruct b
  | match ?d with [] => _ | _ :: _ => _ end = _ => destruct d
  | (let _ := _ in _) = _ => cbv zeta in H
  | match ?d with Some _ => _ | None => _ end = _ => destruct d
  end; try discriminate;
  unfold make_channel_prefix, make_port, make_smpte_offset, make_time_signature, make_key_signature in H;
  repeat match type of H with
  | (if ?b then _ else _) = _ => destruct b
  | match ?d with Some _ => _ | None => _ end = _ => destruct d
  | bind ?x _ = _ => destruct x; cbn [bind] in H
  end; try discriminate; apply Ok_inj in H; subst e; split; try reflexivity; exact I.
Qed.

(** What reading one event does to the context, apart from the post processing. *)
Lemma parse_effect : forall env c tick r e c1 rest, is_bytes r -> ctx_ok c ->
  parse env c tick r = Ok (e, c1, rest) ->
  c_running c1 = (if is_channel_status (e_status e) then e_status e else 0) /\
  c_casio c1 = open_step (c_casio c) e /\
  c_flats c1 = c_flats c /\ c_bank c1 = c_bank c /\ c_notes c1 = c_notes c /\
  chan_body (e_body e) /\ ctx_ok c1 /\ is_bytes rest /\
  (e_status e = 247 -> ((exists d f, e_body e = SysExContinuation d f) <-> c_casio c = true) /\
                       ((exists d, e_body e = SysExEscape d) <-> c_casio c = false)) /\
  (e_status e = 240 -> c_casio c = false /\ exists m d single, e_body e = SysExMessage m d single /\
                       single = (last (e_bytes e) 0 =? 247)) /\
  e_tick e = tick + e_delta e /\ 0 <= e_delta e < 4294967296 /\ r = e_bytes e ++ rest.
Proof.
  intros env c tick r e c1 rest Hr Hc H.
  destruct (parse_inv env c tick r e c1 rest Hr Hc H) as (p & delta & k & -> & Hs & Hp & (S1 & S2 & S3) & Hc1).
  pose proof (shape_delta _ _ _ _ Hs) as Hdelta.
  apply is_bytes_app in Hr as [Hbp Hbr].
  rewrite S2, S1, S3. destruct k as [st data|ty data|st data]; cbn [read_packet] in Hp.
  - assert (Hst : 128 <= st < 256) by (inversion Hs; subst; lia).
    assert (Hb : is_bytes data).
    { clear - Hs Hbp. inversion Hs; subst; apply is_bytes_app in Hbp as [_ Hbp]; [apply is_bytes_inv in Hbp as [_ Hbp]|]; assumption. }
    destruct (new_event _) as [x| | | |] eqn:E; try discriminate. cbn [bind] in Hp. injection Hp as <- <-.
    apply new_event_ok in E. destruct (unmarshal_midi_kind _ _ _ _ _ _ _ Hst Hb E) as (K1 & K2 & K3 & K4 & K5).
    unfold open_step, is_channel_status. rewrite K1.
    destruct (Z.leb_spec 128 st); [|lia]. destruct (Z.ltb_spec st 240); [|lia]. cbn [andb].
    destruct (Z.eqb_spec st 240); [lia|]. destruct (Z.eqb_spec st 247); [lia|].
    repeat (split; [solve [reflexivity|assumption|lia|intro; lia]|]). reflexivity.
  - destruct (new_event _) as [x| | | |] eqn:E; try discriminate. cbn [bind] in Hp. injection Hp as <- <-.
    apply new_event_ok in E. destruct (unmarshal_meta_kind _ _ _ _ _ _ _ E) as (K1 & K2).
    unfold open_step, is_channel_status. rewrite K1. cbn [Z.leb Z.ltb Z.compare Pos.compare Pos.compare_cont andb Z.eqb Pos.eqb].
    assert (chan_body (e_body x)) by (destruct (e_body x); try contradiction; exact I).
    repeat (split; [solve [reflexivity|assumption|lia|intro; lia|discriminate]|]). reflexivity.
  - assert (Hl : (last p 0 =? 247) = packet_f7 data /\ (st = 240 \/ st = 247)).
    { clear - Hs. inversion Hs; subst. match goal with H : reads_len ?l _ |- _ => destruct H as [Hv _] end. split; [|assumption].
      match goal with |- (last (?d ++ ?s :: ?l ++ ?x) 0 =? _) = _ => replace (d ++ s :: l ++ x) with ((d ++ [s]) ++ l ++ x) by (rewrite <- app_assoc; reflexivity) end.
      apply last_packet, Hv. }
    destruct Hl as [Hl Hst]. unfold open_step. rewrite S3, Hl.
    destruct (Z.eqb_spec st 240) as [->|Hn].
    + destruct (c_casio c) eqn:Ec; [discriminate|]. unfold unmarshal_sysex in Hp.
      destruct data as [|a [|b data]]; try discriminate. cbv zeta in Hp. cbn [packet_f7] in *.
      assert (EF : ends_f7 (a :: b :: data) = ends_f7 (b :: data)) by reflexivity. rewrite EF in *.
      destruct (ends_f7 (b :: data)) eqn:EE; cbn [bind] in Hp; apply Ok_inj in Hp; apply pair_equal_spec in Hp as [<- <-];
      cbn [make_sysex e_status e_body is_channel_status andb Z.eqb Pos.eqb Z.leb Z.ltb Z.compare Pos.compare Pos.compare_cont negb];
      cbn [set_casio set_running c_running c_casio c_flats c_bank c_notes chan_body];
      repeat (split; [solve [reflexivity|assumption|lia|intro; lia|discriminate
        |intros _; split; [reflexivity|]; eexists _, _, _; split; reflexivity]|]); reflexivity.
    + assert (st = 247) by lia. subst st. clear Hn Hst.
      destruct (c_casio c) eqn:Ec; cbn [bind] in Hp.
      * assert (Hu : exists d, unmarshal_continuation (tick + delta) delta data p = Ok (make_continuation (tick + delta) delta d false p)).
        { unfold unmarshal_continuation. destruct data; eexists; reflexivity. }
        destruct Hu as [d Hu]. rewrite Hu in Hp. cbn [bind] in Hp. apply Ok_inj in Hp; apply pair_equal_spec in Hp as [<- <-].
        cbn [make_continuation e_status e_body is_channel_status andb Z.eqb Pos.eqb Z.leb Z.ltb Z.compare Pos.compare Pos.compare_cont negb].
        cbn [set_casio set_running c_running c_casio c_flats c_bank c_notes chan_body].
        repeat (split; [solve [reflexivity|assumption|lia|intro; lia|discriminate
          |intros _; split; split; [reflexivity|eauto|intros [? ?]; discriminate|discriminate]]|]); reflexivity.
      * apply Ok_inj in Hp; apply pair_equal_spec in Hp as [<- <-].
        cbn [make_escape e_status e_body is_channel_status andb Z.eqb Pos.eqb Z.leb Z.ltb Z.compare Pos.compare Pos.compare_cont negb].
        cbn [set_casio set_running c_running c_casio c_flats c_bank c_notes chan_body].
        repeat (split; [solve [reflexivity|assumption|lia|intro; lia|discriminate
          |intros _; split; split; [intros [? [? ?]]; discriminate|discriminate|reflexivity|eauto]]|]); reflexivity.
Qed.

(** ** History *)

Definition bank_shown (pre : list event) (ch : Z) : Z :=
  128 * (latest_or_0 (select_msb ch) pre mod 64) + latest_or_0 (select_lsb ch) pre mod 64.

Definition hist (pre : list event) (c : ctx) : Prop :=
  c_running c = running_after pre /\ c_casio c = sysex_open pre /\ c_flats c = flats_in_force pre /\
  (forall ch, get_bank c ch = bank_shown pre ch) /\
  (forall ch n, 0 <= ch < 16 -> 0 <= n < 256 ->
     assoc (note_key ch n) (c_notes c) = latest (note_on_name ch n) pre).

Definition by_history (env : env) (pre : list event) (e : event) : Prop :=
  (e_status e = 247 -> ((exists d f, e_body e = SysExContinuation d f) <-> sysex_open pre = true) /\
                       ((exists d, e_body e = SysExEscape d) <-> sysex_open pre = false)) /\
  (e_status e = 240 -> sysex_open pre = false /\ exists m d single, e_body e = SysExMessage m d single /\
                       single = (last (e_bytes e) 0 =? 247)) /\
  match e_body e with
  | NoteOff ch n _ => n_name n =
      match latest (note_on_name ch (n_value n)) pre with
      | Some s => s
      | None => format_note env (flats_in_force pre) (n_value n)
      end
  | NoteOn _ n _ => n_name n = format_note env (flats_in_force pre) (n_value n)
  | ProgramChange ch b _ => b = bank_shown pre ch
  | _ => True
  end.

Lemma note_key_eq : forall ch n ch' n', 0 <= ch < 16 -> 0 <= n < 256 -> 0 <= ch' < 16 -> 0 <= n' < 256 ->
  (note_key ch n =? note_key ch' n') = (ch =? ch') && (n =? n').
Proof.
  assert (K : forall ch n, 0 <= ch < 16 -> 0 <= n < 256 -> note_key ch n = ch * 256 + n).
  { intros ch n Hc Hn. unfold note_key. rewrite Z.add_nocarry_lxor, Z.lxor_lor; auto.
    all: apply Z.bits_inj'; intros k Hk; rewrite Z.land_spec, Z.bits_0;
      destruct (Z_lt_le_dec k 8);
      [change 256 with (2 ^ 8); rewrite Z.mul_pow2_bits_low by lia; reflexivity
      |assert (B : Z.testbit n k = false);
       [replace n with (n mod 2 ^ 8) by (apply Z.mod_small; lia); apply Z.mod_pow2_bits_high; lia
       |rewrite B; apply andb_false_r]]. }
  intros. rewrite !K by assumption. lia.
Qed.

Lemma bank_bits : forall a b v, 0 <= a < 64 -> 0 <= b < 64 -> 0 <= v < 256 ->
  bank_msb (128 * a + b) v = 128 * (v mod 64) + b /\ bank_lsb (128 * a + b) v = 128 * a + v mod 64.
Proof.
  intros a b v Ha Hb Hv. unfold bank_msb, bank_lsb.
  assert (E : Z.land v 63 = v mod 64) by (change 63 with (Z.ones 6); rewrite Z.land_ones by lia; reflexivity).
  rewrite !E. remember (v mod 64) as w. assert (Hw : 0 <= w < 64) by lia.
  pose (rng := map Z.of_nat (seq 0 64)).
  assert (R : forall x, 0 <= x < 64 -> In x rng).
  { intros x Hx. unfold rng. apply in_map_iff. exists (Z.to_nat x). split; [lia|]. apply in_seq. lia. }
  assert (T1 : forallb (fun a => forallb (fun b => (Z.land (128 * a + b) 63 =? b) && (Z.land (128 * a + b) 8064 =? 128 * a)
     && (Z.lor b (Z.shiftl a 7) =? 128 * a + b) && (Z.lor (128 * a) b =? 128 * a + b)) rng) rng = true) by (vm_compute; reflexivity).
  rewrite forallb_forall in T1.
  assert (T : forall a b, 0 <= a < 64 -> 0 <= b < 64 -> Z.land (128 * a + b) 63 = b /\ Z.land (128 * a + b) 8064 = 128 * a
     /\ Z.lor b (Z.shiftl a 7) = 128 * a + b /\ Z.lor (128 * a) b = 128 * a + b).
  { intros x y Hx Hy. pose proof (T1 x (R x Hx)) as T2. rewrite forallb_forall in T2. pose proof (T2 y (R y Hy)) as T3. lia. }
  destruct (T a b Ha Hb) as (A1 & A2 & _ & _). destruct (T w b Hw Hb) as (_ & _ & A3 & _). destruct (T a w Ha Hw) as (_ & _ & _ & A4).
  rewrite A1, A2, A3, A4. split; reflexivity.
Qed.

Lemma post_step : forall env pre c1 e e' c2 c, hist pre c -> chan_body (e_body e) ->
  c_running c1 = (if is_channel_status (e_status e) then e_status e else 0) ->
  c_casio c1 = open_step (c_casio c) e -> c_flats c1 = c_flats c -> c_bank c1 = c_bank c -> c_notes c1 = c_notes c ->
  (e_status e = 247 -> ((exists d f, e_body e = SysExContinuation d f) <-> c_casio c = true) /\
                       ((exists d, e_body e = SysExEscape d) <-> c_casio c = false)) ->
  (e_status e = 240 -> c_casio c = false /\ exists m d single, e_body e = SysExMessage m d single /\
                       single = (last (e_bytes e) 0 =? 247)) ->
  post_process env c1 e = (e', c2) -> hist (pre ++ [e']) c2 /\ by_history env pre e'.
Proof.
  intros env pre c1 e e' c2 c (H1 & H2 & H3 & H4 & H5) Hb E1 E2 E3 E4 E5 F7 F0 H.
  assert (GB : forall ch, get_bank c1 ch = bank_shown pre ch) by (intro ch; rewrite <- H4; unfold get_bank; rewrite E4; reflexivity).
  assert (Common : forall b, e_body e' = b -> e_status e' = e_status e -> e_bytes e' = e_bytes e ->
     c_running c2 = c_running c1 -> c_casio c2 = c_casio c1 ->
     c_running c2 = running_after (pre ++ [e']) /\ c_casio c2 = sysex_open (pre ++ [e'])).
  { intros b _ Es Eb R1 R2. rewrite running_snoc, open_snoc, <- H2. unfold open_step in *. rewrite Es, Eb, R1, R2. auto. }
  assert (Bank : forall e0 c0, (forall ch, select_msb ch e0 = None) -> (forall ch, select_lsb ch e0 = None) -> c_bank c0 = c_bank c1 ->
     forall ch, get_bank c0 ch = bank_shown (pre ++ [e0]) ch).
  { intros e0 c0 N1 N2 Ec ch. unfold bank_shown, latest_or_0. rewrite !latest_snoc, N1, N2.
    fold (latest_or_0 (select_msb ch) pre) (latest_or_0 (select_lsb ch) pre). fold (bank_shown pre ch).
    rewrite <- GB. unfold get_bank. rewrite Ec. reflexivity. }
  unfold flats_in_force in *. rewrite H3 in E3.
  unfold post_process in H. unfold by_history. rewrite <- H2.
  destruct (e_body e) eqn:Eb;
  try (injection H as <- <-; rewrite Eb; split; [|split; [exact F7|split; [exact F0|exact I]]];
       split; [|split]; [eapply Common; eauto|eapply Common; eauto|];
       split; [unfold flats_in_force; rewrite latest_snoc; unfold key_flats; rewrite Eb; exact E3|]; split;
       [apply Bank; [intro; unfold select_msb; rewrite Eb; reflexivity|intro; unfold select_lsb; rewrite Eb; reflexivity|reflexivity]
       |intros ch0 n0 Hch Hn; rewrite latest_snoc; unfold note_on_name at 1; rewrite Eb, E5; apply H5; assumption]).
  - (* NoteOff *)
    injection H as <- <-. unfold with_body. cbn [e_status e_bytes e_body n_name n_value].
    split; [|split; [intros X; exfalso; destruct (F7 X) as [[A1 A2] [A3 A4]]; destruct (c_casio c); [destruct (A2 eq_refl) as [? [? ?]]; discriminate|destruct (A4 eq_refl); discriminate]|split;
      [intros X; exfalso; destruct (F0 X) as (_ & ? & ? & ? & ? & _); discriminate|]]].
    + split; [|split]; [eapply Common; eauto|eapply Common; eauto|].
      split; [unfold flats_in_force; rewrite latest_snoc; exact E3|]. split.
      * apply Bank; reflexivity.
      * intros ch0 n0 Hch Hn. rewrite latest_snoc, E5. apply H5; assumption.
    + unfold get_note_off. destruct Hb as [Hb1 Hb2]. rewrite E5, H5, E3 by assumption. reflexivity.
  - (* NoteOn *)
    injection H as <- <-. unfold with_body. cbn [e_status e_bytes e_body n_name n_value].
    split; [|split; [intros X; exfalso; destruct (F7 X) as [[A1 A2] [A3 A4]]; destruct (c_casio c); [destruct (A2 eq_refl) as [? [? ?]]; discriminate|destruct (A4 eq_refl); discriminate]|split;
      [intros X; exfalso; destruct (F0 X) as (_ & ? & ? & ? & ? & _); discriminate|]]].
    + split; [|split]; [eapply Common; eauto|eapply Common; eauto|].
      split; [unfold flats_in_force; rewrite latest_snoc; exact E3|]. split.
      * apply Bank; reflexivity.
      * intros ch0 n0 Hch Hn. rewrite latest_snoc. destruct Hb as [Hb1 Hb2].
        unfold note_on_name at 1. cbn [e_body n_value n_name put_note_on c_notes assoc].
        rewrite note_key_eq by assumption.
        destruct ((ch0 =? ch) && (n0 =? n_value n)) eqn:EQ; [reflexivity|].
        rewrite E5. apply H5; assumption.
    + cbn [put_note_on c_flats]. rewrite E3. reflexivity.
  - (* Controller *)
    destruct Hb as [Hb1 Hb2].
    assert (BB : forall ch, exists a b, 0 <= a < 64 /\ 0 <= b < 64 /\ get_bank c1 ch = 128 * a + b
       /\ a = latest_or_0 (select_msb ch) pre mod 64 /\ b = latest_or_0 (select_lsb ch) pre mod 64).
    { intro ch0. exists (latest_or_0 (select_msb ch0) pre mod 64), (latest_or_0 (select_lsb ch0) pre mod 64).
      rewrite GB. unfold bank_shown. repeat split; lia. }
    assert (BH : (e_status e = 247 -> ((exists d f, Controller ch c0 value = SysExContinuation d f) <-> c_casio c = true) /\
                       ((exists d, Controller ch c0 value = SysExEscape d) <-> c_casio c = false)) /\
      (e_status e = 240 -> c_casio c = false /\ exists m d single, Controller ch c0 value = SysExMessage m d single /\
                       single = (last (e_bytes e) 0 =? 247)) /\ True) by auto.
    assert (Fl : forall c3, c_flats c3 = c_flats c1 -> c_flats c3 = match latest key_flats (pre ++ [e]) with Some b => b | None => false end).
    { intros c3 E. rewrite latest_snoc. unfold key_flats. rewrite Eb, E. exact E3. }
    assert (Nt : forall c3, c_notes c3 = c_notes c1 -> forall ch n, 0 <= ch < 16 -> 0 <= n < 256 ->
       assoc (note_key ch n) (c_notes c3) = latest (note_on_name ch n) (pre ++ [e])).
    { intros c3 E ch1 n1 A1 A2. rewrite latest_snoc. unfold note_on_name at 1. rewrite Eb, E, E5. apply H5; assumption. }
    assert (Sel : forall ch1 id, match e_body e with Controller ch' k v => if (ch1 =? ch') && (c_id k =? id) then Some v else None | _ => None end
       = if (ch1 =? ch) && (c_id c0 =? id) then Some value else None) by (intros; rewrite Eb; reflexivity).
    destruct (c_id c0 =? 0) eqn:E0; [|destruct (c_id c0 =? 32) eqn:E32]; injection H as <- <-; rewrite Eb;
    (split; [|exact BH]); (split; [|split]; [eapply Common; eauto|eapply Common; eauto|]); (split; [apply Fl; reflexivity|]); (split; [|apply Nt; reflexivity]);
    intro ch1; unfold bank_shown, latest_or_0; rewrite !latest_snoc; unfold select_msb at 1, select_lsb at 1; rewrite !Sel; rewrite E0.
    + assert (E32 : c_id c0 =? 32 = false) by lia. rewrite E32, andb_true_r, andb_false_r.
      fold (latest_or_0 (select_msb ch1) pre) (latest_or_0 (select_lsb ch1) pre).
      unfold get_bank at 1. cbn [set_bank c_bank assoc]. destruct (Z.eqb_spec ch1 ch) as [->|Hne].
      * destruct (BB ch) as (a & b & Ha & Hbb & EB & Ea & Ebb). rewrite EB. rewrite (proj1 (bank_bits a b value Ha Hbb Hb2)). subst a b. reflexivity.
      * fold (get_bank c1 ch1). rewrite GB. reflexivity.
    + rewrite E32, andb_false_r, andb_true_r.
      fold (latest_or_0 (select_msb ch1) pre) (latest_or_0 (select_lsb ch1) pre).
      unfold get_bank at 1. cbn [set_bank c_bank assoc]. destruct (Z.eqb_spec ch1 ch) as [->|Hne].
      * destruct (BB ch) as (a & b & Ha & Hbb & EB & Ea & Ebb). rewrite EB. rewrite (proj2 (bank_bits a b value Ha Hbb Hb2)). subst a b. reflexivity.
      * fold (get_bank c1 ch1). rewrite GB. reflexivity.
    + rewrite E32, !andb_false_r. fold (latest_or_0 (select_msb ch1) pre) (latest_or_0 (select_lsb ch1) pre). rewrite GB. reflexivity.
  - (* ProgramChange *)
    injection H as <- <-. unfold with_body. cbn [e_status e_bytes e_body n_name n_value].
    split; [|split; [intros X; exfalso; destruct (F7 X) as [[A1 A2] [A3 A4]]; destruct (c_casio c); [destruct (A2 eq_refl) as [? [? ?]]; discriminate|destruct (A4 eq_refl); discriminate]|split;
      [intros X; exfalso; destruct (F0 X) as (_ & ? & ? & ? & ? & _); discriminate|]]].
    + split; [|split]; [eapply Common; eauto|eapply Common; eauto|].
      split; [unfold flats_in_force; rewrite latest_snoc; exact E3|]. split.
      * apply Bank; reflexivity.
      * intros ch0 n0 Hch Hn. rewrite latest_snoc, E5. apply H5; assumption.
    + rewrite GB. reflexivity.
  - (* KeySignature *)
    injection H as <- <-. rewrite Eb. split; [|split; [exact F7|split; [exact F0|exact I]]].
    split; [|split]; [eapply Common; eauto|eapply Common; eauto|].
    split; [unfold flats_in_force; rewrite latest_snoc; unfold key_flats; rewrite Eb; reflexivity|]. split.
    + apply Bank; [intro; unfold select_msb; rewrite Eb; reflexivity|intro; unfold select_lsb; rewrite Eb; reflexivity|reflexivity].
    + intros ch0 n0 Hch Hn. rewrite latest_snoc. unfold note_on_name at 1. rewrite Eb. cbn [use_scale c_notes]. rewrite E5. apply H5; assumption.
Qed.

Lemma hist_new : hist [] new_context.
Proof. repeat split. Qed.

Lemma loop_history : forall n env pre c tick r es c', (length r <= n)%nat -> is_bytes r -> ctx_ok c -> hist pre c ->
  loop_from env c tick r = Ok (es, c') ->
  hist (pre ++ es) c' /\ forall i e, nth_error es i = Some e -> by_history env (pre ++ firstn i es) e.
Proof.
  induction n as [|n IH]; intros env pre c tick r es c' Hn Hr Hc Hh H; rewrite loop_from_eq in H.
  - destruct r; [|cbn in Hn; lia]. injection H as <- <-. rewrite app_nil_r. split; [assumption|].
    intros i e Hi. destruct i; discriminate.
  - destruct (parse env c tick r) as [[[e c1] rest]| | | |] eqn:E; try discriminate.
    2:{ injection H as <- <-. rewrite app_nil_r. split; [assumption|]. intros i e Hi. destruct i; discriminate. }
    pose proof (parse_shorter _ _ _ _ _ _ _ E) as Hsh.
    destruct (parse_effect env c tick r e c1 rest Hr Hc E) as (P1 & P2 & P3 & P4 & P5 & P6 & P7 & P8 & P9 & P10 & P11).
    destruct (post_process env c1 e) as [e' c2] eqn:Epp.
    destruct (post_step env pre c1 e e' c2 c Hh P6 P1 P2 P3 P4 P5 P9 P10 Epp) as [Hh2 By].
    destruct (post_process_facts _ _ _ _ _ Epp) as (_ & _ & _ & R4).
    destruct (loop_from env c2 ((tick + e_delta e) mod 4294967296) rest) as [[es2 c3]| | | |] eqn:EL; try discriminate.
    cbn [bind] in H. apply Ok_inj in H. apply pair_equal_spec in H as [<- <-].
    assert (Hc2 : ctx_ok c2) by (unfold ctx_ok in *; rewrite R4; assumption).
    destruct (IH env (pre ++ [e']) c2 _ rest es2 c3 ltac:(lia) P8 Hc2 Hh2 EL) as [I1 I2].
    rewrite <- app_assoc in I1. split; [exact I1|].
    intros [|i] e0 Hi; cbn [nth_error firstn] in *.
    + injection Hi as <-. rewrite app_nil_r. exact By.
    + specialize (I2 i e0 Hi). rewrite <- app_assoc in I2. exact I2.
Qed.

(** ** Raw bytes do not matter (C15, C17) *)

Definition strip1 {A} (x : outcome (event * A)) : outcome (event * A) :=
  match x with Ok (e, a) => Ok (no_bytes e, a) | Err => Err | Eof => Eof | Panic => Panic | Loop => Loop end.

Lemma unmarshal_midi_raw : forall env tick delta st data raw raw',
  match unmarshal_midi env tick delta st data raw, unmarshal_midi env tick delta st data raw' with
  | Ok e, Ok e' => no_bytes e = no_bytes e'
  | Err, Err | Eof, Eof | Panic, Panic | Loop, Loop => True
  | _, _ => False
  end.
Proof.
  intros. unfold unmarshal_midi, make_note_off, make_note_on, make_polyphonic_pressure, make_controller,
    make_program_change, make_channel_pressure, make_pitch_bend.
  repeat match goal with
  | |- context[if ?c then _ else _] => destruct c
  | |- context[match data with _ => _ end] => destruct data as [|? data]
  end; try exact I; try reflexivity;
  repeat match goal with
  | |- context[match ?d with [] => _ | _ => _ end] => destruct d
  | |- context[if ?c then _ else _] => destruct c
  end; try exact I; try reflexivity.
Qed.

Lemma post_process_raw : forall env c e e' , no_bytes e = no_bytes e' ->
  snd (post_process env c e) = snd (post_process env c e') /\
  no_bytes (fst (post_process env c e)) = no_bytes (fst (post_process env c e')) /\ e_delta e = e_delta e'.
Proof.
  intros env c [t d b s ty bo] [t' d' b' s' ty' bo'] H. unfold no_bytes in H. cbn in H. injection H as -> -> -> -> ->.
  unfold post_process. cbn [e_body].
  destruct bo'; try (repeat split; reflexivity). destruct (c_id c0 =? 0); [repeat split; reflexivity|].
  destruct (c_id c0 =? 32); repeat split; reflexivity.
Qed.

Lemma without_cons : forall e e' x x', no_bytes e = no_bytes e' -> without_bytes x = without_bytes x' ->
  without_bytes (do (es, c) <- x; Ok (e :: es, c)) = without_bytes (do (es, c) <- x'; Ok (e' :: es, c)).
Proof.
  intros e e' x x' He H. destruct x as [[es c]| | | |], x' as [[es' c']| | | |]; try discriminate; try reflexivity.
  cbn in *. injection H as H1 H2. congruence.
Qed.

Lemma without_app : forall es0 x x', without_bytes x = without_bytes x' ->
  without_bytes (do (es, c) <- x; Ok (es0 ++ es, c)) = without_bytes (do (es, c) <- x'; Ok (es0 ++ es, c)).
Proof.
  intros es0 x x' H. destruct x as [[es c]| | | |], x' as [[es' c']| | | |]; try discriminate; try reflexivity.
  cbn in *. injection H as H1 H2. rewrite !map_app. congruence.
Qed.

(** The loop only depends on what [parse] returns, up to raw bytes. *)
Lemma loop_parse_raw : forall env c tick r r',
  match parse env c tick r, parse env c tick r' with
  | Ok (e, c1, rest), Ok (e', c1', rest') => no_bytes e = no_bytes e' /\ c1 = c1' /\
      (forall c2 t, c_running c2 = c_running c1 -> without_bytes (loop_from env c2 t rest) = without_bytes (loop_from env c2 t rest'))
  | Err, Err | Eof, Eof | Panic, Panic | Loop, Loop => True
  | _, _ => False
  end -> without_bytes (loop_from env c tick r) = without_bytes (loop_from env c tick r').
Proof.
  intros env c tick r r' H. rewrite (loop_from_eq env c tick r), (loop_from_eq env c tick r').
  destruct (parse env c tick r) as [[[e c1] rest]| | | |], (parse env c tick r') as [[[e' c1'] rest']| | | |]; try contradiction; try reflexivity.
  destruct H as (He & -> & Hr). pose proof (post_process_raw env c1' e e' He) as (P1 & P2 & P3).
  destruct (post_process env c1' e) as [f c2] eqn:Epp, (post_process env c1' e') as [f' c2']. cbn [fst snd] in *. subst c2'.
  rewrite P3. apply without_cons; [exact P2|apply Hr]. apply post_process_facts in Epp. tauto.
Qed.

Lemma parse_running_explicit : forall env c tick d delta b x, reads d delta -> 0 <= b < 128 -> 128 <= c_running c < 240 ->
  match parse env c tick (d ++ b :: x), parse env c tick (d ++ c_running c :: b :: x) with
  | Ok (e, c1, rest), Ok (e', c1', rest') => no_bytes e = no_bytes e' /\ c1 = c1' /\
      (forall c2 t, c_running c2 = c_running c1 -> without_bytes (loop_from env c2 t rest) = without_bytes (loop_from env c2 t rest'))
  | Err, Err | Eof, Eof | Panic, Panic | Loop, Loop => True
  | _, _ => False
  end.
Proof.
  intros env c tick d delta b x Hd Hb Hc. set (s := c_running c) in *.
  destruct (Nat.ltb_spec (length (b :: x)) (data_length s)) as [L|L].
  - unfold parse. rewrite !(delta_stream d delta) by assumption. cbn [bind]. fold s.
    destruct (Z.ltb_spec b 128); [|lia]. destruct (Z.ltb_spec s 128); [lia|]. cbn [andb].
    destruct (Z.eqb_spec s 255); [lia|]. destruct (Z.eqb_spec s 240); [lia|]. destruct (Z.eqb_spec s 247); [lia|]. cbn [orb].
    destruct (Nat.ltb_spec (length (b :: x)) (data_length s)); [exact I|lia].
  - pose proof (data_length_cases s Hc) as Hn. set (m := data_length s) in *.
    assert (E : b :: x = firstn m (b :: x) ++ skipn m (b :: x)) by (rewrite firstn_skipn; reflexivity).
    set (data := firstn m (b :: x)) in *. set (rest := skipn m (b :: x)) in *.
    assert (Hl : length data = data_length s) by (unfold data; rewrite firstn_length; fold m; lia).
    rewrite E.
    rewrite (parse_running env c tick d delta data rest Hd Hc Hl); [|unfold data; destruct m; [lia|discriminate]|unfold data; destruct m; [lia|cbn; lia]].
    rewrite (parse_status env c tick d delta s data rest Hd Hc Hl). fold s.
    pose proof (unmarshal_midi_raw env (tick + delta) delta s data (d ++ data) (d ++ s :: data)) as U.
    destruct (unmarshal_midi env (tick + delta) delta s data (d ++ data)), (unmarshal_midi env (tick + delta) delta s data (d ++ s :: data));
      try contradiction; cbn [new_event bind]; try exact I.
    split; [exact U|]. split; [unfold s; symmetry; apply set_running_same|reflexivity].
Qed.

Theorem running_status : forall env p es c', is_bytes p -> decode_events env new_context p = Ok (es, c') ->
  concat (map e_bytes es) = p -> forall d delta b x, reads d delta -> 0 <= b < 128 ->
  (running_after es = 0 -> decode_events env new_context (p ++ d ++ b :: x) = Err) /\
  (forall st, running_after es = st -> st <> 0 ->
     without_bytes (decode_events env new_context (p ++ d ++ b :: x)) =
     without_bytes (decode_events env new_context (p ++ d ++ st :: b :: x))).
Proof.
  intros env p es c' Hp H Hc d delta b x Hd Hb. rewrite !decode_events_eq in *.
  assert (C0 : ctx_ok new_context) by (left; reflexivity).
  destruct (loop_history (length p) env [] new_context 0 p es c' (le_n _) Hp C0 hist_new H) as [(H1 & _) _]. cbn [app] in H1.
  destruct (loop_facts (length p) env new_context 0 p es c' (le_n _) Hp C0 H) as (Hok & _ & _).
  assert (A : forall q, loop_from env new_context 0 (p ++ q) =
    do (es2, c2) <- loop_from env c' ((0 + total es) mod 4294967296) q; Ok (es ++ es2, c2)).
  { intro q. apply loop_app with (n := length p); auto. lia. }
  split.
  - intro R. rewrite A. rewrite loop_from_eq. unfold parse. rewrite (delta_stream d delta) by assumption. cbn [bind].
    rewrite H1, R. destruct (Z.ltb_spec b 128); [|lia]. reflexivity.
  - intros st Hst Hne. rewrite decode_events_eq, !A. apply without_app. apply loop_parse_raw.
    assert (Hcr : c_running c' = st) by congruence. rewrite <- Hcr.
    apply parse_running_explicit with (delta := delta); try assumption. destruct Hok as [Hok|Hok]; [lia|exact Hok].
Qed.

(** ** Running status compression (C15) *)

Lemma framed_shape : forall c d delta w, reads d delta -> framed w -> exists k, shape c (d ++ w) delta k /\
  (128 <= hd 0 w < 240 -> exists data, k = PChan (hd 0 w) data).
Proof.
  intros c d delta w Hd Hf. destruct Hf as [st data H1 H2 H3|ty l data H1|st l data H1 H2]; eexists; (split; [|cbn [hd]; intro; try lia; eexists; reflexivity]).
  - apply sh_status; auto; lia.
  - apply sh_meta; auto. apply length_reads; assumption.
  - apply sh_sys; auto. apply length_reads; assumption.
Qed.

Definition note_status (s : Z) : Prop := Z.land s 240 = 128 \/ Z.land s 240 = 144.

Lemma note_status_range : forall s, 0 <= s < 256 -> note_status s -> 128 <= s < 160.
Proof.
  intros s H N.
  pose proof (byte_sweep (fun s => if (Z.land s 240 =? 128) || (Z.land s 240 =? 144) then (128 <=? s) && (s <? 160) else true)
    ltac:(vm_compute; reflexivity) s H) as E. cbn beta in E. unfold note_status in N.
  replace ((Z.land s 240 =? 128) || (Z.land s 240 =? 144)) with true in E by lia. lia.
Qed.

Lemma framed_hd : forall w, framed w -> 0 <= hd 0 w < 256 /\ w <> [].
Proof. intros w H. destruct H; cbn [hd]; split; try discriminate; lia. Qed.

Lemma read_packet_running : forall env c tick delta k raw e c' p, ctx_ok c -> shape (c_running c) p delta k ->
  read_packet env c tick delta k raw = Ok (e, c') ->
  match k with PChan st _ => c_running c' = st | _ => c_running c' = 0 end.
Proof.
  intros env c tick delta k raw e c' p Hc Hs H. destruct k as [st data|ty data|st data]; cbn [read_packet] in H.
  - destruct (new_event _); try discriminate. cbn [bind] in H. injection H as <- <-. reflexivity.
  - destruct (new_event _); try discriminate. cbn [bind] in H. injection H as <- <-. reflexivity.
  - destruct (st =? 240); [destruct (c_casio c); [discriminate|]|];
    match type of H with bind ?x _ = _ => destruct x; try discriminate end; cbn [bind] in H; injection H as <- <-; reflexivity.
Qed.

Lemma plain_chunks : forall es p, plain_track es p -> exists cs, marshal_events es = Ok cs /\ flatten cs = p /\
  Forall (fun c => (exists delta, reads (fst c) delta) /\ framed (snd c)) cs.
Proof.
  intros es p H. induction H as [|e w es p Hd Hm Hf Hp (cs & E1 & E2 & E3)]; [exists []; repeat split; constructor|].
  exists ((vlq_encode (e_delta e), w) :: cs). cbn [marshal_events]. rewrite Hm. cbn [bind]. rewrite E1. cbn [bind].
  split; [reflexivity|]. split; [unfold flatten in *; cbn [map concat fst snd]; rewrite E2, <- app_assoc; reflexivity|].
  constructor; [|assumption]. cbn [fst snd]. split; [|assumption]. eexists. apply delta_reads, delta_field_encode, Hd.
Qed.

Lemma compression_step : forall env cs last c tick,
  Forall (fun c => (exists delta, reads (fst c) delta) /\ framed (snd c)) cs -> ctx_ok c ->
  (forall l, last = Some l -> 0 <= l < 256 /\ (note_status l -> c_running c = l)) ->
  without_bytes (loop_from env c tick (flatten (running_status_fixup last cs))) =
  without_bytes (loop_from env c tick (flatten cs)).
Proof.
  intros env cs. induction cs as [|[d w] cs IH]; intros last c tick Hf Hc Hl; [reflexivity|].
  inversion Hf as [|? ? [[delta Hd] Hw] Hcs]; subst. cbn [fst snd] in *.
  cbn [running_status_fixup].
  set (strip := match last with Some l => ((Z.land (hd 0 w) 240 =? 128) || (Z.land (hd 0 w) 240 =? 144)) && (hd 0 w =? l) | None => false end).
  assert (E : (match last with Some l => if ((Z.land (hd 0 w) 240 =? 128) || (Z.land (hd 0 w) 240 =? 144)) && (hd 0 w =? l) then tl w else w | None => w end)
     = if strip then tl w else w) by (unfold strip; destruct last; reflexivity).
  rewrite E. clear E. destruct (framed_hd w Hw) as [Hhd Hne].
  unfold flatten. cbn [map concat fst snd]. rewrite <- !app_assoc.
  fold (flatten cs). match goal with |- context[concat (map ?f ?x)] => fold (flatten x) end.
  destruct strip eqn:ES.
  - (* the status byte is left out *)
    destruct last as [l|]; [|discriminate]. unfold strip in ES. apply andb_prop in ES as [E1 E2].
    assert (Hls : hd 0 w = l) by lia. destruct (Hl l eq_refl) as [Hlr Hrun].
    assert (N : note_status l) by (unfold note_status; rewrite <- Hls; lia).
    pose proof (note_status_range l Hlr N) as Nr. specialize (Hrun N).
    destruct Hw as [st data H1 H2 H3|ty lf data H1|st lf data H1 H2]; cbn [hd tl] in *; try lia.
    rewrite Hls in *. rewrite message_length_eq in H2 by lia.
    assert (Hdn : data <> []) by (destruct data; [pose proof (data_length_cases l ltac:(lia)); cbn in H2; lia|discriminate]).
    destruct data as [|b data]; [congruence|]. pose proof (H3 ltac:(lia)) as Hb. cbn [hd] in Hb |- *.
    apply loop_parse_raw.
    rewrite <- Hrun.
    rewrite (parse_running env c tick d delta (b :: data) _ Hd); [|lia|rewrite Hrun; exact H2|discriminate|cbn; lia].
    change ((c_running c :: b :: data) ++ flatten cs) with (c_running c :: (b :: data) ++ flatten cs).
    rewrite (parse_status env c tick d delta (c_running c) (b :: data) _ Hd); [|lia|rewrite Hrun; exact H2].
    pose proof (unmarshal_midi_raw env (tick + delta) delta (c_running c) (b :: data) (d ++ b :: data) (d ++ c_running c :: b :: data)) as U.
    destruct (unmarshal_midi env (tick + delta) delta (c_running c) (b :: data) (d ++ b :: data)),
      (unmarshal_midi env (tick + delta) delta (c_running c) (b :: data) (d ++ c_running c :: b :: data));
      try contradiction; cbn [new_event bind]; try exact I.
    split; [exact U|]. split; [symmetry; apply set_running_same|]. intros c2 t Er.
    apply IH; auto; [unfold ctx_ok in *; rewrite Er; assumption|].
    intros l0 E0. injection E0 as <-. split; [lia|]. intro Nb. exfalso. apply note_status_range in Nb; lia.
  - (* the event is written in full *)
    destruct (framed_shape (c_running c) d delta w Hd Hw) as (k & Hs & Hk).
    apply loop_parse_raw. rewrite !app_assoc.
    rewrite !(parse_shape env c tick (d ++ w) delta k _ Hs).
    destruct (read_packet env c tick delta k (d ++ w)) as [[e c1]| | | |] eqn:ER; cbn [bind]; try exact I.
    split; [reflexivity|]. split; [reflexivity|]. intros c2 t Er.
    pose proof (read_packet_facts _ _ _ _ _ _ _ _ _ Hc Hs ER) as [_ Hc1].
    apply IH; auto; [unfold ctx_ok in *; rewrite Er; assumption|].
    intros l0 E0. injection E0 as <-. split; [assumption|]. intro Nl. rewrite Er.
    pose proof (read_packet_running _ _ _ _ _ _ _ _ _ Hc Hs ER) as RR.
    apply note_status_range in Nl; [|assumption].
    destruct (Hk ltac:(lia)) as [data ->]. exact RR.
Qed.

Theorem compression_transparent : forall env t plain, plain_track (t_events t) plain ->
  exists body, encode_mtrk t = Ok (t_tag t ++ be32 (zlen body mod 4294967296) ++ body) /\
    without_bytes (decode_events env new_context body) = without_bytes (decode_events env new_context plain).
Proof.
  intros env t plain H. destruct (plain_chunks _ _ H) as (cs & E1 & <- & E3).
  exists (flatten (running_status_fixup None cs)). unfold encode_mtrk. rewrite E1. cbn [bind]. split; [reflexivity|].
  rewrite !decode_events_eq. apply compression_step; auto; [left; reflexivity|discriminate].
Qed.

Lemma legal_framed : forall e, legal_event e -> 0 <= e_delta e <= vlq_max /\ exists w, marshal e = Ok w /\ framed w.
Proof.
  intros e He. destruct (marshal_form e He) as (w & Ew & Hf). destruct He as (_ & Hd & _). split; [assumption|].
  exists w. split; [assumption|]. destruct Hf.
  - destruct (chan_msg_facts _ _ _ H) as (F1 & F2 & F3 & F4). apply fr_chan; auto.
    + rewrite message_length_eq by lia. assumption.
    + intros _. split; [|assumption]. apply is_bytes_inv in H0 as [_ H0]. destruct data; [congruence|]. apply is_bytes_inv in H0 as [H0 _]. cbn. lia.
  - apply fr_meta; assumption.
  - apply fr_sys; auto.
  - apply fr_sys; auto.
  - apply fr_sys; auto.
Qed.

Lemma legal_plain : forall es, Forall legal_event es -> exists p, plain_track es p.
Proof.
  intros es H. induction H as [|e es He Hes [p Hp]]; [exists []; constructor|].
  destruct (legal_framed e He) as (Hd & w & Ew & Hw). eexists. apply pt_cons; eauto.
Qed.

(** ** Whole tracks (C14, C18, C19, C54) *)

Lemma total_eq : forall es, total es = total_delta es.
Proof. induction es as [|e es IH]; [reflexivity|]. cbn [total total_delta fold_right] in *. unfold total_delta in IH. lia. Qed.

Theorem ticks : forall env r es c', is_bytes r -> decode_events env new_context r = Ok (es, c') ->
  forall i e, nth_error es i = Some e ->
    e_tick e = total_delta (firstn i es) mod 4294967296 + e_delta e /\ 0 <= e_delta e.
Proof.
  intros env r es c' Hr H i e Hi. rewrite decode_events_eq in H.
  destruct (loop_facts (length r) env new_context 0 r es c' (le_n _) Hr ltac:(left; reflexivity) H) as (_ & _ & T).
  destruct (T ltac:(lia) i e Hi) as [T1 T2]. rewrite total_eq in T1. rewrite Z.add_0_l in T1. lia.
Qed.

Lemma total_nonneg : forall es, Forall (fun e => 0 <= e_delta e) es -> 0 <= total_delta es.
Proof. intros es H. unfold total_delta. induction H; cbn [fold_right]; lia. Qed.

Lemma firstn_snoc : forall A (l : list A) i x, nth_error l i = Some x -> firstn (S i) l = firstn i l ++ [x].
Proof.
  induction l as [|y l IH]; intros [|i] x H; try discriminate.
  - injection H as ->. reflexivity.
  - cbn [nth_error] in H. change (firstn (S (S i)) (y :: l)) with (y :: firstn (S i) l). rewrite (IH i x H). reflexivity.
Qed.

Lemma total_app : forall a b, total_delta (a ++ b) = total_delta a + total_delta b.
Proof. induction a as [|x a IH]; intro b; [reflexivity|]. unfold total_delta in *. cbn [app fold_right]. rewrite IH. lia. Qed.

Lemma nth_Forall : forall A (P : A -> Prop) l, (forall i x, nth_error l i = Some x -> P x) -> Forall P l.
Proof.
  intros A P l H. apply Forall_forall. intros x Hx. apply In_nth_error in Hx as [i Hi]. eapply H, Hi.
Qed.

Theorem ticks_sum : forall env r es c', is_bytes r -> decode_events env new_context r = Ok (es, c') ->
  total_delta es < 4294967296 ->
  (forall i e, nth_error es i = Some e -> e_tick e = total_delta (firstn (S i) es)) /\
  (forall i j e f, (i <= j)%nat -> nth_error es i = Some e -> nth_error es j = Some f -> e_tick e <= e_tick f).
Proof.
  intros env r es c' Hr H Ht. pose proof (ticks env r es c' Hr H) as T.
  assert (P : Forall (fun e => 0 <= e_delta e) es) by (apply nth_Forall; intros i x Hi; apply (T i x Hi)).
  assert (PS : forall i, 0 <= total_delta (firstn i es) <= total_delta es).
  { intro i. rewrite <- (firstn_skipn i es) at 3. rewrite total_app.
    assert (Forall (fun e => 0 <= e_delta e) (firstn i es) /\ Forall (fun e => 0 <= e_delta e) (skipn i es)) as [F1 F2]
      by (apply Forall_app; rewrite firstn_skipn; exact P).
    pose proof (total_nonneg _ F1). pose proof (total_nonneg _ F2). lia. }
  assert (A : forall i e, nth_error es i = Some e -> e_tick e = total_delta (firstn (S i) es)).
  { intros i e Hi. destruct (T i e Hi) as [T1 T2]. rewrite (firstn_snoc _ es i e Hi), total_app, T1.
    rewrite Z.mod_small by (pose proof (PS i); lia). unfold total_delta at 3. cbn [fold_right]. lia. }
  split; [exact A|]. intros i j e f Hij Hi Hj. rewrite (A i e Hi), (A j f Hj).
  replace (firstn (S j) es) with (firstn (S i) es ++ firstn (S j - S i) (skipn (S i) es)).
  - rewrite total_app. assert (0 <= total_delta (firstn (S j - S i) (skipn (S i) es))); [|lia]. apply total_nonneg.
    apply Forall_forall. intros x Hx. rewrite Forall_forall in P. apply P. rewrite <- (firstn_skipn (S i) es). apply in_or_app. right.
    rewrite <- (firstn_skipn (S j - S i) (skipn (S i) es)). apply in_or_app. left. exact Hx.
  - rewrite <- (firstn_skipn (S i) (firstn (S j) es)). rewrite firstn_firstn, skipn_firstn_comm. replace (Nat.min (S i) (S j)) with (S i) by lia. reflexivity.
Qed.

Theorem bytes_accounted : forall env r es c', is_bytes r -> decode_events env new_context r = Ok (es, c') ->
  exists rest, r = concat (map e_bytes es) ++ rest /\
    (forall p x delta k, rest = p ++ x -> ~ shape (running_after es) p delta k).
Proof.
  intros env r es c' Hr H. rewrite decode_events_eq in H.
  assert (C0 : ctx_ok new_context) by (left; reflexivity).
  destruct (loop_facts (length r) env new_context 0 r es c' (le_n _) Hr C0 H) as (_ & (rest & E1 & E2) & _).
  destruct (loop_history (length r) env [] new_context 0 r es c' (le_n _) Hr C0 hist_new H) as [(H1 & _) _]. cbn [app] in H1.
  exists rest. split; [exact E1|]. intros p x delta k -> Hs. rewrite <- H1 in Hs.
  rewrite (parse_shape env c' 0 p delta k x Hs) in E2.
  destruct (read_packet env c' 0 delta k p) as [[e c1]| | | |] eqn:ER; try discriminate. exact (read_packet_not_eof _ _ _ _ _ _ ER).
Qed.

Theorem prefix_compositional : forall env p q es c', is_bytes p -> decode_events env new_context p = Ok (es, c') ->
  concat (map e_bytes es) = p ->
  decode_events env new_context (p ++ q) =
  do (es2, c2) <- events_loop (S (length q)) env c' (total_delta es mod 4294967296) q; Ok (es ++ es2, c2).
Proof.
  intros env p q es c' Hp H Hc. rewrite decode_events_eq in *.
  rewrite (loop_app (length p) env new_context 0 p q es c' (le_n _) Hp ltac:(left; reflexivity) ltac:(lia) H Hc).
  rewrite total_eq, Z.add_0_l. reflexivity.
Qed.

Theorem written_track : forall env n t w, t_tag t = str "MTrk" -> legal_events (t_events t) -> faithful_events env (t_events t) ->
  encode_mtrk t = Ok w ->
  exists t', unmarshal_mtrk env n new_context w = Ok t' /\ map ev_view (t_events t') = contents (t_events t) /\
    (total_delta (t_events t) < 4294967296 ->
     forall i e, nth_error (t_events t') i = Some e -> e_tick e = total_delta (firstn (S i) (t_events t))).
Proof.
  intros env n t w Htag Hl Hf He. unfold encode_mtrk in He.
  destruct (marshal_events (t_events t)) as [cs| | | |] eqn:Em; try discriminate. cbn [bind] in He. apply Ok_inj in He.
  set (body := flatten (running_status_fixup None cs)) in *.
  destruct (track_roundtrip env new_context (t_events t) cs Hl Hf eq_refl eq_refl Em) as (es' & c' & E1 & E2). fold body in E1.
  destruct (encode_grammar (t_events t) cs false 0 None (proj1 Hl) (proj2 Hl) Em I) as [_ B]. fold body in B.
  subst w. rewrite Htag. change (str "MTrk") with [77; 84; 114; 107]. unfold be32. cbn [app]. unfold unmarshal_mtrk.
  change (bytes_eqb [77; 84; 114; 107] (str "MTrk")) with true. cbn [negb].
  rewrite E1. cbn [bind]. eexists. split; [reflexivity|]. cbn [t_events]. split; [exact E2|].
  intros Ht.
  assert (D : map e_delta es' = map e_delta (t_events t)).
  { apply (f_equal (map fst)) in E2. unfold contents in E2. rewrite !map_map in E2. exact E2. }
  assert (S : forall a b, map e_delta a = map e_delta b -> forall i, total_delta (firstn i a) = total_delta (firstn i b)).
  { induction a as [|x a IH]; intros [|y b] HE i; try discriminate; [reflexivity|]. destruct i; [reflexivity|].
    cbn [map] in HE. injection HE as HE1 HE2. cbn [firstn]. unfold total_delta. cbn [fold_right]. unfold total_delta in IH. rewrite HE1, (IH b HE2 i). reflexivity. }
  assert (T' : total_delta es' < 4294967296).
  { pose proof (S _ _ D (length es')) as X. rewrite firstn_all in X. rewrite X.
    replace (length es') with (length (t_events t)) by (apply (f_equal (@length _)) in D; rewrite !map_length in D; auto). rewrite firstn_all. exact Ht. }
  intros i e Hi. destruct (ticks_sum env body es' c' B E1 T') as [A _]. rewrite (A i e Hi). apply S, D.
Qed.
