(** * ChannelProofs: no channel is special (C117). *)
From Coq Require Import Permutation.
From Verif Require Import Base Strings Tables Vlq SpecVlq Event SpecEvent Parse Track File Marshal ParseProofs SpecPacket DecodeProofs SpecFile FileProofs SpecHistory
  TrackProofs CrashProofs Validate ValidateText Transpose Notes SpecNames NamesProofs SpecSameSong SameSongProofs SpecDecoded DecodedProofs SpecChannels.

Lemma status_bits : forall st d, 128 <= st < 240 -> 0 <= d < 16 ->
  Z.land (st - st mod 16 + d) 15 = d /\ Z.land (st - st mod 16 + d) 240 = Z.land st 240 /\ Z.land st 15 = st mod 16.
Proof.
  assert (H : forallb (fun a => forallb (fun d => let st := 128 + a in (Z.land (st - st mod 16 + d) 15 =? d) && (Z.land (st - st mod 16 + d) 240 =? Z.land st 240) && (Z.land st 15 =? st mod 16))
     (map Z.of_nat (seq 0 16))) (map Z.of_nat (seq 0 112)) = true) by (vm_compute; reflexivity).
  intros st d S D. rewrite forallb_forall in H. specialize (H (st - 128)). rewrite forallb_forall in H.
  assert (A : In (st - 128) (map Z.of_nat (seq 0 112))). { apply in_map_iff. exists (Z.to_nat (st - 128)). split; [lia|]. apply in_seq. lia. }
  assert (B : In d (map Z.of_nat (seq 0 16))). { apply in_map_iff. exists (Z.to_nat d). split; [lia|]. apply in_seq. lia. }
  specialize (H A d B). cbv zeta in H. replace (128 + (st - 128)) with st in H by lia. lia.
Qed.

Lemma channel_status : forall f base ch, rearranges f -> In base [128; 144; 160; 176; 192; 208; 224] -> 0 <= ch < 16 ->
  on_status f (Z.lor base ch) = Z.lor base (f ch) /\ on_status f (or_status base ch) = or_status base (f ch).
Proof.
  assert (H : forallb (fun base => forallb (fun c => (Z.lor base c =? base + c) && (or_status base c =? base + c)) (map Z.of_nat (seq 0 16))) [128; 144; 160; 176; 192; 208; 224] = true) by (vm_compute; reflexivity).
  intros f base ch [R _] B C. rewrite forallb_forall in H. specialize (H base B). rewrite forallb_forall in H.
  assert (A : forall d, 0 <= d < 16 -> In d (map Z.of_nat (seq 0 16))). { intros d D. apply in_map_iff. exists (Z.to_nat d). split; [lia|]. apply in_seq. lia. }
  pose proof (H ch (A ch C)) as E. pose proof (H (f ch) (A _ (R ch C))) as F.
  apply andb_prop in E as [E1 E2], F as [F1 F2]. apply Z.eqb_eq in E1, E2, F1, F2. rewrite E1, E2, F1, F2. unfold on_status.
  assert (M : 128 <= base < 240 /\ base mod 16 = 0) by (cbn in B; repeat destruct B as [<-|B]; try lia; destruct B).
  replace ((128 <=? base + ch) && (base + ch <? 240)) with true by lia. replace ((base + ch) mod 16) with ch by lia. lia.
Qed.

Definition moved (f : Z -> Z) (e e' : event) : Prop := no_bytes e' = on_event f e.

Lemma midi_moved : forall f env tick delta st data raw raw', rearranges f -> 128 <= st < 256 ->
  alike (moved f) (unmarshal_midi env tick delta st data raw) (unmarshal_midi env tick delta (on_status f st) data raw').
Proof.
  intros f env tick delta st data raw raw' R S. assert (C : st < 240 \/ 240 <= st) by lia. destruct C as [C|C].
  - unfold on_status at 1. replace ((128 <=? st) && (st <? 240)) with true by lia.
    assert (RC : 0 <= st mod 16 < 16) by lia. pose proof (proj1 R _ RC) as RF. destruct (status_bits st (f (st mod 16)) (conj (proj1 S) C) RF) as (E1 & E2 & E3).
    unfold unmarshal_midi. rewrite E1, E2, E3. remember (st mod 16) as ch. clear Heqch E1 E2 E3.
    repeat match goal with |- alike _ (if ?c then _ else _) _ => destruct c end; try exact I.
    all: repeat match goal with |- alike _ (match ?d with [] => _ | _ => _ end) _ => destruct d; try exact I end.
    all: repeat match goal with |- alike _ (if 127 <? ?c then _ else _) _ => destruct (127 <? c); try exact I end.
    all: unfold make_note_off, make_note_on, make_polyphonic_pressure, make_controller, make_program_change, make_channel_pressure, make_pitch_bend.
    all: replace (15 <? ch) with false by lia; replace (15 <? f ch) with false by lia.
    all: repeat match goal with |- alike _ (if 127 <? ?c then _ else _) _ => destruct (127 <? c); try exact I end.
    all: cbn [alike]; unfold moved, no_bytes, on_event, on_body; cbn [e_tick e_delta e_status e_type e_body].
    all: match goal with |- context[on_status ?h (?g ?b ?x)] => destruct (channel_status h b x R ltac:(cbn; tauto) RC) as [L1 L2]; rewrite ?L1, ?L2 end; reflexivity.
  - unfold on_status. replace ((128 <=? st) && (st <? 240)) with false by lia.
    assert (K : Z.land st 240 = 240).
    { assert (H : forallb (fun a => Z.land (240 + a) 240 =? 240) (map Z.of_nat (seq 0 16)) = true) by (vm_compute; reflexivity). rewrite forallb_forall in H.
      specialize (H (st - 240)). replace (240 + (st - 240)) with st in H by lia. apply Z.eqb_eq, H. apply in_map_iff. exists (Z.to_nat (st - 240)). split; [lia|]. apply in_seq. lia. }
    unfold unmarshal_midi. rewrite K. exact I.
Qed.

Lemma meta_not_moved : forall f env tick delta ty data raw e, unmarshal_meta env tick delta ty data raw = Ok e -> on_event f e = no_bytes e.
Proof.
  intros f env tick delta ty data raw e. unfold unmarshal_meta. destruct (text_kind ty) as [k|]; [intros [= <-]; reflexivity|].
  repeat match goal with |- (if ?c then _ else _) = _ -> _ => destruct c end; try discriminate; try (intros [= <-]; reflexivity).
  all: unfold unmarshal_seqspec, make_sequencer_specific, unmarshal_smpte, make_smpte_offset, unmarshal_key, make_key_signature, make_channel_prefix, make_port, make_time_signature.
  all: repeat match goal with
    | |- context[match ?d with [] => _ | _ => _ end] => destruct d
    | |- context[if ?c then _ else _] => destruct c
    | |- context[match ?d with Some _ => _ | None => _ end] => destruct d
    end; try discriminate; try (intros [= <-]; reflexivity).
  destruct (log2_loop _ _ _ _); cbn [bind]; try discriminate. intros [= <-]. reflexivity.
Qed.

Lemma meta_moved : forall f env tick delta ty data raw raw', alike (moved f) (unmarshal_meta env tick delta ty data raw) (unmarshal_meta env tick delta ty data raw').
Proof.
  intros f env tick delta ty data raw raw'. pose proof (unmarshal_meta_raw env tick delta ty data raw raw') as U.
  destruct (unmarshal_meta env tick delta ty data raw) as [e| | | |] eqn:E, (unmarshal_meta env tick delta ty data raw') as [e'| | | |]; try contradiction; try exact I.
  cbn [alike] in *. unfold moved. rewrite (meta_not_moved f _ _ _ _ _ _ _ E). symmetry. exact U.
Qed.

Lemma new_event_moved : forall f x y, alike (moved f) x y -> alike (moved f) (new_event x) (new_event y).
Proof. intros f [e| | | |] [e'| | | |] H; cbn in H; try contradiction; cbn; auto. Qed.

Lemma running_moved : forall f c c' st, context_moved f c c' -> context_moved f (set_running st c) (set_running (on_status f st) c').
Proof. intros f c c' st (A & B & _ & D & E). repeat split; auto. Qed.
Lemma casio_moved : forall f c c' b, context_moved f c c' -> context_moved f (set_casio b c) (set_casio b c').
Proof. intros f c c' b (A & _ & C & D & E). repeat split; auto. Qed.

Definition step_moved (f : Z -> Z) (x y : event * ctx) : Prop := moved f (fst x) (fst y) /\ context_moved f (snd x) (snd y).

Lemma read_moved : forall f env c c' tick delta k raw raw', rearranges f -> context_moved f c c' -> (forall st data, k = PChan st data -> 128 <= st < 256) ->
  alike (step_moved f) (read_packet env c tick delta k raw) (read_packet env c' tick delta (on_packet f k) raw').
Proof.
  intros f env c c' tick delta k raw raw' R C S.
  assert (K : forall x y c1 c1', alike (moved f) x y -> context_moved f c1 c1' -> alike (step_moved f) (do e <- x; Ok (e, c1)) (do e <- y; Ok (e, c1'))).
  { intros x y c1 c1' H C1. apply (alike_bind _ _ _ _ (moved f)); [exact H|]. intros a b E. split; assumption. }
  destruct k as [st data|ty data|st data]; cbn [read_packet on_packet].
  - apply K; [|apply running_moved, C]. apply new_event_moved, midi_moved; [exact R|]. exact (S st data eq_refl).
  - apply K; [|apply (running_moved f c c' 0 C)]. apply new_event_moved, meta_moved.
  - replace (c_casio c') with (c_casio c) by (symmetry; apply C). destruct (st =? 240).
    + destruct (c_casio c); [exact I|]. apply K; [|apply casio_moved, (running_moved f c c' 0 C)]. unfold unmarshal_sysex. destruct data as [|a [|b data]]; try exact I. destruct (ends_f7 _); reflexivity.
    + apply K; [|apply casio_moved, (running_moved f c c' 0 C)]. destruct (c_casio c); [|reflexivity]. unfold unmarshal_continuation. destruct data; reflexivity.
Qed.

(** ** Names and banks *)

Lemma key_inj : forall ch n ch' n', 0 <= ch < 16 -> 0 <= n < 256 -> 0 <= ch' < 16 -> 0 <= n' < 256 -> note_key ch n = note_key ch' n' -> ch = ch' /\ n = n'.
Proof. intros ch n ch' n' C N C' N' E. pose proof (note_key_eq ch n ch' n' C N C' N') as H. rewrite E, Z.eqb_refl in H. lia. Qed.

Lemma note_moved : forall f env c c' ch n, context_moved f c c' -> 0 <= ch < 16 -> 0 <= n < 256 -> get_note_off env c' (f ch) n = get_note_off env c ch n.
Proof. intros f env c c' ch n (A & _ & _ & _ & E) C N. unfold get_note_off. rewrite (E ch n C N), A. reflexivity. Qed.

Lemma put_moved : forall f env c c' ch n, rearranges f -> context_moved f c c' -> 0 <= ch < 16 -> 0 <= n < 256 -> context_moved f (put_note_on env c ch n) (put_note_on env c' (f ch) n).
Proof.
  intros f env c c' ch n [R J] (A & B & C & D & E) CH N. repeat split; auto. intros ch1 n1 C1 N1. cbn [put_note_on c_notes assoc]. rewrite A.
  destruct (Z.eqb_spec (note_key ch1 n1) (note_key ch n)) as [H|H].
  - destruct (key_inj _ _ _ _ C1 N1 CH N H) as [-> ->]. rewrite Z.eqb_refl. reflexivity.
  - destruct (Z.eqb_spec (note_key (f ch1) n1) (note_key (f ch) n)) as [G|G]; [|apply E; assumption].
    exfalso. apply H. destruct (key_inj _ _ _ _ (R _ C1) N1 (R _ CH) N G) as [F ->]. rewrite (J _ _ C1 CH F). reflexivity.
Qed.

Lemma bank_moved : forall f c c' ch v, rearranges f -> context_moved f c c' -> 0 <= ch < 16 -> context_moved f (set_bank ch v c) (set_bank (f ch) v c').
Proof.
  intros f c c' ch v [R J] (A & B & C & D & E) CH. repeat split; auto. intros ch1 C1. unfold get_bank. cbn [set_bank c_bank assoc].
  destruct (Z.eqb_spec ch1 ch) as [->|H]; [rewrite Z.eqb_refl; reflexivity|].
  destruct (Z.eqb_spec (f ch1) (f ch)) as [G|G]; [destruct (H (J _ _ C1 CH G))|]. exact (D ch1 C1).
Qed.

Lemma scale_moved : forall f c c' b, context_moved f c c' -> context_moved f (use_scale b c) (use_scale b c').
Proof. intros f c c' b (A & B & C & D & E). repeat split; auto. Qed.

Lemma post_moved : forall f env c c' e e', rearranges f -> context_moved f c c' -> decoded_body env (e_body e) -> moved f e e' ->
  step_moved f (post_process env c e) (post_process env c' e').
Proof.
  intros f env c c' [t d bs st ty b] [t' d' bs' st' ty' b'] R C B M. unfold moved, no_bytes, on_event in M. cbn [e_tick e_delta e_status e_type e_body] in *.
  injection M as -> -> -> -> ->. unfold post_process, step_moved. cbn [e_body]. pose proof (proj1 C) as FL.
  destruct b; cbn [on_body]; try (split; [reflexivity|exact C]); cbn [decoded_body] in B.
  - destruct B as (B1 & B2 & _). cbn [fst snd]. split; [|exact C]. unfold with_body, moved, no_bytes, on_event. cbn [e_tick e_delta e_status e_type e_body on_body]. rewrite (note_moved f env c c' _ _ C B1 B2), FL. reflexivity.
  - destruct B as (B1 & B2 & _). cbn [fst snd]. split; [|apply put_moved; assumption]. unfold with_body, moved, no_bytes, on_event. cbn [e_tick e_delta e_status e_type e_body on_body put_note_on c_flats]. rewrite FL. reflexivity.
  - destruct B as (B1 & _). replace (get_bank c' (f ch)) with (get_bank c ch) by (symmetry; apply C; exact B1). destruct (c_id c0 =? 0); [|destruct (c_id c0 =? 32)]; (split; [reflexivity|]); try exact C; apply bank_moved; assumption.
  - destruct B as (B1 & _). replace (get_bank c' (f ch)) with (get_bank c ch) by (symmetry; apply C; exact B1). split; [reflexivity|exact C].
  - split; [reflexivity|apply scale_moved, C].
Qed.

(** ** Tracks and files *)

Definition run_moved (f : Z -> Z) (x y : list event * ctx) : Prop := map no_bytes (fst y) = map (on_event f) (fst x) /\ context_moved f (snd x) (snd y).

Lemma status_moved : forall f k, status_after (on_packet f k) = on_status f (status_after k).
Proof. intros f [st data|ty data|st data]; reflexivity. Qed.

Lemma shape_status : forall rs p delta k, shape rs p delta k -> forall st data, k = PChan st data -> 128 <= st < 256.
Proof. intros rs p delta k H st data E. destruct H; try discriminate E; injection E as <- <-; lia. Qed.

Lemma packets_moved : forall f env, rearranges f -> forall l rs x, packets rs l x -> is_bytes x -> forall y c c' tick, ctx_ok c -> c_running c = rs -> context_moved f c c' ->
  packets (on_status f rs) (map (fun x => (fst x, on_packet f (snd x))) l) y -> alike (run_moved f) (loop_from env c tick x) (loop_from env c' tick y).
Proof.
  intros f env R l rs x P. induction P as [rs|rs delta k l p r S P IH]; intros B y c c' tick OK C M Q.
  - inversion Q; subst. split; [reflexivity|exact M].
  - cbn [map fst snd] in Q. inversion Q as [|rs' delta' k' l' p' r' S' P']; subst rs' delta' k' l' y. apply is_bytes_app in B as [Bp Br].
    rewrite (loop_from_eq env c), (loop_from_eq env c'). rewrite <- C in S. assert (S2 : shape (c_running c') p' delta (on_packet f k)) by (rewrite (proj1 (proj2 (proj2 M))), C; exact S').
    rewrite (parse_shape env c tick p delta k r S), (parse_shape env c' tick p' delta (on_packet f k) r' S2).
    pose proof (read_moved f env c c' tick delta k p p' R M (shape_status _ _ _ _ S)) as H.
    destruct (read_packet env c tick delta k p) as [[e c1]| | | |] eqn:E, (read_packet env c' tick delta (on_packet f k) p') as [[e' c1']| | | |]; cbn [alike] in H; try contradiction; cbn [bind]; try exact I.
    2: { split; [reflexivity|exact M]. }
    destruct H as [H1 H2]. cbn [fst snd] in H1, H2. destruct (read_packet_facts env c tick delta k p e c1 p OK S E) as [_ OK1]. destruct (read_packet_ranges env c tick delta k p e c1 p S Bp OK E) as [D _].
    pose proof (read_packet_running _ _ _ _ _ _ _ _ E) as RS.
    pose proof (post_moved f env c1 c1' e e' R H2 D H1) as H3.
    destruct (post_process env c1 e) as [e1 c2] eqn:PP, (post_process env c1' e') as [e1' c2']. destruct H3 as [H3 H4]. cbn [fst snd] in H3, H4.
    destruct (post_process_facts _ _ _ _ _ PP) as (_ & _ & _ & P4).
    replace (e_delta e') with (e_delta e) by (apply (f_equal e_delta) in H1; symmetry; exact H1).
    apply (alike_bind _ _ _ _ (run_moved f)).
    + apply IH; [exact Br|unfold ctx_ok; rewrite P4; exact OK1|rewrite P4; exact RS|exact H4|rewrite <- status_moved; exact P'].
    + intros [es c3] [es' c3'] [G1 G2]. split; [|exact G2]. cbn [fst map]. cbn [fst] in G1. rewrite G1. f_equal. exact H3.
Qed.

Lemma start_moved : forall f, context_moved f new_context new_context.
Proof. intro f. repeat split. Qed.

Theorem track_moved_read : forall f env b b', rearranges f -> is_bytes b -> track_moved f b b' -> alike (run_moved f) (decode_events env new_context b) (decode_events env new_context b').
Proof.
  intros f env b b' R B (l & P & Q). rewrite !decode_events_eq. exact (packets_moved f env R l 0 b P B b' new_context new_context 0 (or_introl eq_refl) eq_refl (start_moved f) Q).
Qed.

Lemma mtrk_moved : forall f env n tag payload payload' w w', rearranges f -> is_bytes payload -> chunk_bytes tag payload w -> chunk_bytes tag payload' w' -> track_moved f payload payload' ->
  alike (events_moved f) (unmarshal_mtrk env n new_context w) (unmarshal_mtrk env n new_context w').
Proof.
  intros f env n tag payload payload' w w' R B C C' H. apply (track_moved_read f env _ _ R B) in H.
  destruct C as [a b c d l0 l1 l2 l3 payload _ _ _ _ _]. inversion C' as [a' b' c' d' m0 m1 m2 m3 q _ _ _ _ _]; subst. cbn [app unmarshal_mtrk].
  destruct (negb _); [exact I|]. destruct (decode_events env new_context payload) as [[es c1]| | | |], (decode_events env new_context payload') as [[es' c1']| | | |]; cbn [alike] in H; try contradiction H; try exact I.
  destruct H as [E F]. cbn [bind alike]. repeat split; [exact E|..]; apply F.
Qed.

Lemma payload_bytes : forall tag p w, chunk_bytes tag p w -> is_bytes w -> is_bytes p.
Proof. intros tag p w C B. unfold is_bytes in *. destruct C. repeat rewrite Forall_app in B. tauto. Qed.

Lemma tracks_moved : forall f env items items' ws ws', rearranges f -> Forall is_bytes ws -> wires items ws -> wires items' ws' -> Forall2 (fun it it' => fst it = fst it' /\ track_moved f (snd it) (snd it')) items items' ->
  forall n, alike (Forall2 (events_moved f)) (decode_tracks env n ws) (decode_tracks env n ws').
Proof.
  intros f env items items' ws ws' R B W W' H. revert ws ws' B W W'. induction H as [|it it' items items' [T M] H IH]; intros ws ws' B W W' n.
  - inversion W; inversion W'; subst. constructor.
  - inversion W as [|? w ? ws1 C W1]; inversion W' as [|? w' ? ws1' C' W1']; subst. cbn [decode_tracks].
    rewrite T in C. pose proof (Forall_inv B) as Bw. pose proof (Forall_inv_tail B) as Bws. destruct (chunk_wire_det _ _ _ C) as [_ ->], (chunk_wire_det _ _ _ C') as [_ ->]. destruct (bytes_eqb _ _); [|apply IH; assumption].
    assert (Bp : is_bytes (snd it)) by (exact (payload_bytes _ _ _ C Bw)).
    apply (alike_bind _ _ _ _ (events_moved f)); [exact (mtrk_moved f env n _ _ _ _ _ R Bp C C' M)|]. intros t t' E. apply (alike_bind _ _ _ _ (Forall2 (events_moved f))); [apply IH; assumption|].
    intros ts ts' F. constructor; assumption.
Qed.

Lemma keep_bytes : forall items ws, Forall is_bytes ws -> Forall is_bytes (keep items ws).
Proof.
  induction items as [|it items IH]; intros [|w ws] B; cbn [keep]; try constructor. destruct (is_mtrk it); [constructor; [exact (Forall_inv B)|]|]; apply IH; exact (Forall_inv_tail B).
Qed.

Lemma tagged_alike : forall (P : bytes -> bytes -> Prop) items items', Forall2 (fun it it' => P (snd it) (snd it')) (filter is_mtrk items) (filter is_mtrk items') ->
  Forall2 (fun it it' => fst it = fst it' /\ P (snd it) (snd it')) (filter is_mtrk items) (filter is_mtrk items').
Proof.
  intros P items items' H. assert (A : Forall (fun it => is_mtrk it = true) (filter is_mtrk items)) by (apply Forall_forall; intros x X; apply filter_In in X; tauto).
  assert (A' : Forall (fun it => is_mtrk it = true) (filter is_mtrk items')) by (apply Forall_forall; intros x X; apply filter_In in X; tauto).
  induction H as [|x y l l' X H IH]; [constructor|]. constructor; [|apply IH; [exact (Forall_inv_tail A)|exact (Forall_inv_tail A')]]. split; [|exact X].
  apply Forall_inv in A, A'. unfold is_mtrk in A, A'. apply bytes_eqb_eq in A, A'. congruence.
Qed.

Theorem song_moved_read : forall f env r r', rearranges f -> is_bytes r -> song_moved f r r' -> alike (file_moved f) (decode env r) (decode env r').
Proof.
  intros f env r r' RF B (header & items & items' & R & R' & H). destruct (readable_chunks _ _ R) as (ws & E & W), (readable_chunks _ _ R') as (ws' & E' & W').
  pose proof (DecodedProofs.chunks_bytes (length r) r ws (le_n _) B E) as BW.
  unfold decode. rewrite E, E'. cbn [bind]. inversion W as [|? w0 ? ws1 C W1]; inversion W' as [|? w0' ? ws1' C' W1']; subst.
  rewrite <- (chunk_bytes_det _ _ _ _ C C'). destruct (unmarshal_mthd w0) as [h| | | |]; cbn [bind]; try exact I.
  rewrite (decode_tracks_keep env items ws1 0 W1), (decode_tracks_keep env items' ws1' 0 W1').
  apply (alike_bind _ _ _ _ (Forall2 (events_moved f))).
  - apply (tracks_moved f env (filter is_mtrk items) (filter is_mtrk items')); [exact RF| |exact (keep_file _ _ W1)|exact (keep_file _ _ W1')|].
    + apply keep_bytes. exact (Forall_inv_tail BW).
    + apply tagged_alike, H.
  - intros ts ts' T. replace (zlen ts') with (zlen ts) by (unfold zlen; rewrite (forall2_length _ _ _ _ _ T); reflexivity).
    destruct (_ =? _); [|exact I]. split; [reflexivity|exact T].
Qed.
