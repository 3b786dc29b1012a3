(** * PaceProofs: what a file says and when it says it are independent (C118). *)
From Coq Require Import Permutation.
From Verif Require Import Base Strings Tables Vlq SpecVlq Event SpecEvent Parse Track File Marshal ParseProofs SpecPacket DecodeProofs SpecFile FileProofs SpecHistory
  TrackProofs CrashProofs Validate ValidateText Transpose Notes SpecNames NamesProofs SpecSameSong SameSongProofs SpecDecoded DecodedProofs ChannelProofs SpecPace.

Definition at_time (t d : Z) (e : event) : event := Event t d [] (e_status e) (e_type e) (e_body e).

(** ** One message *)

Definition timed (t d : Z) (e e' : event) : Prop := no_bytes e' = at_time t d e.

Lemma midi_timed : forall env t d t' d' st data raw raw', alike (timed t' d') (unmarshal_midi env t d st data raw) (unmarshal_midi env t' d' st data raw').
Proof.
  intros. unfold unmarshal_midi. repeat match goal with |- alike _ (if ?c then _ else _) _ => destruct c end; try exact I.
  all: repeat match goal with |- alike _ (match ?d with [] => _ | _ => _ end) _ => destruct d; try exact I end.
  all: repeat match goal with |- alike _ (if 127 <? ?c then _ else _) _ => destruct (127 <? c); try exact I end.
  all: unfold make_note_off, make_note_on, make_polyphonic_pressure, make_controller, make_program_change, make_channel_pressure, make_pitch_bend.
  all: repeat match goal with |- alike _ (if ?c then _ else _) _ => destruct c; try exact I end; reflexivity.
Qed.

Lemma meta_timed : forall env t d t' d' ty data raw raw', alike (timed t' d') (unmarshal_meta env t d ty data raw) (unmarshal_meta env t' d' ty data raw').
Proof.
  intros. unfold unmarshal_meta. destruct (text_kind ty) as [k|]; [reflexivity|].
  repeat match goal with |- alike _ (if ?c then _ else _) _ => destruct c end; try exact I; try reflexivity.
  all: unfold unmarshal_seqspec, make_sequencer_specific, unmarshal_smpte, make_smpte_offset, unmarshal_key, make_key_signature, make_channel_prefix, make_port, make_time_signature.
  all: repeat match goal with
    | |- context[match ?d with [] => _ | _ => _ end] => destruct d
    | |- context[if ?c then _ else _] => destruct c
    | |- context[match ?d with Some _ => _ | None => _ end] => destruct d
    end; try exact I; try reflexivity.
  destruct (log2_loop _ _ _ _); cbn [bind]; try exact I. reflexivity.
Qed.

Lemma new_event_timed : forall t d x y, alike (timed t d) x y -> alike (timed t d) (new_event x) (new_event y).
Proof. intros t d [e| | | |] [e'| | | |] H; cbn in H; try contradiction; cbn; auto. Qed.

Definition step_timed (t d : Z) (x y : event * ctx) : Prop := timed t d (fst x) (fst y) /\ snd y = snd x.

Lemma read_timed : forall env c t d t' d' k raw raw', alike (step_timed (t' + d') d') (read_packet env c t d k raw) (read_packet env c t' d' k raw').
Proof.
  intros env c t d t' d' k raw raw'.
  assert (K : forall x y c1, alike (timed (t' + d') d') x y -> alike (step_timed (t' + d') d') (do e <- x; Ok (e, c1)) (do e <- y; Ok (e, c1))).
  { intros x y c1 H. apply (alike_bind _ _ _ _ (timed (t' + d') d')); [exact H|]. intros a b E. split; [exact E|reflexivity]. }
  destruct k as [st data|ty data|st data]; cbn [read_packet].
  - apply K, new_event_timed, midi_timed.
  - apply K, new_event_timed, meta_timed.
  - destruct (st =? 240).
    + destruct (c_casio c); [exact I|]. apply K. unfold unmarshal_sysex. destruct data as [|a [|b data]]; try exact I. destruct (ends_f7 _); reflexivity.
    + apply K. destruct (c_casio c); [|reflexivity]. unfold unmarshal_continuation. destruct data; reflexivity.
Qed.

Lemma post_timed : forall env c t d e e', timed t d e e' -> step_timed t d (post_process env c e) (post_process env c e').
Proof.
  intros env c t d [t0 d0 bs st ty b] [t1 d1 bs' st' ty' b'] M. unfold timed, no_bytes, at_time in M. cbn [e_tick e_delta e_status e_type e_body] in *.
  injection M as -> -> -> -> ->. unfold post_process, step_timed. cbn [e_body].
  destruct b; try (split; reflexivity). destruct (c_id c0 =? 0); [|destruct (c_id c0 =? 32)]; split; reflexivity.
Qed.

(** ** Tracks *)

(** The events of the first list at the times given by the delta times *)
Inductive given_times : Z -> list Z -> list event -> list event -> Prop :=
| gt_nil : forall t ds, given_times t ds [] []
| gt_cons : forall t d ds e es es', given_times ((t + d) mod 4294967296) ds es es' -> given_times t (d :: ds) (e :: es) (at_time (t + d) d e :: es').

Definition run_timed (t : Z) (ds : list Z) (x y : list event * ctx) : Prop := given_times t ds (fst x) (map no_bytes (fst y)) /\ snd y = snd x.

Lemma packets_timed : forall env l rs x, packets rs l x -> forall l' y c t t', ctx_ok c -> c_running c = rs -> packets rs l' y -> map snd l = map snd l' ->
  alike (run_timed t' (map fst l')) (loop_from env c t x) (loop_from env c t' y).
Proof.
  intros env l rs x P. induction P as [rs|rs delta k l p r S P IH]; intros l' y c t t' OK C Q M.
  - destruct l'; [|discriminate M]. inversion Q; subst. split; [constructor|reflexivity].
  - destruct l' as [|[delta' k'] l']; [discriminate M|]. cbn [map snd] in M. injection M as <- M. inversion Q as [|rs' dl kl ll p' r' S' P']; subst rs' dl kl ll y.
    rewrite (loop_from_eq env c), (loop_from_eq env c). rewrite <- C in S, S'.
    rewrite (parse_shape env c t p delta k r S), (parse_shape env c t' p' delta' k r' S').
    pose proof (read_timed env c t delta t' delta' k p p') as H.
    destruct (read_packet env c t delta k p) as [[e c1]| | | |] eqn:E, (read_packet env c t' delta' k p') as [[e' c1']| | | |] eqn:E'; cbn [alike] in H; try contradiction; cbn [bind]; try exact I.
    2: { split; [constructor|reflexivity]. }
    destruct H as [H1 H2]. cbn [fst snd] in H1, H2. subst c1'. destruct (read_packet_facts env c t delta k p e c1 p OK S E) as [_ OK1].
    pose proof (read_packet_running _ _ _ _ _ _ _ _ E) as RS.
    pose proof (post_timed env c1 _ _ e e' H1) as H3.
    destruct (post_process env c1 e) as [e1 c2] eqn:PP, (post_process env c1 e') as [e1' c2']. destruct H3 as [H3 H4]. cbn [fst snd] in H3, H4. subst c2'.
    destruct (post_process_facts _ _ _ _ _ PP) as (_ & _ & _ & P4).
    replace (e_delta e') with delta' by (apply (f_equal e_delta) in H1; symmetry; exact H1).
    apply (alike_bind _ _ _ _ (run_timed ((t' + delta') mod 4294967296) (map fst l'))).
    + apply IH; [unfold ctx_ok; rewrite P4; exact OK1|rewrite P4; exact RS|exact P'|exact M].
    + intros [es c3] [es' c3'] [G1 G2]. split; [|exact G2]. cbn [fst snd map] in *. unfold timed in H3. rewrite H3. constructor. exact G1.
Qed.

Lemma given_content : forall t ds es es', given_times t ds es es' -> map no_times es' = map no_times es.
Proof. intros t ds es es' H. induction H as [|t d ds e es es' H IH]; [reflexivity|]. cbn [map]. rewrite IH. reflexivity. Qed.

Lemma given_finer : forall k ds t es es' es'', 0 < k -> Forall (fun d => 0 <= d) ds -> 0 <= t -> k * (t + fold_right Z.add 0 ds) < 4294967296 ->
  given_times t ds es es' -> given_times (k * t) (map (fun d => k * d) ds) es es'' -> es'' = map (finer k) es'.
Proof.
  intros k ds t es es' es'' K N T B G. revert B es''. induction G as [t ds|t d ds e es es' G IH]; intros B es'' H.
  - inversion H; subst; reflexivity.
  - cbn [map fold_right] in *. inversion H as [|t0 d0 ds0 e0 es0 es1 H1]; subst. inversion N as [|? ? N0 N1]; subst.
    assert (F : 0 <= fold_right Z.add 0 ds) by (clear - N1; induction N1; cbn [fold_right]; lia).
    assert (S : 0 <= t + d < 4294967296) by nia. assert (S2 : 0 <= k * t + k * d < 4294967296) by nia.
    rewrite (Z.mod_small _ _ S) in *. rewrite (Z.mod_small _ _ S2) in H1. replace (k * t + k * d) with (k * (t + d)) in * by ring.
    cbn [map]. unfold finer at 1. cbn [at_time e_tick e_delta e_status e_type e_body]. f_equal. apply IH; [exact N1|lia|lia|exact H1].
Qed.

Lemma finer_bytes : forall k es, map (finer k) (map no_bytes es) = map (finer k) es.
Proof. intros k es. rewrite map_map. reflexivity. Qed.

Definition run_finer (k : Z) (x y : list event * ctx) : Prop := map no_bytes (fst y) = map (finer k) (fst x) /\ snd y = snd x.

Lemma reads_nonneg : forall rs l x, packets rs l x -> Forall (fun d => 0 <= d) (map fst l).
Proof.
  intros rs l x P. induction P as [|rs delta k l p r S P IH]; [constructor|]. cbn [map fst]. constructor; [|exact IH].
  destruct S as [d delta st data R|d delta data R|d delta ty ll data R|d delta st ll data R]; destruct R as [_ <-]; lia.
Qed.

Lemma track_read_retimed : forall env b b', track_retimed b b' -> alike (fun x y => map no_times (fst y) = map no_times (fst x) /\ snd y = snd x) (decode_events env new_context b) (decode_events env new_context b').
Proof.
  intros env b b' (l & l' & P & Q & M). rewrite !decode_events_eq. pose proof (packets_timed env l 0 b P l' b' new_context 0 0 (or_introl eq_refl) eq_refl Q M) as H.
  destruct (loop_from env new_context 0 b) as [[es c]| | | |], (loop_from env new_context 0 b') as [[es' c']| | | |]; cbn [alike] in *; try contradiction; try exact I.
  destruct H as [H1 H2]. split; [|exact H2]. cbn [fst] in *. rewrite <- (given_content _ _ _ _ H1), map_map. reflexivity.
Qed.

Lemma track_read_scaled : forall env k b b', 0 < k -> track_scaled k b b' -> alike (run_finer k) (decode_events env new_context b) (decode_events env new_context b').
Proof.
  intros env k b b' K (l & P & Q & B). rewrite !decode_events_eq.
  pose proof (packets_timed env l 0 b P l b new_context 0 0 (or_introl eq_refl) eq_refl P eq_refl) as H0.
  assert (M : map snd l = map snd (map (fun x : Z * packet => (k * fst x, snd x)) l)) by (rewrite map_map; reflexivity).
  pose proof (packets_timed env l 0 b P _ b' new_context 0 0 (or_introl eq_refl) eq_refl Q M) as H.
  destruct (loop_from env new_context 0 b) as [[es c]| | | |], (loop_from env new_context 0 b') as [[es' c']| | | |]; cbn [alike] in *; try contradiction; try exact I.
  destruct H as [H1 H2], H0 as [H0 _]. split; [|exact H2]. cbn [fst] in *. rewrite map_map in H1. cbn [fst] in H1. rewrite <- (map_map fst (fun d => k * d)) in H1.
  rewrite <- (finer_bytes k es). apply (given_finer k (map fst l) 0 es); [exact K|exact (reads_nonneg _ _ _ P)|lia| |exact H0|rewrite Z.mul_0_r; exact H1].
  unfold total in B. lia.
Qed.

(** ** Files *)

Lemma mtrk_by : forall (P : bytes -> bytes -> Prop) (E : list event -> list event -> Prop) env,
  (forall b b', P b b' -> alike (fun x y => E (fst x) (fst y) /\ snd y = snd x) (decode_events env new_context b) (decode_events env new_context b')) ->
  forall n tag p p' w w', chunk_bytes tag p w -> chunk_bytes tag p' w' -> P p p' ->
  alike (fun t t' => t_tag t' = t_tag t /\ t_number t' = t_number t /\ E (t_events t) (t_events t') /\ t_ctx t' = t_ctx t) (unmarshal_mtrk env n new_context w) (unmarshal_mtrk env n new_context w').
Proof.
  intros P E env D n tag p p' w w' C C' H. apply D in H.
  destruct C as [a b c d l0 l1 l2 l3 p _ _ _ _ _]. inversion C' as [a' b' c' d' m0 m1 m2 m3 q _ _ _ _ _]; subst. cbn [app unmarshal_mtrk].
  destruct (negb _); [exact I|]. destruct (decode_events env new_context p) as [[es c1]| | | |], (decode_events env new_context p') as [[es' c1']| | | |]; cbn [alike] in H; try contradiction H; try exact I.
  destruct H as [F G]. cbn [fst snd] in F, G. cbn [bind alike]. repeat split; [exact F|]. cbn [t_ctx]. rewrite G. reflexivity.
Qed.

Lemma tracks_by : forall (P : bytes -> bytes -> Prop) (T : mtrk -> mtrk -> Prop) env,
  (forall n tag p p' w w', chunk_bytes tag p w -> chunk_bytes tag p' w' -> P p p' -> alike T (unmarshal_mtrk env n new_context w) (unmarshal_mtrk env n new_context w')) ->
  forall items items' ws ws', wires items ws -> wires items' ws' -> Forall2 (fun it it' => fst it = fst it' /\ P (snd it) (snd it')) items items' ->
  forall n, alike (Forall2 T) (decode_tracks env n ws) (decode_tracks env n ws').
Proof.
  intros P T env D items items' ws ws' W W' H. revert ws ws' W W'. induction H as [|it it' items items' [E M] H IH]; intros ws ws' W W' n.
  - inversion W; inversion W'; subst. constructor.
  - inversion W as [|? w ? ws1 C W1]; inversion W' as [|? w' ? ws1' C' W1']; subst. cbn [decode_tracks].
    rewrite E in C. destruct (chunk_wire_det _ _ _ C) as [_ ->], (chunk_wire_det _ _ _ C') as [_ ->]. destruct (bytes_eqb _ _); [|apply IH; assumption].
    apply (alike_bind _ _ _ _ T); [exact (D n _ _ _ _ _ C C' M)|]. intros t t' F. apply (alike_bind _ _ _ _ (Forall2 T)); [apply IH; assumption|].
    intros ts ts' G. constructor; assumption.
Qed.

Lemma file_by : forall (P : bytes -> bytes -> Prop) (E : list event -> list event -> Prop) (H : mthd -> mthd -> Prop) env,
  (forall b b', P b b' -> alike (fun x y => E (fst x) (fst y) /\ snd y = snd x) (decode_events env new_context b) (decode_events env new_context b')) ->
  (forall h h', H h h' -> h_tracks h' = h_tracks h) ->
  forall tag h h' items items' r r', readable ((tag, h) :: items) r -> readable ((tag, h') :: items') r' ->
  (forall w w', chunk_bytes tag h w -> chunk_bytes tag h' w' -> alike H (unmarshal_mthd w) (unmarshal_mthd w')) ->
  Forall2 (fun it it' => P (snd it) (snd it')) (filter is_mtrk items) (filter is_mtrk items') ->
  alike (fun s s' => (exists h h', f_mthd s = Some h /\ f_mthd s' = Some h' /\ H h h') /\
    Forall2 (fun t t' => t_tag t' = t_tag t /\ t_number t' = t_number t /\ E (t_events t) (t_events t') /\ t_ctx t' = t_ctx t) (f_tracks s) (f_tracks s')) (decode env r) (decode env r').
Proof.
  intros P E H env D HT tag h h' items items' r r' R R' HH M. destruct (readable_chunks _ _ R) as (ws & X & W), (readable_chunks _ _ R') as (ws' & X' & W').
  unfold decode. rewrite X, X'. cbn [bind]. inversion W as [|? w0 ? ws1 C W1]; inversion W' as [|? w0' ? ws1' C' W1']; subst. cbn [fst snd] in C, C'.
  apply (alike_bind _ _ _ _ H); [apply HH; assumption|]. intros m m' HM.
  rewrite (decode_tracks_keep env items ws1 0 W1), (decode_tracks_keep env items' ws1' 0 W1').
  apply (alike_bind _ _ _ _ (Forall2 (fun t t' => t_tag t' = t_tag t /\ t_number t' = t_number t /\ E (t_events t) (t_events t') /\ t_ctx t' = t_ctx t))).
  - apply (tracks_by P _ env (mtrk_by P E env D) (filter is_mtrk items) (filter is_mtrk items')); [exact (keep_file _ _ W1)|exact (keep_file _ _ W1')|]. apply tagged_alike, M.
  - intros ts ts' T. replace (zlen ts') with (zlen ts) by (unfold zlen; rewrite (forall2_length _ _ _ _ _ T); reflexivity). rewrite (HT m m' HM).
    destruct (_ =? _); [|exact I]. split; [|exact T]. exists m, m'. repeat split. exact HM.
Qed.

Theorem song_read_retimed : forall env r r', song_retimed r r' -> alike file_but_times (decode env r) (decode env r').
Proof.
  intros env r r' ([tag h] & items & items' & R & R' & M).
  pose proof (file_by track_retimed (fun es es' => map no_times es' = map no_times es) eq env (track_read_retimed env) ltac:(intros ? ? ->; reflexivity) tag h h items items' r r' R R') as H.
  specialize (H ltac:(intros w w' C C'; rewrite <- (chunk_bytes_det _ _ _ _ C C'); destruct (unmarshal_mthd w); cbn [alike]; auto) M).
  destruct (decode env r) as [s| | | |], (decode env r') as [s'| | | |]; cbn [alike] in *; try contradiction; try exact I.
  destruct H as [(a & b & A & B & <-) T]. split; [congruence|exact T].
Qed.

Lemma header_read : forall k tag h h' w w', 0 < k -> header_scaled k h h' -> chunk_bytes tag h w -> chunk_bytes tag h' w' -> alike (header_finer k) (unmarshal_mthd w) (unmarshal_mthd w').
Proof.
  intros k tag h h' w w' K (a & b & c & d & e & f & e' & f' & -> & -> & E & F & E' & F' & M & B) C C'.
  inversion C as [t0 t1 t2 t3 l0 l1 l2 l3 p L0 L1 L2 L3 L]; subst. inversion C' as [t0' t1' t2' t3' m0 m1 m2 m3 p' M0 M1 M2 M3 ML]; subst.
  cbn [app unmarshal_mthd]. destruct (negb _); [exact I|].
  assert (S : of_be32 l0 l1 l2 l3 = 6) by (unfold of_be32; unfold zlen in L; cbn [length Z.of_nat] in L; lia).
  assert (S' : of_be32 m0 m1 m2 m3 = 6) by (unfold of_be32; unfold zlen in ML; cbn [length Z.of_nat] in ML; lia).
  rewrite S, S'. change (negb (6 =? 6)) with false. cbv iota. destruct (negb _); [exact I|].
  assert (X : of_be16 e f = e * 256 + f) by (unfold of_be16; lia). assert (X' : of_be16 e' f' = e' * 256 + f') by (unfold of_be16; lia). rewrite X, X'.
  assert (U : 0 <= e * 256 + f < 32768) by nia. assert (U' : 0 <= e' * 256 + f' < 32768) by lia.
  assert (Q : forall x, 0 <= x < 32768 -> Z.land x 32768 = 0 /\ Z.land x 32767 = x).
  { intros x Hx. split; [|change 32767 with (Z.ones 15); rewrite Z.land_ones by lia; apply Z.mod_small; exact Hx].
    apply Z.bits_inj'. intros n N. rewrite Z.land_spec, Z.bits_0. change 32768 with (2 ^ 15). destruct (Z.eq_dec n 15) as [->|D]; [|rewrite Z.pow2_bits_false by lia; apply andb_false_r].
    rewrite Z.pow2_bits_true by lia. rewrite andb_true_r. rewrite Z.testbit_false by lia. change (2 ^ 15) with 32768. rewrite Z.div_small by lia. reflexivity. }
  destruct (Q _ U) as [Q1 Q2], (Q _ U') as [Q3 Q4]. rewrite Q1, Q2, Q3, Q4. cbn [Z.eqb alike]. unfold header_finer. cbn [h_tag h_length h_format h_tracks h_division h_ppqn h_smpte].
  repeat split; exact M.
Qed.

Theorem song_read_scaled : forall env k r r', 0 < k -> song_scaled k r r' -> alike (file_finer k) (decode env r) (decode env r').
Proof.
  intros env k r r' K (tag & h & h' & items & items' & R & R' & HS & M).
  exact (file_by (track_scaled k) (fun es es' => map no_bytes es' = map (finer k) es) (header_finer k) env (fun b b' => track_read_scaled env k b b' K) ltac:(unfold header_finer; tauto) tag h h' items items' r r' R R'
    (fun w w' => header_read k tag h h' w w' K HS) M).
Qed.

(** In addition, the delta times of the second file are short. *)
Definition short (es : list event) : Prop := Forall (fun e => 0 <= e_delta e < 1073741824) es.

Lemma given_deltas : forall (P : Z -> Prop) t ds es es', given_times t ds es es' -> Forall P ds -> Forall (fun e => P (e_delta e)) es'.
Proof. intros P t ds es es' G. induction G as [|t d ds e es es' G IH]; intro F; [constructor|]. inversion F; subst. constructor; [assumption|]. apply IH. assumption. Qed.

Lemma small_parts : forall ds M, Forall (fun d => 0 <= d) ds -> fold_right Z.add 0 ds < M -> Forall (fun d => 0 <= d < M) ds.
Proof.
  intros ds M F. induction F as [|d ds D F IH]; cbn [fold_right]; intro H; [constructor|].
  assert (S : 0 <= fold_right Z.add 0 ds) by (clear - F; induction F; cbn [fold_right]; lia). constructor; [lia|]. apply IH. lia.
Qed.

Lemma total_scaled : forall k l, fold_right Z.add 0 (map fst (map (fun x : Z * packet => (k * fst x, snd x)) l)) = k * total l.
Proof. intros k l. unfold total. induction l as [|x l IH]; cbn [map fold_right fst]; [lia|]. rewrite IH. lia. Qed.

Lemma track_read_short : forall env k b b', 0 < k -> track_scaled k b b' ->
  alike (fun x y => (map no_bytes (fst y) = map (finer k) (fst x) /\ short (fst y)) /\ snd y = snd x) (decode_events env new_context b) (decode_events env new_context b').
Proof.
  intros env k b b' K T. pose proof (track_read_scaled env k b b' K T) as H. destruct T as (l & P & Q & B).
  assert (M : map snd l = map snd (map (fun x : Z * packet => (k * fst x, snd x)) l)) by (rewrite map_map; reflexivity).
  pose proof (packets_timed env l 0 b P _ b' new_context 0 0 (or_introl eq_refl) eq_refl Q M) as G. rewrite !decode_events_eq in *.
  destruct (loop_from env new_context 0 b) as [[es c]| | | |], (loop_from env new_context 0 b') as [[es' c']| | | |]; cbn [alike] in *; try contradiction; try exact I.
  destruct H as [H1 H2], G as [G _]. split; [split; [exact H1|]|exact H2]. cbn [fst] in *.
  rewrite <- total_scaled in B. pose proof (given_deltas _ _ _ _ _ G (small_parts _ _ (reads_nonneg _ _ _ Q) B)) as F. unfold short. rewrite Forall_map in F. revert F. apply Forall_impl. intros e E. exact E.
Qed.

Definition file_short (k : Z) (s s' : smf) : Prop := file_finer k s s' /\ Forall (fun t => short (t_events t)) (f_tracks s').

Theorem song_read_short : forall env k r r', 0 < k -> song_scaled k r r' -> alike (file_short k) (decode env r) (decode env r').
Proof.
  intros env k r r' K (tag & h & h' & items & items' & R & R' & HS & M).
  pose proof (file_by (track_scaled k) (fun es es' => map no_bytes es' = map (finer k) es /\ short es') (header_finer k) env (fun b b' => track_read_short env k b b' K) ltac:(unfold header_finer; tauto) tag h h' items items' r r' R R'
    (fun w w' => header_read k tag h h' w w' K HS) M) as H.
  destruct (decode env r) as [s| | | |], (decode env r') as [s'| | | |]; cbn [alike] in *; try contradiction; try exact I.
  destruct H as [H T]. split; [split; [exact H|]|]; clear - T; induction T as [|t t' ts ts' (A & B & [C D] & E) T IH]; constructor; auto. repeat split; auto.
Qed.
