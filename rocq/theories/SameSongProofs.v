(** * SameSongProofs: the way a file writes its messages does not matter (C114). *)
From Verif Require Import Base Strings Tables Vlq SpecVlq Event SpecEvent Parse Track File Marshal ParseProofs SpecPacket DecodeProofs SpecFile FileProofs SpecHistory
  TrackProofs CrashProofs Hex Json JsonText Validate ValidateText Transpose Notes Tsv Csv Flags Cli SpecNames NamesProofs SpecSameSong.

(** ** Decoding *)

Definition nb (e e' : event) : Prop := no_bytes e = no_bytes e'.

Lemma unmarshal_meta_raw : forall env tick delta ty data raw raw', alike nb (unmarshal_meta env tick delta ty data raw) (unmarshal_meta env tick delta ty data raw').
Proof.
  intros env tick delta ty data raw raw'. unfold unmarshal_meta. destruct (text_kind ty) as [k|]; [reflexivity|].
  repeat match goal with |- alike _ (if ?c then _ else _) _ => destruct c end; try exact I; try reflexivity.
  all: unfold unmarshal_seqspec, make_sequencer_specific, unmarshal_smpte, make_smpte_offset, unmarshal_key, make_key_signature, make_channel_prefix, make_port, make_time_signature.
  all: repeat match goal with
    | |- context[match ?d with [] => _ | _ => _ end] => destruct d
    | |- context[if ?c then _ else _] => destruct c
    | |- context[match ?d with Some _ => _ | None => _ end] => destruct d
    end; try exact I; try reflexivity.
  destruct (log2_loop _ _ _ _); cbn [bind]; try exact I; reflexivity.
Qed.

Lemma new_event_raw : forall x y, alike nb x y -> alike nb (new_event x) (new_event y).
Proof. intros [e| | | |] [e'| | | |] H; cbn in H; try contradiction; cbn; auto. Qed.

Lemma read_packet_raw : forall env c tick delta k p p',
  alike (fun x y => nb (fst x) (fst y) /\ snd x = snd y) (read_packet env c tick delta k p) (read_packet env c tick delta k p').
Proof.
  assert (K : forall x y (c : ctx), alike nb x y -> alike (fun x y => nb (fst x) (fst y) /\ snd x = snd y) (do e <- x; Ok (e, c)) (do e <- y; Ok (e, c))).
  { intros x y c H. apply (alike_bind _ _ _ _ nb); [exact H|]. intros a b E. cbn. auto. }
  intros env c tick delta [st data|ty data|st data] p p'; cbn [read_packet].
  - apply K, new_event_raw. pose proof (unmarshal_midi_raw env (tick + delta) delta st data p p') as U.
    destruct (unmarshal_midi env (tick + delta) delta st data p), (unmarshal_midi env (tick + delta) delta st data p'); try contradiction; exact U.
  - apply K, new_event_raw, unmarshal_meta_raw.
  - destruct (st =? 240).
    + destruct (c_casio c); [exact I|]. apply K. unfold unmarshal_sysex. destruct data as [|a [|b data]]; try exact I. destruct (ends_f7 _); reflexivity.
    + apply K. destruct (c_casio c); [|reflexivity]. unfold unmarshal_continuation. destruct data; reflexivity.
Qed.

Lemma read_packet_running : forall env c tick delta k raw e c', read_packet env c tick delta k raw = Ok (e, c') -> c_running c' = status_after k.
Proof.
  intros env c tick delta [st data|ty data|st data] raw e c' H; cbn [read_packet] in H.
  - destruct (new_event _); try discriminate. injection H as <- <-. reflexivity.
  - destruct (new_event _); try discriminate. injection H as <- <-. reflexivity.
  - destruct (st =? 240).
    + destruct (c_casio c); [discriminate|]. destruct (unmarshal_sysex _ _ _ _ _); try discriminate. injection H as <- <-. reflexivity.
    + destruct (c_casio c); [destruct (unmarshal_continuation _ _ _ _); try discriminate|]; injection H as <- <-; reflexivity.
Qed.

Lemma packets_loop : forall env l rs x, packets rs l x -> forall y rest c tick, c_running c = rs -> packets rs l y ->
  without_bytes (loop_from env c tick (x ++ rest)) = without_bytes (loop_from env c tick (y ++ rest)).
Proof.
  intros env l rs x P. induction P as [rs|rs delta k l p r S P IH]; intros y rest c tick C Q.
  - inversion Q; subst. reflexivity.
  - inversion Q as [|rs' delta' k' l' p' r' S' P']; subst rs' delta' k' l' y. rewrite <- !app_assoc. apply loop_parse_raw.
    rewrite <- C in S, S'. rewrite (parse_shape env c tick p delta k (r ++ rest) S), (parse_shape env c tick p' delta k (r' ++ rest) S').
    pose proof (read_packet_raw env c tick delta k p p') as R.
    destruct (read_packet env c tick delta k p) as [[e c1]| | | |] eqn:E, (read_packet env c tick delta k p') as [[e' c1']| | | |]; cbn [alike fst snd] in R; try contradiction; cbn [bind]; try exact I.
    destruct R as [R <-]. split; [exact R|]. split; [reflexivity|]. intros c2 t C2. apply IH; [|exact P']. rewrite C2. exact (read_packet_running _ _ _ _ _ _ _ _ E).
Qed.

Theorem same_track_read : forall env b b', same_track b b' -> without_bytes (decode_events env new_context b) = without_bytes (decode_events env new_context b').
Proof.
  intros env b b' (l & x & y & rest & P & Q & -> & ->). rewrite !decode_events_eq. exact (packets_loop env l 0 x P y rest new_context 0 eq_refl Q).
Qed.

Definition trackread (t t' : mtrk) : Prop := track_read t = track_read t'.
Definition tracksread (ts ts' : list mtrk) : Prop := map track_read ts = map track_read ts'.

Lemma mtrk_read : forall env n tag payload payload' w w', chunk_bytes tag payload w -> chunk_bytes tag payload' w' -> same_track payload payload' ->
  alike trackread (unmarshal_mtrk env n new_context w) (unmarshal_mtrk env n new_context w').
Proof.
  intros env n tag payload payload' w w' C C' H. apply (same_track_read env) in H.
  destruct C as [a b c d l0 l1 l2 l3 payload _ _ _ _ _]. inversion C' as [a' b' c' d' m0 m1 m2 m3 q _ _ _ _ _]; subst. cbn [app unmarshal_mtrk].
  destruct (negb _); [exact I|]. destruct (decode_events env new_context payload) as [[es c1]| | | |], (decode_events env new_context payload') as [[es' c1']| | | |]; cbn [without_bytes] in H; try discriminate H; try exact I.
  injection H as E <-. cbn [bind alike]. unfold trackread, track_read. cbn [t_tag t_number t_events t_ctx]. rewrite E. reflexivity.
Qed.

Lemma tracks_read : forall env items items' ws ws', wires items ws -> wires items' ws' -> Forall2 (fun it it' => fst it = fst it' /\ same_track (snd it) (snd it')) items items' ->
  forall n, alike tracksread (decode_tracks env n ws) (decode_tracks env n ws').
Proof.
  intros env items items' ws ws' W W' H. revert ws ws' W W'. induction H as [|it it' items items' [T B] H IH]; intros ws ws' W W' n.
  - inversion W; inversion W'; subst. reflexivity.
  - inversion W as [|? w ? ws1 C W1]; inversion W' as [|? w' ? ws1' C' W1']; subst. cbn [decode_tracks].
    rewrite T in C. destruct (chunk_wire_det _ _ _ C) as [_ ->], (chunk_wire_det _ _ _ C') as [_ ->]. destruct (bytes_eqb _ _); [|apply IH; assumption].
    apply (alike_bind _ _ _ _ trackread); [exact (mtrk_read env n _ _ _ _ _ C C' B)|]. intros t t' E. apply (alike_bind _ _ _ _ tracksread); [apply IH; assumption|].
    intros ts ts' F. cbn [alike]. unfold tracksread, trackread in *. cbn [map]. congruence.
Qed.

Lemma mtrk_items : forall items items', Forall2 (fun it it' => same_track (snd it) (snd it')) (filter is_mtrk items) (filter is_mtrk items') ->
  Forall2 (fun it it' => fst it = fst it' /\ same_track (snd it) (snd it')) (filter is_mtrk items) (filter is_mtrk items').
Proof.
  intros items items' H. assert (A : Forall (fun it => is_mtrk it = true) (filter is_mtrk items)) by (apply Forall_forall; intros x X; apply filter_In in X; tauto).
  assert (A' : Forall (fun it => is_mtrk it = true) (filter is_mtrk items')) by (apply Forall_forall; intros x X; apply filter_In in X; tauto).
  induction H as [|x y l l' X H IH]; [constructor|]. constructor; [|apply IH; [exact (Forall_inv_tail A)|exact (Forall_inv_tail A')]]. split; [|exact X].
  apply Forall_inv in A, A'. unfold is_mtrk in A, A'. apply bytes_eqb_eq in A, A'. congruence.
Qed.

Theorem song_read : forall env r r', same_song r r' -> alike same_reading (decode env r) (decode env r').
Proof.
  intros env r r' (header & items & items' & R & R' & H). destruct (readable_chunks _ _ R) as (ws & E & W), (readable_chunks _ _ R') as (ws' & E' & W').
  unfold decode. rewrite E, E'. cbn [bind]. inversion W as [|? w0 ? ws1 C W1]; inversion W' as [|? w0' ? ws1' C' W1']; subst.
  rewrite <- (chunk_bytes_det _ _ _ _ C C'). destruct (unmarshal_mthd w0) as [h| | | |]; cbn [bind]; try exact I.
  rewrite (decode_tracks_keep env items ws1 0 W1), (decode_tracks_keep env items' ws1' 0 W1').
  apply (alike_bind _ _ _ _ tracksread); [exact (tracks_read env _ _ _ _ (keep_file _ _ W1) (keep_file _ _ W1') (mtrk_items _ _ H) 0)|].
  intros ts ts' T. assert (L : zlen ts = zlen ts') by (unfold zlen; rewrite <- (map_length track_read ts), T, map_length; reflexivity). rewrite <- L.
  destruct (_ =? _); [|exact I]. split; [reflexivity|exact T].
Qed.

(** ** What is done with it *)

Definition trackgist (t t' : mtrk) : Prop := track_gist t = track_gist t'.
Definition tracksgist (ts ts' : list mtrk) : Prop := map track_gist ts = map track_gist ts'.
Definition file_gist (s : smf) : smf := SMF (f_mthd s) (map track_gist (f_tracks s)).
Lemma same_file_gist : forall s s', same_gist s s' -> file_gist s = file_gist s'.
Proof. intros s s' [H T]. unfold file_gist. rewrite H, T. reflexivity. Qed.

Lemma by_reading : forall A (f : smf -> A), (forall s, f (file_gist s) = f s) -> forall s s', same_gist s s' -> f s = f s'.
Proof. intros A f H s s' E. rewrite <- (H s), <- (H s'), (same_file_gist s s' E). reflexivity. Qed.

Lemma events_read : forall es, marshal_events (map no_bytes es) = marshal_events es.
Proof. induction es as [|e es IH]; [reflexivity|]. cbn [map marshal_events]. rewrite IH. destruct e; reflexivity. Qed.

Lemma encode_read : forall s, encode (file_gist s) = encode s.
Proof.
  intros [h ts]. unfold encode, file_gist, zlen. cbn [f_mthd f_tracks]. rewrite map_length.
  assert (E : encode_tracks (map track_gist ts) = encode_tracks ts); [|rewrite E; reflexivity].
  induction ts as [|t ts IH]; [reflexivity|]. cbn [map encode_tracks]. unfold encode_mtrk, track_gist at 1 2. cbn [t_events t_tag]. rewrite events_read, IH. reflexivity.
Qed.

(** The bytes of a transposed event do not depend on the context. *)
Definition same_wire (e e' : event) : Prop := marshal e = marshal e' /\ e_delta e = e_delta e'.
Definition both (c d : option ctx) : Prop := match c, d with Some _, Some _ | None, None => True | _, _ => False end.

Lemma transpose_events_gist : forall env n es c d, both c d ->
  alike (fun x y => marshal_events x = marshal_events y) (transpose_events env c n (map no_bytes es)) (transpose_events env d n es).
Proof.
  intros env n. induction es as [|e es IH]; intros c d B; [reflexivity|]. cbn [map transpose_events].
  apply (alike_bind _ _ _ _ (fun x y => same_wire (fst x) (fst y) /\ both (snd x) (snd y))).
  - destruct e as [t dt bs st ty b]. unfold transpose_event, no_bytes. cbn [e_body e_tick e_delta].
    destruct b; try (split; [split; reflexivity|exact B]); destruct c, d; try contradiction; try exact I; try (split; [split; reflexivity|exact I]);
      destruct (key_scale _ _) as [s| | | |]; cbn [bind]; try exact I; destruct (scale_transpose s n); cbn [bind]; try exact I; split; try exact I; split; reflexivity.
  - intros [x c1] [y c2] [[X Y] Z]. cbn [fst snd] in *. apply (alike_bind _ _ _ _ (fun x y => marshal_events x = marshal_events y)); [apply IH, Z|].
    intros a b E. cbn [alike marshal_events]. rewrite X, Y, E. reflexivity.
Qed.

Lemma transpose_read : forall env n s, transpose_execute env n (file_gist s) = transpose_execute env n s.
Proof.
  intros env n [h ts]. unfold transpose_execute, transpose_smf, file_gist. cbn [f_mthd f_tracks]. apply alike_eq.
  apply (alike_bind _ _ _ _ (fun x y => encode x = encode y)).
  - apply (alike_bind _ _ _ _ (fun x y => length x = length y /\ encode_tracks x = encode_tracks y)).
    2:{ intros a b [E F]. cbn [alike]. unfold encode, zlen. cbn [f_mthd f_tracks]. rewrite E, F. reflexivity. }
    induction ts as [|t ts IH]; [split; reflexivity|]. cbn [map transpose_tracks]. apply (alike_bind _ _ _ _ (fun x y => encode_mtrk x = encode_mtrk y)).
    + unfold transpose_track, track_gist. cbn [t_ctx t_events t_number t_tag]. apply (alike_bind _ _ _ _ (fun x y => marshal_events x = marshal_events y)).
      * apply transpose_events_gist. destruct (t_ctx t); exact I.
      * intros a b E. cbn [alike]. unfold encode_mtrk. cbn [t_events t_tag]. rewrite E. reflexivity.
    + intros a b E. apply (alike_bind _ _ _ _ (fun x y => length x = length y /\ encode_tracks x = encode_tracks y)); [exact IH|]. intros x y [F G]. cbn [alike length encode_tracks].
      rewrite E, F, G. split; reflexivity.
  - intros a b E. rewrite E. apply alike_refl. reflexivity.
Qed.

Lemma export_read : forall s, export_text (file_gist s) = export_text s.
Proof.
  intros [h ts]. unfold export_text, export_json_with, file_gist. cbn [f_mthd f_tracks]. rewrite map_map.
  rewrite (map_ext (fun x => jmtrk_with JStr (track_gist x)) (jmtrk_with JStr)); [reflexivity|]. intro t. unfold jmtrk_with, track_gist. cbn [t_tag t_number t_events]. rewrite map_map.
  rewrite (map_ext (fun x => marshal_json_with JStr (no_bytes x)) (marshal_json_with JStr)); [reflexivity|]. intros []; reflexivity.
Qed.

Lemma tsv_read : forall s, tsv_export (file_gist s) = tsv_export s.
Proof.
  intros [h ts]. unfold tsv_export, file_gist. cbn [f_tracks]. rewrite map_length.
  assert (F : forall n, fold_left (fun rows t => if (rows <? length (t_events t))%nat then length (t_events t) else rows) (map track_gist ts) n =
              fold_left (fun rows t => if (rows <? length (t_events t))%nat then length (t_events t) else rows) ts n).
  { induction ts as [|t ts IH]; intro n; [reflexivity|]. cbn [map fold_left]. rewrite IH. cbn [track_gist t_events]. rewrite map_length. reflexivity. }
  rewrite F. assert (T : forall r i, set_titles r i (map track_gist ts) = set_titles r i ts).
  { clear F. induction ts as [|t ts IH]; intros r i; [reflexivity|]. cbn [map set_titles]. destruct (set_cells _ _ _ _); cbn [bind]; try reflexivity. apply IH. }
  rewrite T. assert (S : forall r i, set_tracks r i (map track_gist ts) = set_tracks r i ts).
  { clear F T. induction ts as [|t ts IH]; intros r i; [reflexivity|]. cbn [map set_tracks]. cbn [track_gist t_events].
    assert (E : forall es r row col, set_events r row col (map no_bytes es) = set_events r row col es).
    { clear. induction es as [|e es IH]; intros r row col; [reflexivity|]. cbn [map set_events]. change (fields (no_bytes e)) with (fields e). destruct (set_cells _ _ _ _); cbn [bind]; try reflexivity. apply IH. }
    rewrite E. destruct (set_events _ _ _ _); cbn [bind]; try reflexivity. apply IH. }
  destruct (set_titles _ _ ts); cbn [bind]; try reflexivity. apply S.
Qed.

Lemma unsorted_read : forall es tm, unsorted (map no_bytes es) (map no_bytes tm) = unsorted es tm.
Proof. intros es tm. unfold unsorted. rewrite !map_map. reflexivity. Qed.

Lemma tempo_read : forall es, tempo_events (map no_bytes es) = map no_bytes (tempo_events es).
Proof. intro es. unfold tempo_events. apply filter_map. reflexivity. Qed.

Lemma extract_read : forall env n order s, extract env n order (file_gist s) = extract env n order s.
Proof.
  intros env n order [h ts]. unfold extract, file_gist. cbn [f_mthd f_tracks]. destruct ts as [|t ts]; [reflexivity|]. cbn [map].
  assert (T : forall ppqn, tracks_notes env n order (tempo_events (t_events (track_gist t))) ppqn (map track_gist ts) = tracks_notes env n order (tempo_events (t_events t)) ppqn ts).
  { intro ppqn. cbn [track_gist t_events]. rewrite tempo_read. induction ts as [|x ts IH]; [reflexivity|]. cbn [map tracks_notes]. rewrite IH. unfold track_notes, build_track_events.
    cbn [track_gist t_events]. rewrite unsorted_read. reflexivity. }
  destruct ts as [|t1 ts]; [reflexivity|]. destruct h as [h|]; [|reflexivity]. apply T.
Qed.

Lemma click_read : forall s, click_lines (file_gist s) = click_lines s.
Proof.
  intros [h ts]. unfold click_lines, file_gist. cbn [f_mthd f_tracks].
  destruct ts as [|t ts]; [reflexivity|]. destruct h; [|reflexivity]. cbn [map].
  assert (N : forall (p : event -> bool) l, (forall e, p e = false) -> filter p l = []) by (intros p l F; induction l as [|x l IH]; [reflexivity|]; cbn [filter]; rewrite F; exact IH).
  destruct ts as [|t1 ts]; [reflexivity|]. cbn [map]. unfold click_events. rewrite !(N as_tempo_pointer) by (intros []; reflexivity). rewrite !(N (fun e => as_time_signature_pointer e || as_end_of_track_pointer e)) by (intros []; reflexivity). reflexivity.
Qed.

(** A report without the bytes of the event it quotes *)
Definition report_read (v : verror) : verror :=
  match v with
  | VTrack0Unexpected e => VTrack0Unexpected (no_bytes e)
  | VTrackUnexpected t e => VTrackUnexpected t (no_bytes e)
  | VEotNotLast t i e => VEotNotLast t i (no_bytes e)
  | _ => v
  end.

Lemma eot_read : forall tr n es i, eot_scan tr n i (map no_bytes es) = (map report_read (fst (eot_scan tr n i es)), snd (eot_scan tr n i es)).
Proof.
  intros tr n. induction es as [|e es IH]; intro i; [reflexivity|]. cbn [map eot_scan]. rewrite IH. destruct (eot_scan tr n (i + 1) es) as [errs found]. cbn [fst snd].
  change (is_eot (no_bytes e)) with (is_eot e). destruct (is_eot e); [|reflexivity]. cbn [fst snd]. rewrite map_app. destruct (i + 1 =? n); reflexivity.
Qed.

Lemma bank_read : forall tr es i last, bank_scan tr i last (map no_bytes es) = map report_read (bank_scan tr i last es).
Proof.
  intros tr. induction es as [|e es IH]; intros i last; [reflexivity|]. cbn [map bank_scan]. rewrite map_app, IH. change (e_body (no_bytes e)) with (e_body e). f_equal.
  assert (Q : forall l, Forall (fun v => report_read v = v) l -> l = map report_read l) by (intros l F; induction F as [|v l V F IHF]; [reflexivity|]; cbn [map]; rewrite V; f_equal; exact IHF).
  apply Q. unfold bank_check. apply Forall_app; split; [|apply Forall_app; split]; repeat match goal with |- context[match ?x with _ => _ end] => destruct x end; repeat constructor.
Qed.

Lemma concat_read : forall (f : mtrk -> list verror) ts, (forall t, f (track_gist t) = map report_read (f t)) -> concat (map f (map track_gist ts)) = map report_read (concat (map f ts)).
Proof. intros f ts H. induction ts as [|t ts IH]; [reflexivity|]. cbn [map concat]. rewrite map_app, H, IH. reflexivity. Qed.

Lemma validate_read : forall s, validate (file_gist s) = omap (map report_read) (validate s).
Proof.
  intros [h ts]. unfold validate, file_gist. cbn [f_mthd f_tracks]. destruct h as [h|]; [|reflexivity].
  assert (F0 : validate_format0 (SMF (Some h) (map track_gist ts)) = map report_read (validate_format0 (SMF (Some h) ts))).
  { unfold validate_format0, zlen. cbn [f_tracks]. rewrite map_length. destruct (_ =? _); reflexivity. }
  assert (F1 : validate_format1 (SMF (Some h) (map track_gist ts)) = omap (map report_read) (validate_format1 (SMF (Some h) ts))).
  { unfold validate_format1. cbn [f_tracks]. destruct ts as [|t ts]; [reflexivity|]. cbn [map omap bind]. rewrite map_app. f_equal. f_equal.
    - cbn [track_gist t_events]. rewrite (filter_map _ _ no_bytes _ (fun e => negb (is_track0_event e))) by reflexivity. rewrite !map_map. reflexivity.
    - rewrite <- concat_read; [reflexivity|]. intro x. cbn [track_gist t_events t_number]. rewrite (filter_map _ _ no_bytes _ (fun e => negb (is_track1_event e))) by reflexivity.
      rewrite !map_map. reflexivity. }
  rewrite F1, F0. rewrite (concat_read validate_eot ts).
  2:{ intro t. unfold validate_eot, zlen. cbn [track_gist t_number t_events]. rewrite map_length, eot_read. destruct (eot_scan _ _ _ _) as [errs found]. cbn [fst snd]. rewrite map_app. destruct found; reflexivity. }
  rewrite (concat_read (fun t => bank_scan (t_number t) 0 None (t_events t)) ts) by (intro t; apply bank_read).
  clear F0 F1. unfold omap. destruct (h_format h =? 0), (h_format h =? 1), (validate_format1 (SMF (Some h) ts)); cbn [bind]; rewrite ?map_app; reflexivity.
Qed.

Lemma warning_read : forall s, validation_warning (file_gist s) = validation_warning s.
Proof.
  intro s. unfold validation_warning. rewrite validate_read. unfold omap. destruct (validate s) as [errs| | | |]; cbn [bind]; try reflexivity. f_equal. unfold validation_report.
  destruct errs as [|v errs]; [reflexivity|]. cbn [map].
  assert (M : forall v, message (report_read v) = message v) by (intros []; reflexivity).
  assert (F : forall l, flat_map (fun v => str "         ** " ++ message v ++ [10]) (map report_read l) = flat_map (fun v => str "         ** " ++ message v ++ [10]) l).
  { induction l as [|x l IH]; [reflexivity|]. cbn [map flat_map]. rewrite IH, M. reflexivity. }
  change (report_read v :: map report_read errs) with (map report_read (v :: errs)). rewrite F. reflexivity.
Qed.

Lemma validate_alike : forall s s', same_gist s s' -> alike (fun _ _ => True) (validate s) (validate s').
Proof.
  intros s s' H. pose proof (validate_read s) as E. rewrite (same_file_gist s s' H), validate_read in E.
  destruct (validate s), (validate s'); cbn [omap bind] in E; try discriminate E; exact I.
Qed.

Lemma gist_used : forall s s', same_gist s s' ->
  encode s = encode s' /\ export_text s = export_text s' /\ tsv_export s = tsv_export s' /\ click_lines s = click_lines s' /\ validation_warning s = validation_warning s' /\
  (forall env n, transpose_execute env n s = transpose_execute env n s') /\ (forall env n order, extract env n order s = extract env n order s').
Proof.
  intros s s' H. repeat split; intros; apply by_reading; try exact H; intro x.
  - apply encode_read.
  - apply export_read.
  - apply tsv_read.
  - apply click_read.
  - apply warning_read.
  - apply transpose_read.
  - apply extract_read.
Qed.

Lemma reading_gist : forall s s', same_reading s s' -> same_gist s s'.
Proof.
  intros s s' [H T]. split; [exact H|]. revert T. generalize (f_tracks s) (f_tracks s'). induction l as [|t ts IH]; intros [|t' ts'] T; try discriminate T; [reflexivity|].
  cbn [map] in *. injection T as T1 T2 T3 T4 T5. rewrite (IH ts' T5). unfold track_gist. rewrite T1, T2, T3, T4. reflexivity.
Qed.

Theorem song_used : forall s s', same_reading s s' ->
  encode s = encode s' /\ export_text s = export_text s' /\ tsv_export s = tsv_export s' /\ click_lines s = click_lines s' /\ validation_warning s = validation_warning s' /\
  (forall env n, transpose_execute env n s = transpose_execute env n s') /\ (forall env n order, extract env n order s = extract env n order s').
Proof. intros s s' H. apply gist_used, reading_gist, H. Qed.

(** ** Runs *)

(** For files related in whatever way, as long as they are read alike with the built-in table *)
Definition disks_by (Rel : bytes -> bytes -> Prop) (d d' : files) : Prop :=
  forall i, d i = d' i \/ exists r r', d i = Some r /\ d' i = Some r' /\ Rel r r'.
Definition run_by (Rel : bytes -> bytes -> Prop) (x y : result) : Prop :=
  r_ending x = r_ending y /\ r_stdout x = r_stdout y /\ disks_by Rel (r_files x) (r_files y).
Definition read_by (Rel : bytes -> bytes -> Prop) : Prop :=
  forall c4 r r', Rel r r' -> alike same_gist (decode (Env c4 manufacturers) r) (decode (Env c4 manufacturers) r').

Lemma disks_refl : forall Rel d, disks_by Rel d d.
Proof. intros Rel d i. left. reflexivity. Qed.

Lemma put_same : forall Rel w d d' p bs, disks_by Rel d d' -> disks_by Rel (put w d p bs) (put w d' p bs).
Proof. intros Rel w d d' p bs H i. unfold put. destruct (i =? w_file w p); [left; reflexivity|apply H]. Qed.

Lemma ends_same : forall Rel e d d', disks_by Rel d d' -> run_by Rel (ends e d) (ends e d').
Proof. intros Rel e d d' H. repeat split. exact H. Qed.

Lemma created_same : forall Rel w d d' out op partial, disks_by Rel d d' -> run_by Rel (created w d out op partial) (created w d' out op partial).
Proof.
  intros Rel w d d' out op partial H. unfold created. destruct (bytes_eqb out []); [destruct op; repeat split; exact H|].
  destruct (w_creatable w out); apply ends_same; [apply put_same, H|exact H].
Qed.

Lemma feeds_same : forall Rel x y, run_by Rel x y -> run_by Rel (with_feeds x) (with_feeds y).
Proof.
  intros Rel [e o f] [e' o' f'] (E & S' & D). cbn [r_ending r_stdout r_files] in E, S', D. subst e' o'. unfold with_feeds. cbn [r_ending r_stdout r_files].
  destruct e as [c| |]; [destruct (c =? 0)| |]; repeat split; exact D.
Qed.

Lemma written_same : forall Rel w d d' out op, disks_by Rel d d' -> run_by Rel (written w d out op) (written w d' out op).
Proof.
  intros Rel w d d' out op H. unfold written. destruct op; try (apply ends_same; exact H). destruct (bytes_eqb out []); [apply ends_same; exact H|].
  destruct (w_creatable w out); apply ends_same; [apply put_same, H|exact H].
Qed.

Lemma loaded_same : forall Rel w d d' c4 file k k', read_by Rel -> disks_by Rel d d' -> (forall s, run_by Rel (k s) (k' s)) -> (forall s s', same_gist s s' -> k' s = k' s') ->
  run_by Rel (loaded w d (Env c4 manufacturers) file k) (loaded w d' (Env c4 manufacturers) file k').
Proof.
  intros Rel w d d' c4 file k k' RB H K L. set (env := Env c4 manufacturers). unfold loaded, read_file. destruct (bytes_eqb file []); [apply ends_same, H|].
  destruct (H (w_file w file)) as [->|(r & r' & -> & -> & E)].
  - destruct (d' (w_file w file)) as [r|]; [|apply ends_same, H]. destruct (decode env r) as [s| | | |]; try (apply ends_same, H). destruct (validate s); try (apply ends_same, H). apply K.
  - pose proof (RB c4 r r' E : alike same_gist (decode env r) (decode env r')) as R. destruct (decode env r) as [s| | | |], (decode env r') as [s'| | | |]; cbn [alike] in R; try contradiction; try (apply ends_same, H).
    pose proof (validate_alike s s' R) as V. destruct (validate s), (validate s'); cbn [alike] in V; try contradiction; try (apply ends_same, H). rewrite <- (L s s' R). apply K.
Qed.

Theorem gist_runs : forall Rel w d d' n args, read_by Rel -> disks_by Rel d d' -> In n (map str ["transpose"; "notes"; "click"; "export"; "tsv"; "humanise"]%string) ->
  run_by Rel (run w d (n :: args)) (run w d' (n :: args)).
Proof.
  intros Rel w d d' n args RB H I. unfold run.
  assert (C : exists c, choose (n :: args) = (c, args) /\ In c [Transpose_; Notes_; Click_; Export_; Tsv_; Humanise_]).
  { cbn [map In] in I. repeat (destruct I as [<-|I]; [eexists; split; [vm_compute; reflexivity|cbn [In]; tauto]|]). destruct I. }
  destruct C as (c & -> & C). destruct (parse_flags (flagset c) args) as [vs rest|code]; [|apply ends_same, H]. unfold execute. cbv zeta.
  cbn [In] in C. repeat (destruct C as [<-|C]); [| | | | | |destruct C].
  - apply loaded_same; [exact RB|exact H|intro s; apply written_same, H|]. intros s s' E. apply gist_used in E as (_ & _ & _ & _ & _ & E & _). rewrite E. reflexivity.
  - apply loaded_same; [exact RB|exact H|intro s; apply created_same, H|]. intros s s' E. apply gist_used in E as (_ & _ & _ & _ & _ & _ & E). rewrite E. reflexivity.
  - apply loaded_same; [exact RB|exact H|intro s; apply feeds_same, created_same, H|]. intros s s' E. apply gist_used in E as (_ & _ & _ & E & _). rewrite E. reflexivity.
  - apply loaded_same; [exact RB|exact H|intro s; apply created_same, H|]. intros s s' E. apply gist_used in E as (_ & E & _). rewrite E. reflexivity.
  - apply loaded_same; [exact RB|exact H| |].
    + intro s. destruct (tsv_export s); try (apply ends_same, H). destruct (bytes_eqb _ _); [repeat split; exact H|apply created_same, H].
    + intros s s' E. apply gist_used in E as (_ & _ & E & _). rewrite E. reflexivity.
  - apply loaded_same; [exact RB|exact H|intro s; apply ends_same, H|reflexivity].
Qed.

Lemma song_alike : forall env r r', same_song r r' -> alike same_gist (decode env r) (decode env r').
Proof.
  intros env r r' E. pose proof (song_read env r r' E) as R. destruct (decode env r), (decode env r'); cbn [alike] in *; try contradiction; try exact I. apply reading_gist, R.
Qed.

Theorem song_runs : forall w d d' n args, same_disks d d' -> In n (map str ["transpose"; "notes"; "click"; "export"; "tsv"; "humanise"]%string) ->
  same_run (run w d (n :: args)) (run w d' (n :: args)).
Proof. intros w d d' n args H I. apply (gist_runs same_song); [intros c4 r r'; apply song_alike|exact H|exact I]. Qed.
