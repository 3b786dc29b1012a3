(** * NamesProofs: the settings change names only (C97, C98). *)
From Verif Require Import Base Strings Tables Vlq Event SpecEvent Parse Track File Marshal Validate Transpose Notes DecodedProofs SpecNames.

Lemma alike_eq : forall A (x y : outcome A), alike eq x y -> x = y.
Proof. intros A [a| | | |] [b| | | |] H; cbn in H; try contradiction; congruence. Qed.
Lemma alike_refl : forall A (R : A -> A -> Prop) x, (forall a, R a a) -> alike R x x.
Proof. intros A R [a| | | |] H; cbn; auto. Qed.
Lemma alike_bind : forall A A' B B' (R : A -> A' -> Prop) (T : B -> B' -> Prop) x y f g, alike R x y -> (forall a b, R a b -> alike T (f a) (g b)) -> alike T (bind x f) (bind y g).
Proof. intros A A' B B' R T [a| | | |] [b| | | |] f g H F; cbn in H; try contradiction; cbn [bind]; try exact I. apply F, H. Qed.

Definition evrel (e e' : event) : Prop := bare_event e = bare_event e'.
Definition ctxrel (c c' : ctx) : Prop := bare_ctx c = bare_ctx c'.

Lemma evrel_delta : forall e e', evrel e e' -> e_delta e = e_delta e'.
Proof. intros e e' H. apply (f_equal e_delta) in H. exact H. Qed.
Lemma evrel_body : forall e e', evrel e e' -> bare (e_body e) = bare (e_body e').
Proof. intros e e' H. apply (f_equal e_body) in H. exact H. Qed.

Ltac cases := repeat match goal with |- context[if ?b then _ else _] => destruct b end; try reflexivity; try exact I.

Lemma midi_rel : forall a b tick delta st data bs, alike evrel (unmarshal_midi a tick delta st data bs) (unmarshal_midi b tick delta st data bs).
Proof.
  intros a b tick delta st data bs. unfold unmarshal_midi, make_note_off, make_note_on.
  repeat match goal with |- alike _ (if ?c then _ else _) _ => destruct c end; try (apply alike_refl; reflexivity); destruct data as [|x [|y data]]; try exact I; cases.
Qed.

Lemma vlq_rest_bytes : forall r acc v r', is_bytes r -> vlq_read acc r = Some (v, r') -> is_bytes r'.
Proof.
  induction r as [|x r IH]; intros acc v r' B H; cbn [vlq_read] in H; [discriminate H|]. apply Forall_inv_tail in B. destruct (_ =? 0); [|exact (IH _ _ _ B H)]. injection H as _ <-. exact B.
Qed.
Lemma firstn_bytes : forall n r, is_bytes r -> is_bytes (firstn n r).
Proof. intros n r B. rewrite <- (firstn_skipn n r) in B. apply Forall_app in B as [B _]. exact B. Qed.
Lemma skipn_bytes : forall n r, is_bytes r -> is_bytes (skipn n r).
Proof. intros n r B. rewrite <- (firstn_skipn n r) in B. apply Forall_app in B as [_ B]. exact B. Qed.
Lemma slice_vlq_bytes : forall bs d r, is_bytes bs -> slice_vlq bs = Ok (d, r) -> is_bytes r.
Proof. intros bs d r B H. unfold slice_vlq in H. destruct (vlq_read 0 bs) as [[x y]|] eqn:E; [|discriminate H]. injection H as <- <-. exact (vlq_rest_bytes _ _ _ _ B E). Qed.
Lemma slice_vlf_bytes : forall bs d, is_bytes bs -> slice_vlf bs = Ok d -> is_bytes d.
Proof.
  intros bs d B H. unfold slice_vlf in H. destruct (slice_vlq bs) as [[n r]| | | |] eqn:E; try discriminate H. cbn [bind] in H. destruct (_ <? _); [discriminate H|]. injection H as <-.
  apply firstn_bytes. exact (slice_vlq_bytes _ _ _ B E).
Qed.
Lemma stream_vlq_bytes : forall bs d r, is_bytes bs -> stream_vlq bs = Ok (d, r) -> is_bytes r.
Proof. intros bs d r B H. unfold stream_vlq in H. destruct (vlq_read 0 bs) as [[x y]|] eqn:E; [|discriminate H]. injection H as <- <-. exact (vlq_rest_bytes _ _ _ _ B E). Qed.
Lemma stream_vlf_bytes : forall bs d r, is_bytes bs -> stream_vlf bs = Ok (d, r) -> is_bytes r.
Proof.
  intros bs d r B H. unfold stream_vlf in H. destruct (stream_vlq bs) as [[n x]| | | |] eqn:E; try discriminate H. cbn [bind] in H. destruct (_ <? _); [discriminate H|]. injection H as <- <-.
  apply skipn_bytes. exact (stream_vlq_bytes _ _ _ B E).
Qed.

Lemma seqspec_rel : forall a b tick delta data bs, same_wire_ids a b -> is_bytes data -> alike evrel (unmarshal_seqspec a tick delta data bs) (unmarshal_seqspec b tick delta data bs).
Proof.
  intros a b tick delta data bs H B. unfold unmarshal_seqspec. destruct data as [|x data]; [exact I|]. pose proof (Forall_inv B) as X. unfold is_byte in X. destruct (Z.eqb_spec x 0) as [->|N].
  - destruct data as [|y [|z data]]; try exact I. pose proof (Forall_inv (Forall_inv_tail B)) as Y. pose proof (Forall_inv (Forall_inv_tail (Forall_inv_tail B))) as Z. unfold is_byte in Y, Z.
    cbn [alike]. unfold evrel, bare_event, make_sequencer_specific. cbn [e_tick e_delta e_bytes e_status e_type e_body bare]. rewrite (H [0; y; z]) by (left; apply wi_three; assumption). reflexivity.
  - cbn [alike]. unfold evrel, bare_event, make_sequencer_specific. cbn [e_tick e_delta e_bytes e_status e_type e_body bare]. rewrite (H [x]) by (left; apply wi_one; lia). reflexivity.
Qed.

Lemma unmarshal_meta_rel : forall a b tick delta ty data bs, same_wire_ids a b -> is_bytes data -> alike evrel (unmarshal_meta a tick delta ty data bs) (unmarshal_meta b tick delta ty data bs).
Proof.
  intros a b tick delta ty data bs H B. unfold unmarshal_meta. destruct (text_kind ty); [apply alike_refl; reflexivity|].
  repeat match goal with |- alike _ (if ?c then _ else _) _ => destruct c end; try (apply alike_refl; reflexivity). apply seqspec_rel; assumption.
Qed.

Lemma meta_rel : forall a b tick bs, same_wire_ids a b -> is_bytes bs -> alike evrel (meta_parse a tick bs) (meta_parse b tick bs).
Proof.
  intros a b tick bs H B. unfold meta_parse. destruct (slice_vlq bs) as [[d r]| | | |] eqn:E; cbn [bind]; try exact I. apply (slice_vlq_bytes _ _ _ B) in E. destruct r as [|st r]; [exact I|]. destruct (negb (st =? 255)); [exact I|].
  destruct r as [|ty r]; [exact I|]. destruct (slice_vlf r) eqn:F; cbn [bind]; try exact I. apply unmarshal_meta_rel; [exact H|]. apply (slice_vlf_bytes r); [|exact F]. exact (Forall_inv_tail (Forall_inv_tail E)).
Qed.

Lemma sysex_rel : forall a b tick casio bs, same_wire_ids a b -> is_bytes bs -> alike evrel (sysex_parse a tick casio bs) (sysex_parse b tick casio bs).
Proof.
  intros a b tick casio bs H B. unfold sysex_parse. destruct (slice_vlq bs) as [[d r]| | | |] eqn:E; cbn [bind]; try exact I. apply (slice_vlq_bytes _ _ _ B) in E. destruct r as [|st r]; [exact I|]. destruct (negb _); [exact I|].
  destruct (slice_vlf r) as [data| | | |] eqn:F; cbn [bind]; try exact I. apply (slice_vlf_bytes _ _ (Forall_inv_tail E)) in F. destruct (st =? 240); [|apply alike_refl; reflexivity].
  unfold unmarshal_sysex. destruct data as [|x [|y data]]; try exact I. pose proof (Forall_inv F) as X. unfold is_byte in X.
  assert (M : m_id (lookup_manufacturer a [x]) = m_id (lookup_manufacturer b [x])).
  { apply H. destruct (Z.eq_dec x 0) as [->|N]; [right; reflexivity|left; apply wi_one; lia]. }
  destruct (ends_f7 (y :: data)); cbn [alike]; unfold evrel, bare_event, make_sysex; cbn [e_tick e_delta e_bytes e_status e_type e_body bare]; rewrite M; reflexivity.
Qed.

Lemma midi_parse_rel : forall a b tick run bs, alike evrel (midi_parse a tick run bs) (midi_parse b tick run bs).
Proof.
  intros a b tick run bs. unfold midi_parse. destruct (slice_vlq bs) as [[d r]| | | |]; cbn [bind]; try exact I. destruct r as [|st r]; [exact I|]. destruct (st <? 128); apply midi_rel.
Qed.

Lemma new_event_rel : forall x y, alike evrel x y -> alike evrel (new_event x) (new_event y).
Proof. intros [e| | | |] [e'| | | |] H; cbn in H; try contradiction; cbn; auto. Qed.

Definition parsed (x y : event * ctx * bytes) : Prop := let '(e, c, r) := x in let '(e', c', r') := y in evrel e e' /\ ctxrel c c' /\ r = r' /\ is_bytes r.

Lemma parse_rel : forall a b c c' tick r, same_wire_ids a b -> is_bytes r -> ctxrel c c' -> alike parsed (parse a c tick r) (parse b c' tick r).
Proof.
  intros a b [fl run cas bank notes] [fl' run' cas' bank' notes'] tick r H B C. unfold ctxrel, bare_ctx in C. cbn [c_flats c_running c_casio c_bank c_notes] in C. injection C as <- <- <- <- N.
  unfold parse. destruct (stream_vlq r) as [[d r1]| | | |] eqn:E0; cbn [bind]; try exact I. apply (stream_vlq_bytes _ _ _ B) in E0. destruct r1 as [|x r1]; [exact I|]. cbn [c_running c_casio].
  destruct ((x <? 128) && (run <? 128)); [exact I|]. cbv zeta. set (st := if x <? 128 then run else x). set (r2 := if x <? 128 then x :: r1 else r1).
  assert (B2 : is_bytes r2) by (unfold r2; destruct (x <? 128); [exact E0|exact (Forall_inv_tail E0)]).
  assert (K : forall run2 cas2, ctxrel (set_casio cas2 (set_running run2 (Ctx fl run cas bank notes))) (set_casio cas2 (set_running run2 (Ctx fl run cas bank notes')))) by (intros; unfold ctxrel, bare_ctx; cbn; rewrite N; reflexivity).
  destruct (st =? 255).
  - destruct r2 as [|y r3]; [exact I|]. destruct (stream_vlf r3) as [[z rest]| | | |] eqn:E1; cbn [bind]; try exact I.
    apply (alike_bind _ _ _ _ evrel); [apply new_event_rel, meta_rel; [exact H|apply firstn_bytes, B]|]. intros e e' E. split; [exact E|]. split; [exact (K 0 cas)|]. split; [reflexivity|exact (stream_vlf_bytes _ _ _ (Forall_inv_tail B2) E1)].
  - destruct ((st =? 240) || (st =? 247)).
    + destruct (stream_vlf r2) as [[z rest]| | | |] eqn:E1; cbn [bind]; try exact I. destruct ((st =? 240) && cas); [exact I|].
      apply (alike_bind _ _ _ _ evrel); [apply sysex_rel; [exact H|apply firstn_bytes, B]|]. intros e e' E. split; [exact E|]. split; [apply K|]. split; [reflexivity|exact (stream_vlf_bytes _ _ _ B2 E1)].
    + destruct (length r2 <? data_length st)%nat; [exact I|]. apply (alike_bind _ _ _ _ evrel); [apply new_event_rel, midi_parse_rel|].
      intros e e' E. split; [exact E|]. split; [exact (K st cas)|]. split; [reflexivity|apply skipn_bytes, B2].
Qed.

Lemma post_rel : forall a b c c' e e', evrel e e' -> ctxrel c c' -> evrel (fst (post_process a c e)) (fst (post_process b c' e')) /\ ctxrel (snd (post_process a c e)) (snd (post_process b c' e')).
Proof.
  intros a b [fl run cas bank notes] [fl' run' cas' bank' notes'] [t d bs st ty bd] [t' d' bs' st' ty' bd'] E C.
  unfold evrel, bare_event in E. cbn [e_tick e_delta e_bytes e_status e_type e_body] in E. injection E as <- <- <- <- <- B.
  unfold ctxrel, bare_ctx in C. cbn [c_flats c_running c_casio c_bank c_notes] in C. injection C as <- <- <- <- N.
  unfold post_process. cbn [e_body]. destruct bd, bd'; cbn [bare] in B; try discriminate B; try (injection B; intros; subst);
    cbn [fst snd c_flats c_running c_casio c_bank c_notes use_scale set_bank put_note_on get_bank];
    repeat match goal with |- context[if ?x then _ else _] => destruct x end; cbn [fst snd];
    (split; [unfold evrel, bare_event, with_body, get_bank; cbn [e_tick e_delta e_bytes e_status e_type e_body bare n_value c_bank]; congruence
            |unfold ctxrel, bare_ctx, put_note_on, use_scale, set_bank, get_bank; cbn [c_flats c_running c_casio c_bank c_notes map fst]; congruence]).
Qed.

Definition evsrel (es es' : list event) : Prop := map bare_event es = map bare_event es'.
Definition looped (x y : list event * ctx) : Prop := evsrel (fst x) (fst y) /\ ctxrel (snd x) (snd y).

Lemma loop_rel : forall a b, same_wire_ids a b -> forall fuel c c' tick r, is_bytes r -> ctxrel c c' -> alike looped (events_loop fuel a c tick r) (events_loop fuel b c' tick r).
Proof.
  intros a b H. induction fuel as [|f IH]; intros c c' tick r B C; [exact I|]. cbn [events_loop]. pose proof (parse_rel a b c c' tick r H B C) as P.
  destruct (parse a c tick r) as [[[e c1] rest]| | | |], (parse b c' tick r) as [[[e' c1'] rest']| | | |]; cbn [alike] in P; try contradiction; try exact I.
  - destruct P as (E & C1 & <- & B1). destruct (post_rel a b c1 c1' e e' E C1) as [P1 P2]. destruct (post_process a c1 e) as [x c2], (post_process b c1' e') as [x' c2']. cbn [fst snd] in *.
    rewrite <- (evrel_delta e e' E). apply (alike_bind _ _ _ _ looped); [apply IH; assumption|]. intros [es c3] [es' c3'] [Q1 Q2]. split; [|exact Q2]. unfold evsrel in *. cbn [fst map] in *. congruence.
  - split; [reflexivity|exact C].
Qed.

Definition trackrel (t t' : mtrk) : Prop := bare_track t = bare_track t'.

Lemma mtrk_rel : forall a b n c data, same_wire_ids a b -> is_bytes data -> alike trackrel (unmarshal_mtrk a n c data) (unmarshal_mtrk b n c data).
Proof.
  intros a b n c data H B. unfold unmarshal_mtrk. destruct data as [|x0 [|x1 [|x2 [|x3 [|x4 [|x5 [|x6 [|x7 r]]]]]]]]; try exact I;
    destruct (negb _); try exact I. apply (alike_bind _ _ _ _ looped); [apply loop_rel; [exact H|do 8 apply Forall_inv_tail in B; exact B|reflexivity]|]. intros [es c1] [es' c1'] [E C]. cbn [fst snd] in *.
  cbn [alike]. unfold trackrel, bare_track. cbn [t_tag t_number t_length t_bytes t_events t_ctx option_map]. unfold evsrel in E. unfold ctxrel in C. rewrite E, C. reflexivity.
Qed.

Definition tracksrel (ts ts' : list mtrk) : Prop := map bare_track ts = map bare_track ts'.

Lemma tracks_rel : forall a b, same_wire_ids a b -> forall cs n, Forall is_bytes cs -> alike tracksrel (decode_tracks a n cs) (decode_tracks b n cs).
Proof.
  intros a b H. induction cs as [|c cs IH]; intros n B; cbn [decode_tracks]; [reflexivity|]. pose proof (Forall_inv B) as B1. apply Forall_inv_tail in B. destruct (bytes_eqb _ _); [|apply IH, B].
  apply (alike_bind _ _ _ _ trackrel); [apply mtrk_rel; assumption|]. intros t t' T. apply (alike_bind _ _ _ _ tracksrel); [apply IH, B|]. intros ts ts' TS.
  cbn [alike]. unfold tracksrel, trackrel in *. cbn [map]. congruence.
Qed.

Theorem decode_rel : forall a b r, same_wire_ids a b -> is_bytes r -> alike same_but_names (decode a r) (decode b r).
Proof.
  intros a b r H B. unfold decode. destruct (chunks r) as [cs| | | |] eqn:E; cbn [bind]; try exact I. apply (DecodedProofs.chunks_bytes (length r) r) in E; [|apply Nat.le_refl|exact B]. destruct cs as [|c cs]; [exact I|]. apply Forall_inv_tail in E. destruct (unmarshal_mthd c); cbn [bind]; try exact I.
  apply (alike_bind _ _ _ _ tracksrel); [apply tracks_rel; assumption|]. intros ts ts' T. unfold tracksrel in T.
  assert (L : zlen ts = zlen ts') by (unfold zlen; rewrite <- (map_length bare_track ts), T, map_length; reflexivity). rewrite <- L. destruct (zlen ts =? h_tracks a0); [|exact I].
  cbn [alike]. unfold same_but_names, bare_file. cbn [f_mthd f_tracks]. rewrite T. reflexivity.
Qed.

(** ** Encoding *)

Lemma marshal_bare : forall e, marshal (bare_event e) = marshal e.
Proof. intros [t d bs st ty []]; reflexivity. Qed.

Lemma events_bare : forall es, marshal_events (map bare_event es) = marshal_events es.
Proof. induction es as [|e es IH]; [reflexivity|]. cbn [map marshal_events]. rewrite marshal_bare, IH. reflexivity. Qed.

Lemma tracks_bare : forall ts, encode_tracks (map bare_track ts) = encode_tracks ts.
Proof.
  induction ts as [|t ts IH]; [reflexivity|]. cbn [map encode_tracks]. unfold encode_mtrk, bare_track at 1 2. cbn [t_events t_tag]. rewrite events_bare, IH. reflexivity.
Qed.

Lemma encode_bare : forall s, encode (bare_file s) = encode s.
Proof. intros [h ts]. unfold encode, bare_file, zlen. cbn [f_mthd f_tracks]. rewrite map_length, tracks_bare. reflexivity. Qed.

Theorem encode_same : forall s s', same_but_names s s' -> encode s = encode s'.
Proof. intros s s' H. rewrite <- (encode_bare s), H. apply encode_bare. Qed.

(** ** Validation *)

Lemma filter_map : forall A B (f : A -> B) (p : B -> bool) (q : A -> bool) l, (forall x, p (f x) = q x) -> filter p (map f l) = map f (filter q l).
Proof. intros A B f p q l H. induction l as [|x l IH]; [reflexivity|]. cbn [map filter]. rewrite H, IH. destruct (q x); reflexivity. Qed.

Lemma eot_bare : forall tr n es i, eot_scan tr n i (map bare_event es) = (map bare_report (fst (eot_scan tr n i es)), snd (eot_scan tr n i es)).
Proof.
  intros tr n. induction es as [|e es IH]; intro i; [reflexivity|]. cbn [map eot_scan]. rewrite IH. destruct (eot_scan tr n (i + 1) es) as [errs found]. cbn [fst snd].
  assert (E : is_eot (bare_event e) = is_eot e) by (destruct e as [t d bs st ty []]; reflexivity). rewrite E. destruct (is_eot e); [|reflexivity]. cbn [fst snd]. rewrite map_app.
  destruct (i + 1 =? n); reflexivity.
Qed.

Lemma validate_eot_bare : forall t, validate_eot (bare_track t) = map bare_report (validate_eot t).
Proof.
  intro t. unfold validate_eot, bare_track, zlen. cbn [t_number t_events]. rewrite map_length, eot_bare. destruct (eot_scan _ _ _ _) as [errs found]. cbn [fst snd]. rewrite map_app. destruct found; reflexivity.
Qed.

Lemma bank_bare : forall tr es i last, bank_scan tr i last (map bare_event es) = map bare_report (bank_scan tr i last es).
Proof.
  intros tr. induction es as [|e es IH]; intros i last; [reflexivity|]. cbn [map bank_scan]. rewrite map_app, IH.
  assert (E : as_controller (e_body (bare_event e)) = as_controller (e_body e)) by (destruct e as [t d bs st ty []]; reflexivity). rewrite E. f_equal.
  assert (Q : forall l, Forall (fun v => bare_report v = v) l -> l = map bare_report l) by (intros l F; induction F as [|v l V F IHF]; [reflexivity|]; cbn [map]; rewrite V; f_equal; exact IHF).
  apply Q. unfold bank_check. apply Forall_app; split; [|apply Forall_app; split]; repeat match goal with |- context[match ?x with _ => _ end] => destruct x end; repeat constructor.
Qed.

Definition omap {A B} (f : A -> B) (x : outcome A) : outcome B := do a <- x; Ok (f a).

Lemma concat_bare : forall (f g : mtrk -> list verror) ts, (forall t, f (bare_track t) = map bare_report (g t)) -> concat (map f (map bare_track ts)) = map bare_report (concat (map g ts)).
Proof. intros f g ts H. induction ts as [|t ts IH]; [reflexivity|]. cbn [map concat]. rewrite map_app, H, IH. reflexivity. Qed.

Lemma validate_bare : forall s, validate (bare_file s) = omap (map bare_report) (validate s).
Proof.
  intros [h ts]. unfold validate, bare_file. cbn [f_mthd f_tracks]. destruct h as [h|]; [|reflexivity].
  assert (F0 : forall x y, f_tracks x = map bare_track (f_tracks y) -> validate_format0 x = map bare_report (validate_format0 y)).
  { intros x y E. unfold validate_format0, zlen. rewrite E, map_length. destruct (_ =? _); reflexivity. }
  assert (F1 : validate_format1 (SMF (Some h) (map bare_track ts)) = omap (map bare_report) (validate_format1 (SMF (Some h) ts))).
  { unfold validate_format1. cbn [f_tracks]. destruct ts as [|t ts]; [reflexivity|]. cbn [map omap bind]. rewrite map_app. f_equal. f_equal.
    - unfold bare_track. cbn [t_events]. rewrite (filter_map _ _ bare_event _ (fun e => negb (is_track0_event e))) by (intros [? ? ? ? ? []]; reflexivity). rewrite !map_map. reflexivity.
    - apply concat_bare. intro x. unfold bare_track. cbn [t_events t_number]. rewrite (filter_map _ _ bare_event _ (fun e => negb (is_track1_event e))) by (intros [? ? ? ? ? []]; reflexivity).
      rewrite !map_map. reflexivity. }
  rewrite F1, (F0 (SMF (Some h) (map bare_track ts)) (SMF (Some h) ts) eq_refl). rewrite (concat_bare validate_eot validate_eot ts validate_eot_bare).
  rewrite (concat_bare (fun t => bank_scan (t_number t) 0 None (t_events t)) (fun t => bank_scan (t_number t) 0 None (t_events t)) ts) by (intro t; apply bank_bare).
  clear F0 F1. unfold omap. destruct (h_format h =? 0), (h_format h =? 1), (validate_format1 (SMF (Some h) ts)); cbn [bind]; rewrite ?map_app; reflexivity.
Qed.

Theorem validate_same : forall s s', same_but_names s s' -> alike (fun x y => map bare_report x = map bare_report y) (validate s) (validate s').
Proof.
  intros s s' H. pose proof (validate_bare s) as E. rewrite H, validate_bare in E. destruct (validate s), (validate s'); cbn [omap bind] in E; try discriminate E; try exact I. apply Ok_inj in E. symmetry. exact E.
Qed.

(** ** Transposition *)

Definition optrel (c c' : option ctx) : Prop := option_map bare_ctx c = option_map bare_ctx c'.

Lemma transpose_event_rel : forall a b n c c' e e', evrel e e' -> optrel c c' -> alike (fun x y => evrel (fst x) (fst y) /\ optrel (snd x) (snd y)) (transpose_event a c n e) (transpose_event b c' n e').
Proof.
  intros a b n c c' [t d bs st ty bd] [t' d' bs' st' ty' bd'] E C. unfold evrel, bare_event in E. cbn [e_tick e_delta e_bytes e_status e_type e_body] in E. injection E as <- <- <- <- <- B.
  unfold transpose_event. cbn [e_body e_tick e_delta].
  destruct bd, bd'; cbn [bare] in B; try discriminate B; try (injection B; intros; subst);
    try (cbn [alike fst snd]; split; [unfold evrel, bare_event; cbn [e_tick e_delta e_bytes e_status e_type e_body bare]; congruence|exact C]);
    destruct c as [[fl run cas bank notes]|], c' as [[fl' run' cas' bank' notes']|]; unfold optrel in C; cbn [option_map] in C; try discriminate C.
  - unfold bare_ctx in C. cbn [c_flats c_running c_casio c_bank c_notes] in C. injection C as <- <- <- <- N.
    cbn [alike fst snd]. split; [unfold evrel, bare_event; cbn [e_tick e_delta e_bytes e_status e_type e_body bare n_value]; congruence|].
    unfold optrel, bare_ctx. cbn. congruence.
  - exact I.
  - unfold bare_ctx in C. cbn [c_flats c_running c_casio c_bank c_notes] in C. injection C as <- <- <- <- N.
    cbn [alike fst snd]. split; [unfold evrel, bare_event; cbn [e_tick e_delta e_bytes e_status e_type e_body bare n_value]; congruence|].
    unfold optrel, bare_ctx. cbn. congruence.
  - exact I.
  - unfold bare_ctx in C. cbn [c_flats c_running c_casio c_bank c_notes] in C. injection C as <- <- <- <- N.
    destruct (key_scale _ _) as [s| | | |]; cbn [bind]; try exact I. destruct (scale_transpose s n) as [x| | | |]; cbn [bind]; try exact I.
    cbn [alike fst snd]. split; [reflexivity|]. unfold optrel, bare_ctx, use_scale. cbn. congruence.
  - destruct (key_scale _ _) as [s| | | |]; cbn [bind]; try exact I. destruct (scale_transpose s n) as [x| | | |]; cbn [bind]; exact I.
Qed.

Lemma transpose_events_rel : forall a b n es es' c c', evsrel es es' -> optrel c c' -> alike evsrel (transpose_events a c n es) (transpose_events b c' n es').
Proof.
  intros a b n. induction es as [|e es IH]; intros [|e' es'] c c' E C; try discriminate E; [reflexivity|]. unfold evsrel in E. cbn [map] in E.
  assert (E1 : evrel e e') by (unfold evrel; congruence). assert (E2 : evsrel es es') by (unfold evsrel; congruence). clear E. cbn [transpose_events].
  apply (alike_bind _ _ _ _ (fun x y => evrel (fst x) (fst y) /\ optrel (snd x) (snd y))); [apply transpose_event_rel; assumption|]. intros [x c1] [x' c1'] [X Y]. cbn [fst snd] in *.
  apply (alike_bind _ _ _ _ evsrel); [apply IH; assumption|]. intros r r' R. cbn [alike]. unfold evsrel, evrel in *. cbn [map]. congruence.
Qed.

Lemma transpose_tracks_rel : forall a b n ts ts', tracksrel ts ts' -> alike tracksrel (transpose_tracks a n ts) (transpose_tracks b n ts').
Proof.
  intros a b n. induction ts as [|t ts IH]; intros [|t' ts'] E; try discriminate E; [reflexivity|]. unfold tracksrel in E. cbn [map] in E.
  assert (E1 : bare_track t = bare_track t') by congruence. assert (E2 : tracksrel ts ts') by (unfold tracksrel; congruence). clear E. cbn [transpose_tracks].
  apply (alike_bind _ _ _ _ trackrel).
  - unfold transpose_track. apply (alike_bind _ _ _ _ evsrel).
    + apply transpose_events_rel; [exact (f_equal t_events E1)|exact (f_equal t_ctx E1)].
    + intros es es' F. cbn [alike]. apply (f_equal t_number) in E1. cbn in E1. unfold trackrel, bare_track, evsrel in *. cbn. congruence.
  - intros x x' X. apply (alike_bind _ _ _ _ tracksrel); [apply IH, E2|]. intros y y' Y. cbn [alike]. unfold tracksrel, trackrel in *. cbn [map]. congruence.
Qed.

Theorem transpose_same : forall a b n s s', same_but_names s s' -> transpose_execute a n s = transpose_execute b n s'.
Proof.
  intros a b n s s' H. unfold transpose_execute, transpose_smf. apply alike_eq. pose proof (f_equal f_tracks H) as T. pose proof (f_equal f_mthd H) as M. cbn in T, M.
  pose proof (transpose_tracks_rel a b n _ _ T) as R. destruct (transpose_tracks a n (f_tracks s)) as [ts| | | |], (transpose_tracks b n (f_tracks s')) as [ts'| | | |]; cbn in R; try contradiction; cbn [bind]; try exact I.
  rewrite (encode_same (SMF (f_mthd s) ts) (SMF (f_mthd s') ts')); [apply alike_refl; reflexivity|]. unfold same_but_names, bare_file. cbn [f_mthd f_tracks]. unfold tracksrel in R. congruence.
Qed.
