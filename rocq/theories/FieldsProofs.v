(** * FieldsProofs: the members of the exported document. *)
From Verif Require Import Base Strings Tables Vlq Event Parse Marshal Track File SpecVlq ParseProofs EncodeProofs DecodeProofs SpecText SpecEvent SpecFile SpecSays SpecTrack SpecDecoded SpecTable SpecExport SpecAssemble SpecRead SpecJson
  Utf8 Hex Manufacturer Json JsonText SpecJsonText Utf8Proofs FileProofs SaysProofs DecodedProofs JsonProofs JsonWriteProofs JsonExportProofs CliSplitProofs ExportProofs SpecFields.

(** ** Status bytes *)

Definition voice (e : event) : Prop :=
  match e_body e with
  | NoteOff _ _ _ | NoteOn _ _ _ | PolyphonicPressure _ _ | Controller _ _ _ | ProgramChange _ _ _ | ChannelPressure _ _ | PitchBend _ _ => e_status e = status_byte (e_body e)
  | _ => True
  end.

Lemma lor_channel : forall st c, 0 <= c -> (15 <? c) = false -> In st [128; 144; 160; 176; 192; 208; 224] -> Z.lor st c = st + c.
Proof.
  intros st c C L H.
  assert (F : forallb (fun st => forallb (fun c => Z.lor st c =? st + c) [0;1;2;3;4;5;6;7;8;9;10;11;12;13;14;15]) [128; 144; 160; 176; 192; 208; 224] = true) by reflexivity.
  rewrite forallb_forall in F. specialize (F st H). rewrite forallb_forall in F. apply Z.eqb_eq, F.
  assert (G : c = 0 \/ c = 1 \/ c = 2 \/ c = 3 \/ c = 4 \/ c = 5 \/ c = 6 \/ c = 7 \/ c = 8 \/ c = 9 \/ c = 10 \/ c = 11 \/ c = 12 \/ c = 13 \/ c = 14 \/ c = 15) by lia.
  cbn [In]. intuition.
Qed.

Lemma land_channel : forall c, 0 <= c -> (15 <? c) = false -> Z.land c 15 = c.
Proof. intros c C L. change 15 with (Z.ones 4). rewrite Z.land_ones by lia. apply Z.mod_small. lia. Qed.

Lemma unmarshal_midi_voice : forall env tick delta st data raw e, unmarshal_midi env tick delta st data raw = Ok e -> voice e.
Proof.
  intros env tick delta st data raw e H. unfold unmarshal_midi in H. assert (C : 0 <= Z.land st 15) by (apply Z.land_nonneg; right; lia). revert H C. generalize (Z.land st 15). intros ch H C.
  unfold make_note_off, make_note_on, make_polyphonic_pressure, make_controller, make_program_change, make_channel_pressure, make_pitch_bend in H.
  break H; try discriminate; apply Ok_inj in H; subst e; unfold voice; cbn [e_body e_status status_byte]; unfold or_status; try rewrite land_channel by assumption; apply lor_channel; try assumption; cbn [In]; tauto.
Qed.

Ltac done_voice H := apply Ok_inj in H; subst; exact I.

Lemma unmarshal_meta_voice : forall env tick delta ty data raw e, unmarshal_meta env tick delta ty data raw = Ok e -> voice e.
Proof.
  intros env tick delta ty data raw e H. unfold unmarshal_meta in H.
  destruct (text_kind ty) as [k|]; [apply Ok_inj in H; subst e; destruct k; exact I|].
  destruct (ty =? 0); [break H; try discriminate; done_voice H|].
  destruct (ty =? 32); [unfold make_channel_prefix in H; break H; try discriminate; done_voice H|].
  destruct (ty =? 33); [unfold make_port in H; break H; try discriminate; done_voice H|].
  destruct (ty =? 47); [done_voice H|].
  destruct (ty =? 81); [break H; try discriminate; done_voice H|].
  destruct (ty =? 84); [unfold unmarshal_smpte, make_smpte_offset in H; cbv zeta in H; break H; try discriminate; done_voice H|].
  destruct (ty =? 88).
  { destruct data as [|a [|b [|c [|d [|]]]]]; try discriminate. unfold make_time_signature in H.
    destruct (log2_loop _ _ _ _); try discriminate. done_voice H. }
  destruct (ty =? 89); [unfold unmarshal_key, make_key_signature in H; cbv zeta in H; break H; try discriminate; done_voice H|].
  destruct (ty =? 127); [unfold unmarshal_seqspec in H; break H; try discriminate; done_voice H|].
  discriminate.
Qed.

Lemma sysex_parse_voice : forall env tick casio raw e, sysex_parse env tick casio raw = Ok e -> voice e.
Proof.
  intros env tick casio raw e H. unfold sysex_parse in H.
  destruct (slice_vlq raw) as [[delta rem]| | | |]; try discriminate. cbn [bind] in H.
  destruct rem as [|st r]; [discriminate|]. destruct (negb _); [discriminate|].
  destruct (slice_vlf r) as [data| | | |]; try discriminate. cbn [bind] in H.
  destruct (st =? 240).
  - unfold unmarshal_sysex in H. destruct data as [|a [|b d]]; try discriminate. destruct (ends_f7 (b :: d)); done_voice H.
  - destruct casio; [|done_voice H]. unfold unmarshal_continuation in H. destruct data; done_voice H.
Qed.

Lemma parse_voice : forall env c tick r e c' rest, parse env c tick r = Ok (e, c', rest) -> voice e.
Proof.
  intros env c tick r e c' rest H. unfold parse in H.
  destruct (stream_vlq r) as [[delta r1]| | | |]; try discriminate. cbn [bind] in H.
  destruct r1 as [|b r1]; [discriminate|].
  destruct ((b <? 128) && (c_running c <? 128)); [discriminate|]. cbv zeta in H.
  set (st := if b <? 128 then c_running c else b) in *.
  set (r2 := if b <? 128 then b :: r1 else r1) in *. clearbody st r2.
  destruct (st =? 255).
  - destruct r2 as [|ty r3]; [discriminate|].
    destruct (stream_vlf r3) as [[x rest']| | | |]; try discriminate. cbn [bind] in H.
    destruct (new_event _) as [e'| | | |] eqn:E; try discriminate. cbn [bind] in H. injection H as <- <- <-.
    apply new_event_inv in E. unfold meta_parse in E.
    destruct (slice_vlq _) as [[d rem]| | | |]; try discriminate. cbn [bind] in E.
    destruct rem as [|s [|t rr]]; try discriminate; destruct (negb _); try discriminate.
    destruct (slice_vlf rr) as [data| | | |]; try discriminate. cbn [bind] in E. eapply unmarshal_meta_voice, E.
  - destruct ((st =? 240) || (st =? 247)).
    + destruct (stream_vlf r2) as [[x rest']| | | |]; try discriminate. cbn [bind] in H.
      destruct ((st =? 240) && c_casio c); [discriminate|].
      destruct (sysex_parse _ _ _ _) as [e'| | | |] eqn:E; try discriminate. cbn [bind] in H. injection H as <- <- <-.
      eapply sysex_parse_voice, E.
    + destruct (length r2 <? data_length st)%nat; [discriminate|].
      destruct (new_event _) as [e'| | | |] eqn:E; try discriminate. cbn [bind] in H. injection H as <- <- <-.
      apply new_event_inv in E. unfold midi_parse in E.
      destruct (slice_vlq _) as [[d rem]| | | |]; try discriminate. cbn [bind] in E.
      destruct rem as [|s rr]; try discriminate. destruct (s <? 128); eapply unmarshal_midi_voice, E.
Qed.

Lemma post_process_voice : forall env c e e' c', post_process env c e = (e', c') -> voice e -> voice e'.
Proof.
  intros env c e e' c' H V. unfold post_process in H. unfold voice in *.
  destruct (e_body e) eqn:E; try (injection H as <- <-; cbn; rewrite ?E; exact V).
  destruct (c_id c0 =? 0); [|destruct (c_id c0 =? 32)]; injection H as <- <-; rewrite E; exact V.
Qed.

Lemma loop_voice : forall n env c tick r es c', (length r <= n)%nat -> loop_from env c tick r = Ok (es, c') -> Forall voice es.
Proof.
  induction n as [|n IH]; intros env c tick r es c' Hn H.
  - destruct r; [|cbn in Hn; lia]. rewrite loop_from_eq, parse_nil in H. injection H as <- <-. constructor.
  - rewrite loop_from_eq in H. destruct (parse env c tick r) as [[[e c1] rest]| | | |] eqn:E; try discriminate.
    + pose proof (parse_shorter _ _ _ _ _ _ _ E). apply parse_voice in E.
      destruct (post_process env c1 e) as [e' c2] eqn:P.
      destruct (loop_from env c2 _ rest) as [[es1 c3]| | | |] eqn:L; try discriminate.
      cbn [bind] in H. injection H as <- <-. constructor; [eapply post_process_voice; eauto|]. eapply IH, L. lia.
    + injection H as <- <-. constructor.
Qed.

Lemma decode_voice : forall env r s, decode env r = Ok s -> Forall (fun t => Forall voice (t_events t)) (f_tracks s).
Proof.
  intros env r s H. unfold decode in H. destruct (chunks r) as [cs| | | |]; try discriminate. cbn [bind] in H.
  destruct cs as [|c cs]; [discriminate|]. destruct (unmarshal_mthd c) as [h| | | |]; try discriminate. cbn [bind] in H.
  destruct (decode_tracks env 0 cs) as [ts| | | |] eqn:E; try discriminate. cbn [bind] in H.
  destruct (_ =? _); [|discriminate]. apply Ok_inj in H. subst s. cbn [f_tracks].
  generalize 0 E. clear E. revert ts. induction cs as [|w cs IH]; intros ts n E; cbn [decode_tracks] in E.
  - apply Ok_inj in E. subst. constructor.
  - destruct (bytes_eqb _ _); [|eapply IH, E].
    destruct (unmarshal_mtrk env n new_context w) as [t| | | |] eqn:Et; try discriminate. cbn [bind] in E.
    destruct (decode_tracks env (n + 1) cs) as [ts'| | | |] eqn:E'; try discriminate. cbn [bind] in E.
    apply Ok_inj in E. subst ts. constructor; [|eapply IH, E'].
    unfold unmarshal_mtrk in Et.
    destruct w as [|a0 [|a1 [|a2 [|a3 [|a4 [|a5 [|a6 [|a7 r']]]]]]]]; try discriminate;
    destruct (negb (bytes_eqb [a0; a1; a2; a3] (str "MTrk"))); try discriminate.
    destruct (decode_events env new_context r') as [[es c']| | | |] eqn:Ed; try discriminate. cbn [bind] in Et.
    apply Ok_inj in Et. subst t. cbn [t_events]. eapply loop_voice; [|exact Ed]. apply le_n.
Qed.

(** ** Events *)

Lemma shows_string : forall s, is_bytes s -> shows s (jstring s).
Proof. intros s H. exists (concat (runes s)). split; [reflexivity|apply runes_repaired, H]. Qed.

Lemma event_shows : forall e, legal_header e -> voice e -> writable (marshal_json_with JStr e) -> event_shown e (marshal_json e).
Proof.
  intros e L V W. unfold marshal_json_with, event_fields_with, body_fields_with in W. unfold event_shown, marshal_json, marshal_json_with, event_fields_with, body_fields_with, legal_header, voice in *.
  destruct (e_body e) as [c n v|c n v|c p|c k v|c b p|c p|c b|n|k s|c|p| |t|h m s r f ff|n d t q|a k key|m d|m d s|d f|d]; cbn [status_byte type_byte] in *;
  cbn [writable fold_right fst snd jnote_with jcontroller_with jmanufacturer_with] in W; try rewrite V; try match type of L with _ /\ _ => destruct L as [-> ->] | True => idtac | _ => rewrite L end;
  try (eexists; split; [constructor|reflexivity]; fail).
  - eexists. split; [constructor; constructor; apply shows_string; apply W|reflexivity].
  - eexists. split; [constructor; constructor; apply shows_string; apply W|reflexivity].
  - eexists. split; [constructor; apply shows_string; apply W|reflexivity].
  - assert (B : is_bytes s) by apply W. destruct k; (eexists; split; [first [constructor; apply shows_string; exact B|apply v_name; [cbn; tauto|apply shows_string; exact B]]|reflexivity]).
  - eexists. split; [constructor; apply shows_string; apply W|reflexivity].
  - eexists. split; [constructor; constructor; apply shows_string; apply W|reflexivity].
  - eexists. split; [constructor; constructor; apply shows_string; apply W|reflexivity].
Qed.

(** ** The document *)

Lemma obj_writable : forall o, writable (JObj o) -> Forall (fun f => writable (snd f)) o.
Proof. intros o H. cbn [writable] in H. induction o as [|f o IH]; [constructor|]. destruct H as (_ & H & R). constructor; [exact H|apply IH, R]. Qed.
Lemma arr_writable : forall l, writable (JArr l) -> Forall writable l.
Proof. intros l H. cbn [writable] in H. induction l as [|f l IH]; [constructor|]. destruct H as (H & R). constructor; [exact H|apply IH, R]. Qed.

Lemma numbered_nth : forall ts n i t, numbered n ts -> nth_error ts i = Some t -> t_number t = n + Z.of_nat i.
Proof.
  induction ts as [|t0 ts IH]; intros n i t N E; [destruct i; discriminate|]. destruct N as [N0 N]. destruct i as [|i]; cbn [nth_error] in E.
  - injection E as <-. lia.
  - rewrite (IH _ _ _ N E). lia.
Qed.

Lemma header_shows : forall env r s h, is_bytes r -> decode env r = Ok s -> f_mthd s = Some h -> jmthd h = header_shown (fields_of h).
Proof.
  intros env r s h B H Eh. unfold decode in H. destruct (chunks r) as [[|c cs]| | | |]; try discriminate. cbn [bind] in H.
  destruct (unmarshal_mthd c) as [h'| | | |] eqn:E; try discriminate. cbn [bind] in H.
  destruct (decode_tracks env 0 cs) as [ts| | | |]; try discriminate. cbn [bind] in H. destruct (_ =? _); [|discriminate].
  apply Ok_inj in H. subst s. cbn [f_mthd] in Eh. injection Eh as ->. unfold unmarshal_mthd in E.
  repeat match type of E with
  | match ?c with [] => _ | _ :: _ => _ end = _ => destruct c; try discriminate
  | (if ?b then _ else _) = _ => destruct b; try discriminate
  | match ?o with Some _ => _ | None => _ end = _ => destruct o as [[? ?]|]; try discriminate
  | (let x := _ in _) = _ => cbv zeta in E
  end; apply Ok_inj in E; subst h; reflexivity.
Qed.

Theorem document_fields : forall c4 conf l r s, conf_bytes conf -> load_manufacturers conf = Ok l -> is_bytes r ->
  decode (add_manufacturers (Env c4 manufacturers) l) r = Ok s ->
  json_text (export_json s) (export_text s) /\
  exists hf, file_tells (env_manufacturers (add_manufacturers (Env c4 manufacturers) l)) r hf (map (fun t => map ev_view (t_events t)) (f_tracks s)) /\
    document_shown hf (map t_events (f_tracks s)) (export_json s).
Proof.
  intros c4 conf l r s C L B H. split; [eapply exported_text; eassumption|]. set (env := add_manufacturers (Env c4 manufacturers) l) in *.
  destruct (decode_headers env r s H) as [[h Eh] DH]. exists (fields_of h). split; [apply file_says; [exact B|]; exists s, h; auto|].
  pose proof (header_shows env r s h B H Eh) as HS. pose proof (decode_voice env r s H) as DV. pose proof (decode_numbered env r s H) as DN.
  assert (W : writable (export_json_with JStr s)) by apply (export_ok env r s B (env_bytes c4 conf l C L) H).
  unfold export_json_with in W. apply obj_writable, Forall_inv_tail, Forall_inv in W. cbn [snd] in W. apply arr_writable in W. rewrite Forall_map in W.
  exists (map jmtrk (f_tracks s)). split; [unfold export_json, export_json_with; rewrite Eh, <- HS; reflexivity|]. split; [rewrite !map_length; reflexivity|].
  intros i es E. rewrite nth_error_map in E. destruct (nth_error (f_tracks s) i) as [t|] eqn:Et; [|discriminate]. injection E as <-.
  exists (map marshal_json (t_events t)). pose proof (nth_error_In _ _ Et) as I. rewrite Forall_forall in DH, DV, W. split.
  - destruct (DH t I) as [_ H1]. pose proof (DV t I) as H2. pose proof (W t I) as H3. unfold jmtrk_with in H3.
    apply obj_writable, Forall_inv_tail, Forall_inv_tail, Forall_inv in H3. cbn [snd] in H3. apply arr_writable in H3. rewrite Forall_map in H3. clear - H1 H2 H3.
    induction (t_events t) as [|e es IH]; [constructor|]. cbn [map]. constructor; [|apply IH; [apply (Forall_inv_tail H1)|apply (Forall_inv_tail H2)|apply (Forall_inv_tail H3)]].
    apply event_shows; [apply (Forall_inv H1)|apply (Forall_inv H2)|apply (Forall_inv H3)].
  - rewrite nth_error_map, Et. cbn [option_map]. f_equal. unfold jmtrk, jmtrk_with. destruct (DH t I) as [-> _]. rewrite (numbered_nth _ _ _ _ DN Et). reflexivity.
Qed.
