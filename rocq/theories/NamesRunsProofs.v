(** * NamesRunsProofs: JSON documents and runs under other settings (C97, C98). *)
From Verif Require Import Base Strings Tables Vlq Event Parse Track File Marshal Hex Manufacturer Assemble TextAssemble Json JsonText Validate Transpose Notes SpecNames NamesProofs NamesNotesProofs Cli.

Definition idrel (m m' : manufacturer) : Prop := m_id m = m_id m'.

Lemma maker_rel : forall a b o, same_ids a b -> alike idrel (manufacturer_of a o) (manufacturer_of b o).
Proof.
  intros a b o H. unfold manufacturer_of. assert (G : forall o m m', idrel m m' -> alike idrel (field (str "manufacturer") (read_manufacturer a) m o) (field (str "manufacturer") (read_manufacturer b) m' o)); [|apply G; reflexivity].
  clear o. induction o as [|[k v] o IH]; intros m m' M; cbn [field]; [exact M|]. destruct (names _ k); [|apply IH, M].
  apply (alike_bind _ _ _ _ idrel); [|exact IH]. unfold read_manufacturer. destruct (object v) as [f| | | |]; cbn [bind]; try exact I.
  destruct (field _ _ _ f) as [id| | | |]; cbn [bind]; try exact I. apply H.
Qed.

Lemma tagged_rel : forall A (R : A -> A -> Prop) tag o rest rest' make make', (forall d, alike R (rest d) (rest' d)) -> (forall x y, R x y -> alike evrel (make x) (make' y)) ->
  alike evrel (tagged tag o rest make) (tagged tag o rest' make').
Proof.
  intros A R tag o rest rest' make make' F M. unfold tagged. destruct (text_of _ o) as [t| | | |]; cbn [bind]; try exact I. destruct (uint32 _ o) as [d| | | |]; cbn [bind]; try exact I.
  apply (alike_bind _ _ _ _ R); [apply F|]. intros x y X. destruct (bytes_eqb t tag); [apply M, X|exact I].
Qed.

Lemma cases_rel : forall a b o, same_ids a b -> Forall2 (fun x y => fst x = fst y /\ alike evrel (snd x o) (snd y o)) (json_cases a) (json_cases b).
Proof.
  intros a b o H. unfold json_cases. repeat (apply Forall2_cons; [split; [reflexivity|]; cbn [snd]; try (apply alike_refl; reflexivity)|]); [| | | |apply Forall2_nil].
  - unfold json_sequencer_specific. apply (tagged_rel _ (fun x y => fst (fst x) = fst (fst y) /\ idrel (snd (fst x)) (snd (fst y)) /\ snd x = snd y)).
    + intro d. apply (alike_bind _ _ _ _ idrel); [apply maker_rel, H|]. intros m m' M. destruct (data_of o); cbn [bind alike]; try exact I. cbn [fst snd]. auto.
    + intros [[d m] x] [[d' m'] x'] (E1 & E2 & E3). cbn [fst snd] in *. subst. cbn [alike]. unfold evrel, bare_event, make_sequencer_specific, idrel in *.
      cbn [e_tick e_delta e_bytes e_status e_type e_body bare]. rewrite E2. reflexivity.
  - unfold json_note_off. apply (tagged_rel _ eq); [intro d; apply alike_refl; reflexivity|]. intros [[[d c] n] v] ? <-. reflexivity.
  - unfold json_note_on. apply (tagged_rel _ eq); [intro d; apply alike_refl; reflexivity|]. intros [[[d c] n] v] ? <-. unfold make_note_on. destruct (15 <? c); [exact I|]. destruct (127 <? v); [exact I|]. reflexivity.
  - unfold json_sysex. apply (tagged_rel _ (fun x y => fst (fst (fst x)) = fst (fst (fst y)) /\ idrel (snd (fst (fst x))) (snd (fst (fst y))) /\ snd (fst x) = snd (fst y) /\ snd x = snd y)).
    + intro d. apply (alike_bind _ _ _ _ idrel); [apply maker_rel, H|]. intros m m' M. destruct (data_of o); cbn [bind alike]; try exact I. destruct (field _ read_bool _ o); cbn [bind alike]; try exact I. cbn [fst snd]. auto.
    + intros [[[d m] x] s] [[[d' m'] x'] s'] (E1 & E2 & E3 & E4). cbn [fst snd] in *. subst. cbn [alike]. unfold evrel, bare_event, make_sysex, idrel in *.
      cbn [e_tick e_delta e_bytes e_status e_type e_body bare]. rewrite E2. reflexivity.
Qed.

Lemma event_json_rel : forall a b v, same_ids a b -> alike evrel (unmarshal_json a v) (unmarshal_json b v).
Proof.
  intros a b v H. unfold unmarshal_json. destruct (object v) as [o| | | |]; cbn [bind]; try exact I. destruct (field _ _ _ o) as [[w|]| | | |]; cbn [bind]; try exact I.
  destruct (object w) as [f| | | |]; cbn [bind]; try exact I. destruct (text_of _ f) as [t| | | |]; cbn [bind]; try exact I.
  pose proof (cases_rel a b f H) as C. induction C as [|[t1 f1] [t2 f2] l l' [E F] C IH]; [exact I|]. cbn [fst snd] in E, F. subst t2. cbn [find fst]. destruct (bytes_eqb t t1); [exact F|exact IH].
Qed.

Lemma each_rel : forall a b l, same_ids a b -> alike evsrel (each (unmarshal_json a) l) (each (unmarshal_json b) l).
Proof.
  intros a b l H. induction l as [|v l IH]; [reflexivity|]. cbn [each]. apply (alike_bind _ _ _ _ evrel); [apply event_json_rel, H|]. intros x y X.
  apply (alike_bind _ _ _ _ evsrel); [exact IH|]. intros xs ys XS. cbn [alike]. unfold evsrel, evrel in *. cbn [map]. congruence.
Qed.

Lemma close_bare : forall close, (forall e, close (bare_event e) = bare_event (close e)) -> forall es, close_loop close (map bare_event es) = map bare_event (close_loop close es).
Proof.
  intros close C. induction es as [|e es IH]; [reflexivity|]. destruct es as [|e2 es]; [reflexivity|].
  change (close_loop close (map bare_event (e :: e2 :: es))) with ((if is_continuation (bare_event e2) then bare_event e else close (bare_event e)) :: close_loop close (map bare_event (e2 :: es))).
  change (close_loop close (e :: e2 :: es)) with ((if is_continuation e2 then e else close e) :: close_loop close (e2 :: es)). rewrite IH. cbn [map]. f_equal.
  assert (E : is_continuation (bare_event e2) = is_continuation e2) by (destruct e2 as [t d bs st ty []]; reflexivity). rewrite E, C. destruct (is_continuation e2); reflexivity.
Qed.

Lemma fixups_rel : forall es es', evsrel es es' -> alike evsrel (fixups es) (fixups es').
Proof.
  intros es es' H. unfold fixups.
  assert (G : evsrel (close_loop close_continuation (close_loop close_message es)) (close_loop close_continuation (close_loop close_message es'))).
  { unfold evsrel in *. rewrite <- !close_bare by (intros [t d bs st ty []]; reflexivity). rewrite H. reflexivity. }
  destruct es, es'; try discriminate H; [exact I|exact G].
Qed.

Lemma json_tracks_rel : forall a b, same_ids a b -> forall ts n, alike tracksrel (json_tracks a n ts) (json_tracks b n ts).
Proof.
  intros a b H. induction ts as [|t ts IH]; intro n; [reflexivity|]. cbn [json_tracks]. apply (alike_bind _ _ _ _ evsrel).
  - unfold json_mtrk. destruct (jt_tag t) as [tag|]; [|exact I]. destruct (negb _); [exact I|]. apply (alike_bind _ _ _ _ evsrel); [apply each_rel, H|]. apply fixups_rel.
  - intros es es' E. apply (alike_bind _ _ _ _ tracksrel); [apply IH|]. intros x y X. cbn [alike]. unfold tracksrel, evsrel in *. cbn [map]. unfold bare_track at 1 3, assembled_mtrk. cbn. congruence.
Qed.

Theorem assemble_json_same : forall a b v, same_ids a b -> assemble_json a v = assemble_json b v.
Proof.
  intros a b v H. apply alike_eq. unfold assemble_json. destruct (object v) as [o| | | |]; cbn [bind]; try exact I. destruct (field _ read_header _ o) as [h| | | |]; cbn [bind]; try exact I.
  destruct (field _ _ _ o) as [ts| | | |]; cbn [bind]; try exact I. destruct (json_mthd h) as [m| | | |]; cbn [bind]; try exact I.
  apply (alike_bind _ _ _ _ tracksrel); [apply json_tracks_rel, H|]. intros x y X.
  assert (L : zlen x = zlen y) by (unfold zlen; rewrite <- (map_length bare_track x), X, map_length; reflexivity). rewrite L.
  rewrite (encode_same _ (SMF (Some (MThd (h_tag m) (h_length m) (h_format m) (zlen y mod 65536) (h_division m) (h_ppqn m) (h_smpte m) (h_subframes m) (h_fps m) (h_drop m) (h_bytes m))) y)); [apply alike_refl; reflexivity|].
  unfold same_but_names, bare_file. cbn [f_mthd f_tracks]. rewrite X. reflexivity.
Qed.

Lemma loaded_same : forall w d a b file k k', same_wire_ids a b -> (forall r, d (w_file w file) = Some r -> is_bytes r) -> (forall s s', same_but_names s s' -> k s = k' s') -> loaded w d a file k = loaded w d b file k'.
Proof.
  intros w d a b file k k' H B K. unfold loaded, read_file. destruct (bytes_eqb file []); [reflexivity|]. destruct (d (w_file w file)) as [r|]; [|reflexivity]. pose proof (decode_rel a b r H (B r eq_refl)) as D.
  destruct (decode a r) as [s| | | |], (decode b r) as [s'| | | |]; cbn [alike] in D; try contradiction; try reflexivity.
  pose proof (validate_same s s' D) as V. destruct (validate s), (validate s'); cbn [alike] in V; try contradiction; try reflexivity. apply K, D.
Qed.

Theorem runs_same : forall w d a b out file n, same_wire_ids a b -> (forall r, d (w_file w file) = Some r -> is_bytes r) ->
  run_transpose w d a out file n = run_transpose w d b out file n /\ run_click w d a out file = run_click w d b out file /\ run_humanise w d a file = run_humanise w d b file.
Proof.
  intros w d a b out file n H B. split; [|split].
  - apply loaded_same; [exact H|exact B|]. intros s s' E. rewrite (transpose_same a b n s s' E). reflexivity.
  - apply loaded_same; [exact H|exact B|]. intros s s' E. rewrite (click_same s s' E). reflexivity.
  - apply loaded_same; [exact H|exact B|]. reflexivity.
Qed.

Theorem assemble_runs_same : forall w d a b out file, same_ids a b -> run_assemble w d a out file = run_assemble w d b out file.
Proof.
  intros w d a b out file H. unfold run_assemble. destruct (read_file w d file) as [r|]; [|reflexivity]. destruct (bytes_eqb _ _); [|reflexivity]. unfold assemble_json_text.
  destruct (read_text r) as [[v rest]| | | |]; cbn [bind]; try reflexivity. rewrite (assemble_json_same a b v H). reflexivity.
Qed.

(** ** Middle C *)

Theorem middle_c_ids : forall a b, env_manufacturers a = env_manufacturers b -> same_ids a b.
Proof. intros [c m] [c' m'] H id. cbn [env_manufacturers] in H. subst m'. reflexivity. Qed.
Lemma ids_wire : forall a b, same_ids a b -> same_wire_ids a b.
Proof. intros a b H id _. apply H. Qed.
