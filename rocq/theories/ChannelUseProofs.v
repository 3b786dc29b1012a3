(** * ChannelUseProofs: what is made of files whose messages are on other channels (C117). *)
From Coq Require Import Permutation.
From Verif Require Import Base Strings Tables Vlq SpecVlq Event SpecEvent Parse Track File SpecTrack SpecHistory Validate ValidateText Transpose Notes NotesProofs SpecNames NamesProofs SpecSameSong SameSongProofs
  SpecDecoded DecodedProofs FileProofs SpecChannels ChannelProofs.

Definition on_track (f : Z -> Z) (t : mtrk) : mtrk := MTrk (t_tag t) (t_number t) 0 [] (map (on_event f) (t_events t)) (t_ctx t).
Definition on_file (f : Z -> Z) (s : smf) : smf := SMF (f_mthd s) (map (on_track f) (f_tracks s)).

Lemma moved_gist : forall f s s', file_moved f s s' -> same_gist (on_file f s) s'.
Proof.
  intros f s s' [H T]. split; [symmetry; exact H|]. cbn [on_file f_tracks]. induction T as [|t t' ts ts' (A & B & C & D) T IH]; [reflexivity|]. cbn [map]. rewrite IH. f_equal.
  unfold track_gist, on_track. cbn [t_tag t_number t_events t_ctx]. rewrite A, B, C, map_map. f_equal. unfold end_moved in D. destruct (t_ctx t), (t_ctx t'); try contradiction; reflexivity.
Qed.

(** The channel of a message is one of the sixteen. *)
Definition channel_ok (b : body) : Prop :=
  match b with
  | NoteOff ch n _ | NoteOn ch n _ => 0 <= ch < 16
  | Controller ch _ _ => 0 <= ch < 16
  | _ => True
  end.
Definition channels_ok (s : smf) : Prop := Forall (fun t => Forall (fun e => channel_ok (e_body e)) (t_events t)) (f_tracks s).

Lemma decoded_channels : forall env r s, is_bytes r -> decode env r = Ok s -> channels_ok s.
Proof.
  intros env r s B D. pose proof (decoded_file env r s B D) as F. unfold channels_ok. revert F. apply Forall_impl. intros t (_ & _ & F). revert F. apply Forall_impl.
  intros e (_ & _ & H). unfold decoded_body in H. unfold channel_ok. destruct (e_body e); tauto.
Qed.

(** ** Validation *)

Definition on_report (f : Z -> Z) (v : verror) : verror :=
  match v with
  | VTrack0Unexpected e => VTrack0Unexpected (on_event f e)
  | VTrackUnexpected t e => VTrackUnexpected t (on_event f e)
  | VEotNotLast t i e => VEotNotLast t i (on_event f e)
  | _ => v
  end.

Lemma is_eot_on : forall f e, is_eot (on_event f e) = is_eot e.
Proof. intros f e. unfold is_eot, on_event. cbn [e_body]. destruct (e_body e); reflexivity. Qed.
Lemma is_track0_on : forall f e, is_track0_event (on_event f e) = is_track0_event e.
Proof. intros f e. unfold is_track0_event, on_event. cbn [e_body]. destruct (e_body e); reflexivity. Qed.
Lemma is_track1_on : forall f e, is_track1_event (on_event f e) = is_track1_event e.
Proof. intros f e. unfold is_track1_event, on_event. cbn [e_body]. destruct (e_body e); reflexivity. Qed.

Lemma eot_on : forall f tr n es i, eot_scan tr n i (map (on_event f) es) = (map (on_report f) (fst (eot_scan tr n i es)), snd (eot_scan tr n i es)).
Proof.
  intros f tr n. induction es as [|e es IH]; intro i; [reflexivity|]. cbn [map eot_scan]. rewrite IH. destruct (eot_scan tr n (i + 1) es) as [errs found]. cbn [fst snd].
  rewrite is_eot_on. destruct (is_eot e); [|reflexivity]. cbn [fst snd]. rewrite map_app. destruct (i + 1 =? n); reflexivity.
Qed.

Definition on_last (f : Z -> Z) (x : option (Z * Z)) : option (Z * Z) := option_map (fun p => (f (fst p), snd p)) x.
Definition last_ok (x : option (Z * Z)) : Prop := match x with Some (ch, _) => 0 <= ch < 16 | None => True end.

Lemma bank_check_on : forall f tr i a b, rearranges f -> last_ok a -> last_ok b -> bank_check tr i (on_last f a) (on_last f b) = map (on_report f) (bank_check tr i a b).
Proof.
  intros f tr i a b [_ J] A B.
  assert (Q : forall l, Forall (fun v => on_report f v = v) l -> map (on_report f) l = l) by (intros l F; induction F as [|v l V F IHF]; [reflexivity|]; cbn [map]; rewrite V; f_equal; exact IHF).
  rewrite Q by (unfold bank_check; apply Forall_app; split; [|apply Forall_app; split]; repeat match goal with |- context[match ?x with _ => _ end] => destruct x end; repeat constructor).
  unfold bank_check. destruct a as [[ca ka]|], b as [[cb kb]|]; cbn [on_last option_map fst snd]; try reflexivity.
  cbn [last_ok] in A, B. replace (f ca =? f cb) with (ca =? cb); [reflexivity|]. destruct (Z.eqb_spec ca cb) as [->|N]; [symmetry; apply Z.eqb_refl|].
  destruct (Z.eqb_spec (f ca) (f cb)) as [E|E]; [destruct (N (J _ _ A B E))|reflexivity].
Qed.

Lemma bank_on : forall f tr es i last, rearranges f -> Forall (fun e => channel_ok (e_body e)) es -> last_ok last ->
  bank_scan tr i (on_last f last) (map (on_event f) es) = map (on_report f) (bank_scan tr i last es).
Proof.
  intros f tr es i last R F. revert i last. induction F as [|e es C F IH]; intros i last L; [reflexivity|]. cbn [map bank_scan]. rewrite map_app.
  assert (E : as_controller (e_body (on_event f e)) = on_last f (as_controller (e_body e))) by (unfold on_event; cbn [e_body]; destruct (e_body e); reflexivity).
  assert (K : last_ok (as_controller (e_body e))) by (unfold channel_ok in C; destruct (e_body e); try exact I; exact C).
  rewrite E, (bank_check_on f tr i last _ R L K), (IH (i + 1) _ K). reflexivity.
Qed.

Lemma concat_on : forall f (g : mtrk -> list verror) ts, Forall (fun t => g (on_track f t) = map (on_report f) (g t)) ts -> concat (map g (map (on_track f) ts)) = map (on_report f) (concat (map g ts)).
Proof. intros f g ts H. induction H as [|t ts E H IH]; [reflexivity|]. cbn [map concat]. rewrite map_app, E, IH. reflexivity. Qed.

Lemma validate_on : forall f s, rearranges f -> channels_ok s -> validate (on_file f s) = omap (map (on_report f)) (validate s).
Proof.
  intros f [h ts] R C. unfold channels_ok in C. unfold validate, on_file. cbn [f_mthd f_tracks] in *. destruct h as [h|]; [|reflexivity].
  assert (F0 : validate_format0 (SMF (Some h) (map (on_track f) ts)) = map (on_report f) (validate_format0 (SMF (Some h) ts))).
  { unfold validate_format0, zlen. cbn [f_tracks]. rewrite map_length. destruct (_ =? _); reflexivity. }
  assert (F1 : validate_format1 (SMF (Some h) (map (on_track f) ts)) = omap (map (on_report f)) (validate_format1 (SMF (Some h) ts))).
  { unfold validate_format1. cbn [f_tracks]. destruct ts as [|t ts]; [reflexivity|]. cbn [map omap bind]. rewrite map_app. f_equal. f_equal.
    - cbn [on_track t_events]. rewrite (filter_map _ _ (on_event f) _ (fun e => negb (is_track0_event e))) by (intro; rewrite is_track0_on; reflexivity). rewrite !map_map. reflexivity.
    - rewrite <- concat_on; [reflexivity|]. apply Forall_forall. intros x _. cbn [on_track t_events t_number].
      rewrite (filter_map _ _ (on_event f) _ (fun e => negb (is_track1_event e))) by (intro; rewrite is_track1_on; reflexivity). rewrite !map_map. reflexivity. }
  rewrite F1, F0. rewrite (concat_on f validate_eot ts).
  2:{ apply Forall_forall. intros t _. unfold validate_eot, zlen. cbn [on_track t_number t_events]. rewrite map_length, eot_on. destruct (eot_scan _ _ _ _) as [errs found]. cbn [fst snd]. rewrite map_app. destruct found; reflexivity. }
  rewrite (concat_on f (fun t => bank_scan (t_number t) 0 None (t_events t)) ts).
  2:{ revert C. apply Forall_impl. intros t C. exact (bank_on f (t_number t) (t_events t) 0 None R C I). }
  clear F0 F1. unfold omap. destruct (h_format h =? 0), (h_format h =? 1), (validate_format1 (SMF (Some h) ts)); cbn [bind]; rewrite ?map_app; reflexivity.
Qed.

Lemma warning_on : forall f s, rearranges f -> channels_ok s -> validation_warning (on_file f s) = validation_warning s.
Proof.
  intros f s R C. unfold validation_warning. rewrite (validate_on f s R C). unfold omap. destruct (validate s) as [errs| | | |]; cbn [bind]; try reflexivity. f_equal. unfold validation_report.
  destruct errs as [|v errs]; [reflexivity|]. cbn [map].
  assert (K : forall e, clean (e_body (on_event f e)) = clean (e_body e)) by (intro e; unfold on_event; cbn [e_body]; destruct (e_body e) as [| | | | | | | |[]| | | | | | | | | | |]; reflexivity).
  assert (M : forall v, message (on_report f v) = message v) by (intros []; cbn [on_report message]; rewrite ?K; reflexivity).
  assert (F : forall l, flat_map (fun v => str "         ** " ++ message v ++ [10]) (map (on_report f) l) = flat_map (fun v => str "         ** " ++ message v ++ [10]) l).
  { induction l as [|x l IH]; [reflexivity|]. cbn [map flat_map]. rewrite IH, M. reflexivity. }
  change (on_report f v :: map (on_report f) errs) with (map (on_report f) (v :: errs)). rewrite F. reflexivity.
Qed.

Theorem moved_valid : forall f env r s s', rearranges f -> is_bytes r -> decode env r = Ok s -> file_moved f s s' -> validation_warning s' = validation_warning s.
Proof.
  intros f env r s s' R B D M. destruct (gist_used _ _ (moved_gist f s s' M)) as (_ & _ & _ & _ & W & _). rewrite <- W. apply warning_on; [exact R|]. exact (decoded_channels env r s B D).
Qed.

(** ** Transposition *)

Lemma transpose_value_range : forall v n, 0 <= transpose_value v n <= 127.
Proof. intros v n. unfold transpose_value. cbv zeta. destruct (Z.ltb_spec (wrap64 (v + n)) 0); [lia|]. destruct (Z.ltb_spec 127 (wrap64 (v + n))); lia. Qed.

Lemma transpose_event_on : forall f env c c' n e e', rearranges f -> end_moved f c c' -> channel_ok (e_body e) -> moved f e e' ->
  alike (fun x y => moved f (fst x) (fst y) /\ end_moved f (snd x) (snd y)) (transpose_event env c n e) (transpose_event env c' n e').
Proof.
  intros f env c c' n [t d bs st ty b] [t' d' bs' st' ty' b'] R C K M. unfold moved, no_bytes, on_event in M. cbn [e_tick e_delta e_status e_type e_body] in *.
  injection M as -> -> -> -> ->. unfold transpose_event. cbn [e_body e_tick e_delta].
  destruct b; cbn [on_body]; try (split; [reflexivity|exact C]).
  - destruct c as [c|], c' as [c'|]; try contradiction; [|exact I]. split; [|exact C]. pose proof (transpose_value_range (n_value n0) n) as V.
    unfold moved, no_bytes, on_event. cbn [fst e_tick e_delta e_status e_type e_body on_body]. cbn [channel_ok] in K.
    rewrite (note_moved f env c c' ch (transpose_value (n_value n0) n) C K ltac:(lia)), (proj1 C). destruct (channel_status f 128 ch R ltac:(cbn; tauto) K) as [-> _]. reflexivity.
  - destruct c as [c|], c' as [c'|]; try contradiction; [|exact I]. split; [|exact C]. pose proof (transpose_value_range (n_value n0) n) as V.
    unfold moved, no_bytes, on_event. cbn [fst e_tick e_delta e_status e_type e_body on_body]. cbn [channel_ok] in K.
    rewrite (note_moved f env c c' ch (transpose_value (n_value n0) n) C K ltac:(lia)), (proj1 C). destruct (channel_status f 144 ch R ltac:(cbn; tauto) K) as [-> _]. reflexivity.
  - destruct (key_scale accidentals keytype) as [k| | | |]; cbn [bind alike]; try exact I. destruct (scale_transpose k n) as [q| | | |]; cbn [bind alike]; try exact I.
    destruct c as [c|], c' as [c'|]; try contradiction; [|exact I]. split; [reflexivity|]. cbn [snd end_moved]. apply scale_moved, C.
Qed.

Lemma transpose_events_on : forall f env n es es' c c', rearranges f -> Forall (fun e => channel_ok (e_body e)) es -> map no_bytes es' = map (on_event f) es -> end_moved f c c' ->
  alike (fun x y => map no_bytes y = map (on_event f) x) (transpose_events env c n es) (transpose_events env c' n es').
Proof.
  intros f env n es es' c c' R F. revert es' c c'. induction F as [|e es K F IH]; intros [|e' es'] c c' M C; try discriminate M; [reflexivity|]. cbn [map] in M. injection M as M1 M2 M3 M4 M5 M6.
  cbn [transpose_events]. assert (M0 : moved f e e') by (unfold moved, no_bytes, on_event; congruence).
  apply (alike_bind _ _ _ _ (fun x y => moved f (fst x) (fst y) /\ end_moved f (snd x) (snd y))); [apply transpose_event_on; assumption|].
  intros [e1 c1] [e1' c1'] [A B]. apply (alike_bind _ _ _ _ (fun x y => map no_bytes y = map (on_event f) x)); [apply IH; assumption|].
  intros a b E. cbn [alike map]. rewrite E. f_equal. exact A.
Qed.

Theorem moved_transposed : forall f env r s s' n, rearranges f -> is_bytes r -> decode env r = Ok s -> file_moved f s s' -> alike (file_moved f) (transpose_smf env n s) (transpose_smf env n s').
Proof.
  intros f env r s s' n R B D [H T]. pose proof (decoded_channels env r s B D) as K. unfold channels_ok in K. unfold transpose_smf. rewrite H.
  apply (alike_bind _ _ _ _ (Forall2 (events_moved f))); [|intros a b E; split; [reflexivity|exact E]].
  clear D. induction T as [|t t' ts ts' (T1 & T2 & T3 & T4) T IH]; [constructor|]. cbn [transpose_tracks]. apply (alike_bind _ _ _ _ (events_moved f)).
  - unfold transpose_track. apply (alike_bind _ _ _ _ (fun x y => map no_bytes y = map (on_event f) x)); [apply transpose_events_on; try assumption; exact (Forall_inv K)|].
    intros a b E. repeat split; [exact T2|exact E].
  - intros a b E. apply (alike_bind _ _ _ _ (Forall2 (events_moved f))); [apply IH; exact (Forall_inv_tail K)|]. intros x y G. constructor; assumption.
Qed.

(** ** Notes *)

Definition on_nevent (f : Z -> Z) (e : nevent) : nevent := NEvent (ne_tick e) (ne_delta e) (ne_at e) (on_body f (ne_body e)) (ne_flats e).

Lemma insert_on : forall f x l, insert_tick (on_nevent f x) (map (on_nevent f) l) = map (on_nevent f) (insert_tick x l).
Proof. intros f x. induction l as [|y l IH]; [reflexivity|]. cbn [map insert_tick on_nevent ne_tick]. destruct (_ <? _); [|reflexivity]. cbn [map]. f_equal. exact IH. Qed.
Lemma sort_on : forall f l, sort_ticks (map (on_nevent f) l) = map (on_nevent f) (sort_ticks l).
Proof. intros f. induction l as [|x l IH]; [reflexivity|]. cbn [map sort_ticks]. rewrite IH. apply insert_on. Qed.

Lemma times_on : forall f ppqn l tempo at_ flats, timestamps tempo at_ flats ppqn (map (on_nevent f) l) = omap (map (on_nevent f)) (timestamps tempo at_ flats ppqn l).
Proof.
  intros f ppqn. induction l as [|e l IH]; intros tempo at_ flats; [reflexivity|]. cbn [map timestamps]. cbn [on_nevent ne_delta ne_body ne_tick].
  destruct (delta_time (ne_delta e) tempo ppqn) as [d| | | |]; cbn [bind omap]; try reflexivity.
  replace (match on_body f (ne_body e) with Tempo t => t | _ => tempo end) with (match ne_body e with Tempo t => t | _ => tempo end) by (destruct (ne_body e); reflexivity).
  replace (match on_body f (ne_body e) with KeySignature acc _ _ => acc <? 0 | _ => flats end) with (match ne_body e with KeySignature acc _ _ => acc <? 0 | _ => flats end) by (destruct (ne_body e); reflexivity).
  rewrite IH. unfold omap. destruct (timestamps _ _ _ ppqn l); reflexivity.
Qed.

Lemma tempo_on : forall f es, tempo_events (map (on_event f) es) = map (on_event f) (tempo_events es).
Proof. intros f es. unfold tempo_events. apply filter_map. intro e. unfold on_event. cbn [e_body]. destruct (e_body e); reflexivity. Qed.

Lemma build_on : forall f es tm ppqn, build_track_events (map (on_event f) es) (map (on_event f) tm) ppqn = omap (map (on_nevent f)) (build_track_events es tm ppqn).
Proof.
  intros f es tm ppqn. unfold build_track_events.
  assert (U : unsorted (map (on_event f) es) (map (on_event f) tm) = map (on_nevent f) (unsorted es tm)) by (unfold unsorted; rewrite map_app, !map_map; reflexivity).
  rewrite U, sort_on, times_on. unfold omap. destruct (timestamps _ _ _ _ _) as [l| | | |]; cbn [bind]; try reflexivity. f_equal.
  apply filter_map. intro e. cbn [on_nevent ne_body]. destruct (ne_body e); reflexivity.
Qed.

(** All that is pending is a NoteOn of one of the channels, filed under its channel. *)
Definition pending_ok (p : pending) : Prop := Forall (fun x => 0 <= fst (fst x) < 16 /\ exists n v, ne_body (snd x) = NoteOn (fst (fst x)) n v) p.
Definition on_pending (f : Z -> Z) (p : pending) : pending := map (fun x => ((f (fst (fst x)), snd (fst x)), on_nevent f (snd x))) p.

Lemma key_on : forall f ch k x, rearranges f -> 0 <= ch < 16 -> 0 <= fst x < 16 -> key_eqb (f ch, k) (f (fst x), snd x) = key_eqb (ch, k) x.
Proof.
  intros f ch k [c m] [_ J] C X. unfold key_eqb. cbn [fst snd] in *. f_equal. destruct (Z.eqb_spec ch c) as [->|N]; [apply Z.eqb_refl|].
  destruct (Z.eqb_spec (f ch) (f c)) as [E|E]; [destruct (N (J _ _ C X E))|reflexivity].
Qed.

Lemma find_on : forall f ch k p, rearranges f -> 0 <= ch < 16 -> pending_ok p -> find_key (f ch, k) (on_pending f p) = option_map (on_nevent f) (find_key (ch, k) p).
Proof.
  intros f ch k p R C P. induction P as [|[x e] p [X _] P IH]; [reflexivity|]. cbn [on_pending map find_key fst snd] in *. rewrite (key_on f ch k x R C X). destruct (key_eqb (ch, k) x); [reflexivity|exact IH].
Qed.

Lemma drop_on : forall f ch k p, rearranges f -> 0 <= ch < 16 -> pending_ok p -> drop_key (f ch, k) (on_pending f p) = on_pending f (drop_key (ch, k) p).
Proof.
  intros f ch k p R C P. unfold drop_key, on_pending. induction P as [|[x e] p [X _] P IH]; [reflexivity|]. cbn [map filter fst snd] in *. rewrite (key_on f ch k x R C X).
  destruct (negb (key_eqb (ch, k) x)); cbn [map fst snd]; [f_equal|]; exact IH.
Qed.

Lemma drop_ok : forall k p, pending_ok p -> pending_ok (drop_key k p).
Proof. intros k p P. unfold drop_key, pending_ok. apply Forall_forall. intros x X. apply filter_In in X as [X _]. exact (proj1 (Forall_forall _ _) P x X). Qed.

Lemma found_on : forall k p e, pending_ok p -> find_key k p = Some e -> exists ch n v, ne_body e = NoteOn ch n v.
Proof. intros k p e P. induction P as [|[x e0] p [_ (n & v & B)] P IH]; [discriminate|]. cbn [find_key]. destruct (key_eqb k x); [|exact IH]. intros [= <-]. eexists _, _, _. exact B. Qed.

Lemma finished_on : forall f env steps p e, (exists ch n v, ne_body p = NoteOn ch n v) -> finished env steps (on_nevent f p) (on_nevent f e) = on_note f (finished env steps p e).
Proof. intros f env steps p e (ch & n & v & B). unfold finished. cbn [on_nevent ne_body]. rewrite B. reflexivity. Qed.

Lemma finish_on : forall f env steps p ch k e, rearranges f -> 0 <= ch < 16 -> pending_ok p ->
  finish env steps (on_pending f p) (f ch, k) (on_nevent f e) = (map (on_note f) (fst (finish env steps p (ch, k) e)), on_pending f (snd (finish env steps p (ch, k) e))) /\ pending_ok (snd (finish env steps p (ch, k) e)).
Proof.
  intros f env steps p ch k e R C P. unfold finish. rewrite (find_on f ch k p R C P). destruct (find_key (ch, k) p) as [on|] eqn:E; cbn [option_map fst snd map]; [|split; [reflexivity|exact P]].
  rewrite (drop_on f ch k p R C P), (finished_on f env steps on e (found_on _ _ _ P E)). split; [reflexivity|apply drop_ok, P].
Qed.

Lemma finish_all_perm : forall env steps order p e, (forall l, Permutation l (order l)) -> pending_ok p ->
  Permutation (finish_all env steps order p e) (map (fun on => finished env steps on e) (map snd p)).
Proof.
  intros env steps order p e O P. unfold finish_all.
  transitivity (flat_map (fun ch => map (fun on => finished env steps on e) (map snd (filter (fun x => fst (fst x) =? ch) p))) channels16).
  - apply flat_map_Permutation. intro ch. apply Permutation_map, Permutation_sym, O.
  - rewrite (flat_map_map _ _ _ (fun on => finished env steps on e)), (flat_map_map _ _ _ snd). apply Permutation_map, Permutation_map.
    apply (filter_partition _ (fun x => fst (fst x))); [unfold channels16; repeat (constructor; [cbn [In]; lia|]); constructor|].
    revert P. apply Forall_impl. intros x [X _]. unfold channels16. cbn [In]. lia.
Qed.

Lemma none_left : forall p, pending_ok p -> filter (fun x : (Z * Z) * nevent => negb (existsb (Z.eqb (fst (fst x))) channels16)) p = [].
Proof.
  intros p P. induction P as [|x p [X _] P IH]; [reflexivity|]. cbn [filter]. replace (existsb (Z.eqb (fst (fst x))) channels16) with true; [exact IH|].
  symmetry. apply existsb_exists. exists (fst (fst x)). split; [unfold channels16; cbn [In]; lia|apply Z.eqb_refl].
Qed.

Lemma on_pending_ok : forall f p, rearranges f -> pending_ok p -> pending_ok (on_pending f p).
Proof.
  intros f p [R _] P. unfold pending_ok, on_pending. apply Forall_map. revert P. apply Forall_impl. intros x [X (n & v & B)]. cbn [fst snd]. split; [exact (R _ X)|].
  exists n, v. cbn [on_nevent ne_body]. rewrite B. reflexivity.
Qed.

Definition notes_on (f : Z -> Z) (a b : list note_out) : Prop := Permutation (map (on_note f) a) b.

Lemma note_list_on : forall f env steps order order' es p, rearranges f -> (forall l, Permutation l (order l)) -> (forall l, Permutation l (order' l)) ->
  Forall (fun e => channel_ok (ne_body e)) es -> pending_ok p ->
  alike (notes_on f) (note_list env steps order p es) (note_list env steps order' (on_pending f p) (map (on_nevent f) es)).
Proof.
  intros f env steps order order' es p R O O' F. revert p. induction F as [|e es C F IH]; intros p P; [apply perm_nil|]. cbn [map note_list]. change (ne_body (on_nevent f e)) with (on_body f (ne_body e)).
  assert (FIN : forall ch k, 0 <= ch < 16 -> alike (notes_on f) (let (out, p') := finish env steps p (ch, k) e in do ns <- note_list env steps order p' es; Ok (out ++ ns))
     (let (out, p') := finish env steps (on_pending f p) (f ch, k) (on_nevent f e) in do ns <- note_list env steps order' p' (map (on_nevent f) es); Ok (out ++ ns))).
  { intros ch k K. destruct (finish_on f env steps p ch k e R K P) as [E PO]. rewrite E. destruct (finish env steps p (ch, k) e) as [out p1]. cbn [fst snd] in *.
    apply (alike_bind _ _ _ _ (notes_on f)); [apply IH, PO|]. intros a b A. unfold notes_on. cbn [alike]. rewrite map_app. apply Permutation_app_head, A. }
  unfold channel_ok in C. destruct (ne_body e) eqn:B; cbn [on_body]; try (apply IH, P).
  - apply FIN, C.
  - destruct (0 <? velocity); [|apply FIN, C]. rewrite (find_on f ch (n_value n) p R C P). destruct (find_key (ch, n_value n) p); cbn [option_map]; [apply IH, P|].
    replace (ch <? 16) with true by lia. replace (f ch <? 16) with true by (pose proof (proj1 R ch C); lia).
    apply (IH (((ch, n_value n), e) :: p)). constructor; [|exact P]. split; [exact C|]. exists n, velocity. exact B.
  - rewrite (none_left p P), (none_left _ (on_pending_ok f p R P)). apply (alike_bind _ _ _ _ (notes_on f)); [apply (IH []); constructor|]. intros a b A. unfold notes_on. cbn [alike]. rewrite map_app. apply Permutation_app; [|exact A].
    rewrite (finish_all_perm env steps order' _ _ O' (on_pending_ok f p R P)). rewrite (Permutation_map (on_note f) (finish_all_perm env steps order p e O P)).
    clear - P. induction P as [|x p [_ (n & v & B)] P IHp]; [reflexivity|]. cbn [on_pending map fst snd]. rewrite (finished_on f env steps (snd x) e) by (eexists _, _, _; exact B). apply perm_skip, IHp.
Qed.

Lemma times_channels : forall ppqn l tempo at_ flats l', timestamps tempo at_ flats ppqn l = Ok l' -> map ne_body l' = map ne_body l.
Proof.
  intros ppqn. induction l as [|e l IH]; intros tempo at_ flats l' H; [apply Ok_inj in H; subst; reflexivity|]. cbn [timestamps] in H.
  destruct (delta_time _ _ _) as [d| | | |]; try discriminate. cbn [bind] in H. destruct (timestamps _ _ _ ppqn l) as [r| | | |] eqn:E; try discriminate. cbn [bind] in H. apply Ok_inj in H. subst l'.
  cbn [map ne_body]. f_equal. exact (IH _ _ _ _ E).
Qed.

Lemma sorted_in : forall x l, In x (sort_ticks l) -> In x l.
Proof.
  assert (A : forall x y l, In x (insert_tick y l) -> x = y \/ In x l).
  { intros x y. induction l as [|z l IH]; cbn [insert_tick]; [intros [->|[]]; auto|]. destruct (_ <? _); cbn [In]; [intros [->|H]; [auto|destruct (IH H); auto]|intros [->|H]; auto]. }
  intros x. induction l as [|y l IH]; [auto|]. cbn [sort_ticks In]. intro H. apply A in H as [->|H]; auto.
Qed.

Lemma build_channels : forall es tm ppqn l, Forall (fun e => channel_ok (e_body e)) es -> Forall (fun e => channel_ok (e_body e)) tm -> build_track_events es tm ppqn = Ok l -> Forall (fun e => channel_ok (ne_body e)) l.
Proof.
  intros es tm ppqn l F G H. unfold build_track_events in H. destruct (timestamps _ _ _ _ _) as [k| | | |] eqn:E; try discriminate. cbn [bind] in H. apply Ok_inj in H. subst l.
  apply times_channels in E. apply Forall_forall. intros x X. apply filter_In in X as [X _]. apply (in_map ne_body) in X. rewrite E in X. apply in_map_iff in X as (y & <- & Y). apply sorted_in in Y.
  unfold unsorted in Y. apply in_app_or in Y as [Y|Y]; apply in_map_iff in Y as (z & <- & Z); cbn [ne_body]; [exact (proj1 (Forall_forall _ _) F z Z)|exact (proj1 (Forall_forall _ _) G z Z)].
Qed.

Lemma extract_on : forall f env n order order' s, rearranges f -> channels_ok s -> (forall l, Permutation l (order l)) -> (forall l, Permutation l (order' l)) ->
  alike (notes_on f) (extract env n order s) (extract env n order' (on_file f s)).
Proof.
  intros f env n order order' [h ts] R C O O'. unfold channels_ok in C. unfold extract, on_file. cbn [f_mthd f_tracks] in *. destruct ts as [|t ts]; [exact I|]. cbn [map].
  assert (G : Forall (fun e => channel_ok (e_body e)) (tempo_events (t_events t))).
  { apply Forall_forall. intros x X. unfold tempo_events in X. apply filter_In in X as [X _]. exact (proj1 (Forall_forall _ _) (Forall_inv C) x X). }
  assert (T : forall ppqn, alike (notes_on f) (tracks_notes env n order (tempo_events (t_events t)) ppqn ts) (tracks_notes env n order' (tempo_events (t_events (on_track f t))) ppqn (map (on_track f) ts))).
  { intro ppqn. cbn [on_track t_events]. rewrite tempo_on. apply Forall_inv_tail in C. induction C as [|x ts K C IH]; [apply perm_nil|]. cbn [map tracks_notes].
    apply (alike_bind _ _ _ _ (notes_on f)).
    - unfold track_notes. cbn [on_track t_events]. rewrite build_on. unfold omap. destruct (build_track_events (t_events x) _ ppqn) as [l| | | |] eqn:E; cbn [bind]; try exact I.
      apply (note_list_on f env n order order' l [] R O O' (build_channels _ _ _ _ K G E)). constructor.
    - intros a b A. apply (alike_bind _ _ _ _ (notes_on f)); [exact IH|]. intros x' y X. unfold notes_on. cbn [alike]. rewrite map_app. apply Permutation_app; assumption. }
  destruct h as [h|]; (destruct ts as [|t1 ts]; [apply perm_nil|]); [apply T|exact I].
Qed.

Theorem moved_notes : forall f env r s s' n order order', rearranges f -> is_bytes r -> decode env r = Ok s -> file_moved f s s' -> (forall l, Permutation l (order l)) -> (forall l, Permutation l (order' l)) ->
  alike (fun ns ns' => Permutation (map (on_note f) ns) ns') (extract env n order s) (extract env n order' s').
Proof.
  intros f env r s s' n order order' R B D M O O'. destruct (gist_used _ _ (moved_gist f s s' M)) as (_ & _ & _ & _ & _ & _ & W). rewrite <- W.
  apply extract_on; [exact R|exact (decoded_channels env r s B D)|exact O|exact O'].
Qed.
