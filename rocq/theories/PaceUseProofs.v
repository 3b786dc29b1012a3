(** * PaceUseProofs: what is made of files at other times or at another resolution (C118). *)
From Coq Require Import Permutation.
From Verif Require Import Base Strings Tables Vlq SpecVlq Event SpecEvent Parse Track File SpecTrack SpecHistory Validate ValidateText Transpose Notes NotesProofs SpecNames NamesProofs SpecSameSong SameSongProofs
  SpecDecoded DecodedProofs FileProofs ChannelUseProofs SpecPace PaceProofs.

(** ** Validation *)

Definition plain_header (h : mthd) : mthd := MThd [] 0 (h_format h) 0 0 0 false 0 0 false [].
Definition plain_track (t : mtrk) : mtrk := MTrk [] (t_number t) 0 [] (map no_times (t_events t)) None.
Definition plain_file (s : smf) : smf := SMF (option_map plain_header (f_mthd s)) (map plain_track (f_tracks s)).

Definition plain_report (v : verror) : verror :=
  match v with
  | VTrack0Unexpected e => VTrack0Unexpected (no_times e)
  | VTrackUnexpected t e => VTrackUnexpected t (no_times e)
  | VEotNotLast t i e => VEotNotLast t i (no_times e)
  | _ => v
  end.

Lemma eot_plain : forall tr n es i, eot_scan tr n i (map no_times es) = (map plain_report (fst (eot_scan tr n i es)), snd (eot_scan tr n i es)).
Proof.
  intros tr n. induction es as [|e es IH]; intro i; [reflexivity|]. cbn [map eot_scan]. rewrite IH. destruct (eot_scan tr n (i + 1) es) as [errs found]. cbn [fst snd].
  change (is_eot (no_times e)) with (is_eot e). destruct (is_eot e); [|reflexivity]. cbn [fst snd]. rewrite map_app. destruct (i + 1 =? n); reflexivity.
Qed.

Lemma bank_check_plain : forall tr i a b, map plain_report (bank_check tr i a b) = bank_check tr i a b.
Proof.
  intros tr i a b. assert (Q : forall l, Forall (fun v => plain_report v = v) l -> map plain_report l = l) by (intros l F; induction F as [|v l V F IHF]; [reflexivity|]; cbn [map]; rewrite V; f_equal; exact IHF).
  apply Q. unfold bank_check; apply Forall_app; split; [|apply Forall_app; split]; repeat match goal with |- context[match ?x with _ => _ end] => destruct x end; repeat constructor.
Qed.

Lemma bank_plain : forall tr es i last, bank_scan tr i last (map no_times es) = map plain_report (bank_scan tr i last es).
Proof. intros tr. induction es as [|e es IH]; intros i last; [reflexivity|]. cbn [map bank_scan]. rewrite map_app, bank_check_plain, IH. reflexivity. Qed.

Lemma concat_plain : forall (g : mtrk -> list verror) ts, (forall t, g (plain_track t) = map plain_report (g t)) -> concat (map g (map plain_track ts)) = map plain_report (concat (map g ts)).
Proof. intros g ts H. induction ts as [|t ts IH]; [reflexivity|]. cbn [map concat]. rewrite map_app, H, IH. reflexivity. Qed.

Lemma validate_plain : forall s, validate (plain_file s) = omap (map plain_report) (validate s).
Proof.
  intros [h ts]. unfold validate, plain_file. cbn [f_mthd f_tracks]. destruct h as [h|]; [|reflexivity]. cbn [option_map plain_header h_format].
  assert (F0 : forall x, validate_format0 (SMF x (map plain_track ts)) = map plain_report (validate_format0 (SMF (Some h) ts))).
  { intro x. unfold validate_format0, zlen. cbn [f_tracks]. rewrite map_length. destruct (_ =? _); reflexivity. }
  assert (F1 : forall x, validate_format1 (SMF x (map plain_track ts)) = omap (map plain_report) (validate_format1 (SMF (Some h) ts))).
  { intro x. unfold validate_format1. cbn [f_tracks]. destruct ts as [|t ts]; [reflexivity|]. cbn [map omap bind]. rewrite map_app. f_equal. f_equal.
    - cbn [plain_track t_events]. rewrite (filter_map _ _ no_times _ (fun e => negb (is_track0_event e))) by reflexivity. rewrite !map_map. reflexivity.
    - rewrite <- concat_plain; [reflexivity|]. intro y. cbn [plain_track t_events t_number].
      rewrite (filter_map _ _ no_times _ (fun e => negb (is_track1_event e))) by reflexivity. rewrite !map_map. reflexivity. }
  rewrite F1, F0. rewrite (concat_plain validate_eot ts).
  2:{ intro t. unfold validate_eot, zlen. cbn [plain_track t_number t_events]. rewrite map_length, eot_plain. destruct (eot_scan _ _ _ _) as [errs found]. cbn [fst snd]. rewrite map_app. destruct found; reflexivity. }
  rewrite (concat_plain (fun t => bank_scan (t_number t) 0 None (t_events t)) ts) by (intro t; apply bank_plain).
  clear F0 F1. unfold omap. destruct (h_format h =? 0), (h_format h =? 1), (validate_format1 (SMF (Some h) ts)); cbn [bind]; rewrite ?map_app; reflexivity.
Qed.

Lemma warning_plain : forall s, validation_warning (plain_file s) = validation_warning s.
Proof.
  intro s. unfold validation_warning. rewrite (validate_plain s). unfold omap. destruct (validate s) as [errs| | | |]; cbn [bind]; try reflexivity. f_equal. unfold validation_report.
  destruct errs as [|v errs]; [reflexivity|]. cbn [map].
  assert (M : forall v, message (plain_report v) = message v) by (intros []; reflexivity).
  assert (F : forall l, flat_map (fun v => str "         ** " ++ message v ++ [10]) (map plain_report l) = flat_map (fun v => str "         ** " ++ message v ++ [10]) l).
  { induction l as [|x l IH]; [reflexivity|]. cbn [map flat_map]. rewrite IH, M. reflexivity. }
  change (plain_report v :: map plain_report errs) with (map plain_report (v :: errs)). rewrite F. reflexivity.
Qed.

Lemma finer_content : forall k es es', map no_bytes es' = map (finer k) es -> map no_times es' = map no_times es.
Proof. intros k es es' H. apply (f_equal (map no_times)) in H. rewrite !map_map in H. exact H. Qed.

Theorem retimed_valid : forall s s', file_but_times s s' -> validation_warning s' = validation_warning s.
Proof.
  intros s s' [H T]. rewrite <- (warning_plain s), <- (warning_plain s'). f_equal. unfold plain_file. rewrite H. f_equal.
  induction T as [|t t' ts ts' (_ & B & C & _) T IH]; [reflexivity|]. cbn [map]. rewrite IH. unfold plain_track. rewrite B, C. reflexivity.
Qed.

Theorem finer_valid : forall k s s', file_finer k s s' -> validation_warning s' = validation_warning s.
Proof.
  intros k s s' [(h & h' & H & H' & _ & _ & F & _) T]. rewrite <- (warning_plain s), <- (warning_plain s'). f_equal. unfold plain_file. rewrite H, H'. cbn [option_map]. unfold plain_header. rewrite F. f_equal.
  induction T as [|t t' ts ts' (_ & B & C & _) T IH]; [reflexivity|]. cbn [map]. rewrite IH. unfold plain_track. rewrite B, (finer_content k _ _ C). reflexivity.
Qed.

(** ** Transposition *)

Lemma transpose_timed : forall env c n e e', no_times e' = no_times e ->
  alike (fun x y => timed (e_tick e') (e_delta e') (fst x) (fst y) /\ e_tick (fst x) = e_tick e /\ e_delta (fst x) = e_delta e /\ snd y = snd x) (transpose_event env c n e) (transpose_event env c n e').
Proof.
  intros env c n [t d bs st ty b] [t' d' bs' st' ty' b'] M. unfold no_times in M. cbn [e_status e_type e_body] in M. injection M as -> -> ->.
  unfold transpose_event. cbn [e_body e_tick e_delta]. destruct b; try (repeat split).
  - destruct c; [repeat split|exact I].
  - destruct c; [repeat split|exact I].
  - destruct (key_scale _ _); cbn [bind]; try exact I. destruct (scale_transpose _ _); cbn [bind]; try exact I. destruct c; [repeat split|exact I].
Qed.

Lemma transpose_times_but : forall env n es c es', map no_times es' = map no_times es -> alike (fun x y => map no_times y = map no_times x) (transpose_events env c n es) (transpose_events env c n es').
Proof.
  intros env n. induction es as [|e es IH]; intros c [|e' es'] H; try discriminate H; [reflexivity|]. cbn [map] in H.
  assert (E : no_times e' = no_times e) by congruence. assert (F : map no_times es' = map no_times es) by congruence. clear H. cbn [transpose_events].
  eapply alike_bind; [exact (transpose_timed env c n e e' E)|]. intros [x c1] [y c2] (A & _ & _ & B). cbn [fst snd] in *. subst c2.
  eapply alike_bind; [exact (IH c1 es' F)|]. intros a b G. cbn [alike map]. rewrite G. f_equal. apply (f_equal no_times) in A. exact A.
Qed.

Lemma transpose_times_finer : forall env n k es c es', map no_bytes es' = map (finer k) es -> alike (fun x y => map no_bytes y = map (finer k) x) (transpose_events env c n es) (transpose_events env c n es').
Proof.
  intros env n k. induction es as [|e es IH]; intros c [|e' es'] H; try discriminate H; [reflexivity|]. cbn [map] in H.
  assert (E : no_bytes e' = finer k e) by congruence. assert (F : map no_bytes es' = map (finer k) es) by congruence. clear H. cbn [transpose_events].
  assert (E0 : no_times e' = no_times e) by (apply (f_equal no_times) in E; exact E).
  eapply alike_bind; [exact (transpose_timed env c n e e' E0)|]. intros [x c1] [y c2] (A & A1 & A2 & B). cbn [fst snd] in *. subst c2.
  eapply alike_bind; [exact (IH c1 es' F)|]. intros a b G. cbn [alike map]. rewrite G. f_equal. unfold timed in A. rewrite A. unfold at_time, finer. rewrite A1, A2.
  pose proof (f_equal e_tick E) as T1. pose proof (f_equal e_delta E) as T2. cbn [e_tick e_delta no_bytes finer] in T1, T2. rewrite T1, T2. reflexivity.
Qed.

Lemma transpose_by : forall (E : list event -> list event -> Prop) env n,
  (forall c es es', E es es' -> alike E (transpose_events env c n es) (transpose_events env c n es')) ->
  forall ts ts', Forall2 (fun t t' => t_tag t' = t_tag t /\ t_number t' = t_number t /\ E (t_events t) (t_events t') /\ t_ctx t' = t_ctx t) ts ts' ->
  alike (Forall2 (fun t t' => t_tag t' = t_tag t /\ t_number t' = t_number t /\ E (t_events t) (t_events t') /\ t_ctx t' = t_ctx t)) (transpose_tracks env n ts) (transpose_tracks env n ts').
Proof.
  intros E env n D ts ts' T. induction T as [|t t' ts ts' (T1 & T2 & T3 & T4) T IH]; [constructor|]. cbn [transpose_tracks].
  eapply alike_bind with (R := fun t t' => t_tag t' = t_tag t /\ t_number t' = t_number t /\ E (t_events t) (t_events t') /\ t_ctx t' = t_ctx t).
  - unfold transpose_track. rewrite T4. eapply alike_bind; [exact (D (t_ctx t) _ _ T3)|]. intros a b G. repeat split; [exact T2|exact G].
  - intros a b G. eapply alike_bind; [exact IH|]. intros x y X. constructor; assumption.
Qed.

Theorem retimed_transposed : forall env n s s', file_but_times s s' -> alike file_but_times (transpose_smf env n s) (transpose_smf env n s').
Proof.
  intros env n s s' [H T]. unfold transpose_smf. rewrite H. eapply alike_bind; [exact (transpose_by _ env n (fun c es es' => transpose_times_but env n es c es') _ _ T)|]. intros a b E. split; [reflexivity|exact E].
Qed.

Theorem finer_transposed : forall k env n s s', file_finer k s s' -> alike (file_finer k) (transpose_smf env n s) (transpose_smf env n s').
Proof.
  intros k env n s s' [H T]. unfold transpose_smf. eapply alike_bind; [exact (transpose_by _ env n (fun c es es' => transpose_times_finer env n k es c es') _ _ T)|]. intros a b E. split; [exact H|exact E].
Qed.

(** ** Notes *)

Definition fine (k : Z) (e : nevent) : nevent := NEvent (k * ne_tick e) (k * ne_delta e) (ne_at e) (ne_body e) (ne_flats e).

Lemma insert_fine : forall k x l, 0 < k -> insert_tick (fine k x) (map (fine k) l) = map (fine k) (insert_tick x l).
Proof.
  intros k x l K. induction l as [|y l IH]; [reflexivity|]. cbn [map insert_tick fine ne_tick]. replace (k * ne_tick y <? k * ne_tick x) with (ne_tick y <? ne_tick x) by (destruct (Z.ltb_spec (ne_tick y) (ne_tick x)); destruct (Z.ltb_spec (k * ne_tick y) (k * ne_tick x)); nia).
  destruct (_ <? _); [|reflexivity]. cbn [map]. f_equal. exact IH.
Qed.
Lemma sort_fine : forall k l, 0 < k -> sort_ticks (map (fine k) l) = map (fine k) (sort_ticks l).
Proof. intros k l K. induction l as [|x l IH]; [reflexivity|]. cbn [map sort_ticks]. rewrite IH. apply insert_fine, K. Qed.

Definition tempo_ok (b : body) : Prop := match b with Tempo t => 0 <= t < 16777216 | _ => True end.

Lemma delta_fine : forall k d tempo ppqn, 0 < k -> 0 <= k * d < 1073741824 -> 0 <= tempo < 16777216 -> 0 <= ppqn -> delta_time (k * d) tempo (k * ppqn) = delta_time d tempo ppqn.
Proof.
  intros k d tempo ppqn K D T P. unfold delta_time. replace (k * ppqn =? 0) with (ppqn =? 0) by (destruct (Z.eqb_spec ppqn 0), (Z.eqb_spec (k * ppqn) 0); nia).
  destruct (Z.eqb_spec ppqn 0) as [|N]; [reflexivity|]. f_equal. f_equal.
  assert (D0 : 0 <= d) by nia. assert (D1 : d <= k * d) by nia.
  assert (B : 0 <= k * d * tempo <= 1073741823 * 16777215) by nia. assert (B0 : 0 <= d * tempo <= k * d * tempo) by nia.
  rewrite !Z.mod_small by nia. replace (1000 * (k * d) * tempo) with (k * (1000 * d * tempo)) by ring. apply Z.div_mul_cancel_l; lia.
Qed.

Lemma times_fine : forall k ppqn l tempo at_ flats, 0 < k -> 0 <= ppqn -> 0 <= tempo < 16777216 -> Forall (fun e => 0 <= k * ne_delta e < 1073741824 /\ tempo_ok (ne_body e)) l ->
  timestamps tempo at_ flats (k * ppqn) (map (fine k) l) = omap (map (fine k)) (timestamps tempo at_ flats ppqn l).
Proof.
  intros k ppqn l tempo at_ flats K P T F. revert tempo at_ flats T. induction F as [|e l [D B] F IH]; intros tempo at_ flats T; [reflexivity|]. cbn [map timestamps]. cbn [fine ne_delta ne_body ne_tick].
  rewrite (delta_fine k _ tempo ppqn K D T P). destruct (delta_time (ne_delta e) tempo ppqn) as [d| | | |]; cbn [bind omap]; try reflexivity.
  rewrite IH by (unfold tempo_ok in B; destruct (ne_body e); assumption). unfold omap. destruct (timestamps _ _ _ ppqn l); reflexivity.
Qed.

Lemma tempo_fine : forall k es, tempo_events (map (finer k) es) = map (finer k) (tempo_events es).
Proof. intros k es. unfold tempo_events. apply filter_map. reflexivity. Qed.

Definition event_ok (k : Z) (e : event) : Prop := 0 <= k * e_delta e < 1073741824 /\ tempo_ok (e_body e) /\ channel_ok (e_body e).

Lemma build_fine : forall k es tm ppqn, 0 < k -> 0 <= ppqn -> Forall (event_ok k) es -> Forall (event_ok k) tm ->
  build_track_events (map (finer k) es) (map (finer k) tm) (k * ppqn) = omap (map (fine k)) (build_track_events es tm ppqn).
Proof.
  intros k es tm ppqn K P F G. unfold build_track_events.
  assert (U : unsorted (map (finer k) es) (map (finer k) tm) = map (fine k) (unsorted es tm)).
  { unfold unsorted. rewrite map_app, !map_map. f_equal; apply map_ext; intro e; unfold fine; cbn [finer e_tick e_delta e_body ne_tick ne_delta ne_at ne_body ne_flats]; rewrite ?Z.mul_0_r; reflexivity. }
  rewrite U, sort_fine by exact K. rewrite times_fine; [|exact K|exact P|lia|].
  - unfold omap. destruct (timestamps _ _ _ _ _) as [l| | | |]; cbn [bind]; try reflexivity. f_equal. apply filter_map. reflexivity.
  - apply Forall_forall. intros x X. apply sorted_in in X. unfold unsorted in X. apply in_app_or in X as [X|X]; apply in_map_iff in X as (z & <- & Z); cbn [ne_delta ne_body].
    + destruct (proj1 (Forall_forall _ _) F z Z) as (A & B & _). split; assumption.
    + destruct (proj1 (Forall_forall _ _) G z Z) as (A & B & _). split; [lia|assumption].
Qed.

Definition fine_pending (k : Z) (p : pending) : pending := map (fun x => (fst x, fine k (snd x))) p.

Lemma find_fine : forall k key p, find_key key (fine_pending k p) = option_map (fine k) (find_key key p).
Proof. intros k key p. induction p as [|[x e] p IH]; [reflexivity|]. cbn [fine_pending map find_key fst snd]. destruct (key_eqb key x); [reflexivity|exact IH]. Qed.
Lemma drop_fine : forall k key p, drop_key key (fine_pending k p) = fine_pending k (drop_key key p).
Proof. intros k key p. unfold drop_key, fine_pending. apply filter_map. reflexivity. Qed.

Lemma finished_fine : forall k env steps p e, (exists ch n v, ne_body p = NoteOn ch n v) -> finished env steps (fine k p) (fine k e) = note_finer k (finished env steps p e).
Proof. intros k env steps p e (ch & n & v & B). unfold finished. cbn [fine ne_body]. rewrite B. reflexivity. Qed.

Lemma finish_fine : forall k env steps p key e, pending_ok p ->
  finish env steps (fine_pending k p) key (fine k e) = (map (note_finer k) (fst (finish env steps p key e)), fine_pending k (snd (finish env steps p key e))) /\ pending_ok (snd (finish env steps p key e)).
Proof.
  intros k env steps p key e P. unfold finish. rewrite find_fine. destruct (find_key key p) as [on|] eqn:E; cbn [option_map fst snd map]; [|split; [reflexivity|exact P]].
  rewrite drop_fine, (finished_fine k env steps on e (found_on _ _ _ P E)). split; [reflexivity|apply drop_ok, P].
Qed.

Lemma fine_pending_ok : forall k p, pending_ok p -> pending_ok (fine_pending k p).
Proof. intros k p P. unfold pending_ok, fine_pending. apply Forall_map. revert P. apply Forall_impl. intros x X. exact X. Qed.

Definition notes_finer (k : Z) (a b : list note_out) : Prop := Permutation (map (note_finer k) a) b.

Lemma note_list_fine : forall k env steps order order' es p, (forall l, Permutation l (order l)) -> (forall l, Permutation l (order' l)) ->
  Forall (fun e => channel_ok (ne_body e)) es -> pending_ok p ->
  alike (notes_finer k) (note_list env steps order p es) (note_list env steps order' (fine_pending k p) (map (fine k) es)).
Proof.
  intros k env steps order order' es p O O' F. revert p. induction F as [|e es C F IH]; intros p P; [apply perm_nil|]. cbn [map note_list]. change (ne_body (fine k e)) with (ne_body e).
  assert (FIN : forall key, alike (notes_finer k) (let (out, p') := finish env steps p key e in do ns <- note_list env steps order p' es; Ok (out ++ ns))
     (let (out, p') := finish env steps (fine_pending k p) key (fine k e) in do ns <- note_list env steps order' p' (map (fine k) es); Ok (out ++ ns))).
  { intros key. destruct (finish_fine k env steps p key e P) as [E PO]. rewrite E. destruct (finish env steps p key e) as [out p1]. cbn [fst snd] in *.
    apply (alike_bind _ _ _ _ (notes_finer k)); [apply IH, PO|]. intros a b A. unfold notes_finer. cbn [alike]. rewrite map_app. apply Permutation_app_head, A. }
  unfold channel_ok in C. destruct (ne_body e) eqn:B; try (apply IH, P); try apply FIN.
  - destruct (0 <? velocity); [|apply FIN]. rewrite find_fine. destruct (find_key (ch, n_value n) p); cbn [option_map]; [apply IH, P|].
    replace (ch <? 16) with true by lia. apply (IH (((ch, n_value n), e) :: p)). constructor; [|exact P]. split; [exact C|]. exists n, velocity. exact B.
  - rewrite (none_left p P), (none_left _ (fine_pending_ok k p P)). apply (alike_bind _ _ _ _ (notes_finer k)); [apply (IH []); constructor|]. intros a b A. unfold notes_finer. cbn [alike]. rewrite map_app. apply Permutation_app; [|exact A].
    rewrite (finish_all_perm env steps order' _ _ O' (fine_pending_ok k p P)). rewrite (Permutation_map (note_finer k) (finish_all_perm env steps order p e O P)).
    clear - P. induction P as [|x p [_ (n & v & B)] P IHp]; [reflexivity|]. cbn [fine_pending map fst snd]. rewrite (finished_fine k env steps (snd x) e) by (eexists _, _, _; exact B). apply perm_skip, IHp.
Qed.

Definition fine_track (k : Z) (t : mtrk) : mtrk := MTrk (t_tag t) (t_number t) 0 [] (map (finer k) (t_events t)) (t_ctx t).

Lemma extract_fine : forall k env n order order' h h' ts, 0 < k -> h_ppqn h' = k * h_ppqn h -> 0 <= h_ppqn h -> Forall (fun t => Forall (event_ok k) (t_events t)) ts ->
  (forall l, Permutation l (order l)) -> (forall l, Permutation l (order' l)) ->
  alike (notes_finer k) (extract env n order (SMF (Some h) ts)) (extract env n order' (SMF (Some h') (map (fine_track k) ts))).
Proof.
  intros k env n order order' h h' ts K E N C O O'. unfold extract. cbn [f_mthd f_tracks] in *. destruct ts as [|t ts]; [exact I|]. cbn [map].
  assert (G : Forall (event_ok k) (tempo_events (t_events t))).
  { apply Forall_forall. intros x X. unfold tempo_events in X. apply filter_In in X as [X _]. exact (proj1 (Forall_forall _ _) (Forall_inv C) x X). }
  assert (W : forall l, Forall (event_ok k) l -> Forall (fun e => channel_ok (e_body e)) l) by (intro l; apply Forall_impl; intros e (_ & _ & X); exact X).
  assert (T : alike (notes_finer k) (tracks_notes env n order (tempo_events (t_events t)) (h_ppqn h) ts) (tracks_notes env n order' (tempo_events (t_events (fine_track k t))) (h_ppqn h') (map (fine_track k) ts))).
  { cbn [fine_track t_events]. rewrite tempo_fine, E. apply Forall_inv_tail in C. induction C as [|x ts X C IH]; [apply perm_nil|]. cbn [map tracks_notes].
    apply (alike_bind _ _ _ _ (notes_finer k)).
    - unfold track_notes. cbn [fine_track t_events]. rewrite (build_fine k _ _ _ K N X G). unfold omap. destruct (build_track_events (t_events x) _ (h_ppqn h)) as [l| | | |] eqn:Y; cbn [bind]; try exact I.
      apply (note_list_fine k env n order order' l [] O O' (build_channels _ _ _ _ (W _ X) (W _ G) Y)). constructor.
    - intros a b A. apply (alike_bind _ _ _ _ (notes_finer k)); [exact IH|]. intros x' y Q. unfold notes_finer. cbn [alike]. rewrite map_app. apply Permutation_app; assumption. }
  destruct ts as [|t1 ts]; [apply perm_nil|]. exact T.
Qed.

Lemma header_ppqn : forall w h, unmarshal_mthd w = Ok h -> 0 <= h_ppqn h.
Proof.
  intros w h. unfold unmarshal_mthd. cbv zeta.
  repeat match goal with |- context[match ?x with [] => _ | _ => _ end] => destruct x; try discriminate | |- context[if negb ?c then _ else _] => destruct (negb c); try discriminate end.
  destruct (Z.land _ 32768 =? 0).
  - intros [= <-]. cbn [h_ppqn]. apply Z.land_nonneg. right. lia.
  - destruct (smpte_fps _) as [[fps drop]|]; [|discriminate]. intros [= <-]. cbn [h_ppqn]. lia.
Qed.

Lemma decoded_ppqn : forall env r s h, decode env r = Ok s -> f_mthd s = Some h -> 0 <= h_ppqn h.
Proof.
  intros env r s h D H. unfold decode in D. destruct (chunks r) as [cs| | | |]; try discriminate. cbn [bind] in D. destruct cs as [|c cs]; [discriminate|].
  destruct (unmarshal_mthd c) as [m| | | |] eqn:E; try discriminate. cbn [bind] in D. destruct (decode_tracks _ _ _) as [ts| | | |]; try discriminate. cbn [bind] in D.
  destruct (_ =? _); [|discriminate]. apply Ok_inj in D. subst s. cbn [f_mthd] in H. injection H as <-. exact (header_ppqn c m E).
Qed.

Theorem finer_notes : forall k env r r' n order order', 0 < k -> is_bytes r -> song_scaled k r r' -> (forall l, Permutation l (order l)) -> (forall l, Permutation l (order' l)) ->
  alike (fun ns ns' => Permutation (map (note_finer k) ns) ns') (do s <- decode env r; extract env n order s) (do s' <- decode env r'; extract env n order' s').
Proof.
  intros k env r r' n order order' K B S O O'. pose proof (song_read_short env k r r' K S) as H.
  destruct (decode env r) as [s| | | |] eqn:D, (decode env r') as [s'| | | |]; cbn [alike] in H; try contradiction; try exact I. cbn [bind].
  destruct H as [[(h & h' & H & H' & F) T] L].
  assert (P : h_ppqn h' = k * h_ppqn h) by apply F. pose proof (decoded_ppqn env r s h D H) as N.
  assert (G : same_gist (SMF (f_mthd s') (map (fine_track k) (f_tracks s))) s').
  { split; [reflexivity|]. cbn [f_tracks]. clear - T. induction T as [|t t' ts ts' (A & B & C & E) T IH]; [reflexivity|]. cbn [map]. rewrite IH. f_equal.
    unfold track_gist, fine_track. cbn [t_tag t_number t_events t_ctx]. rewrite A, B, C, E, map_map. reflexivity. }
  destruct (gist_used _ _ G) as (_ & _ & _ & _ & _ & _ & W). rewrite <- W, H'. replace s with (SMF (Some h) (f_tracks s)) at 1 by (destruct s as [h0 ts]; cbn [f_mthd f_tracks] in *; rewrite H; reflexivity).
  apply extract_fine; try assumption.
  pose proof (decoded_file env r s B D) as Q. clear - T L Q. induction T as [|t t' ts ts' (_ & _ & C & _) T IH]; [constructor|]. constructor; [|apply IH; [exact (Forall_inv_tail L)|exact (Forall_inv_tail Q)]].
  apply Forall_inv in L, Q. destruct Q as (_ & _ & Q). clear - C L Q. revert L Q C. generalize (t_events t') (t_events t). intros es' es L Q. revert es' L.
  induction Q as [|e es (_ & _ & E) Q IH]; intros [|e' es'] L C; try discriminate C; [constructor|]. cbn [map] in C. assert (C0 : no_bytes e' = finer k e) by congruence. assert (C1 : map no_bytes es' = map (finer k) es) by congruence.
  inversion L as [|? ? L0 L1]; subst. constructor; [|exact (IH es' L1 C1)]. apply (f_equal e_delta) in C0. cbn [no_bytes finer e_delta] in C0. rewrite C0 in L0.
  split; [exact L0|]. split; unfold tempo_ok, channel_ok, decoded_body in *; destruct (e_body e); tauto.
Qed.
