(** * JsonEndProofs: how the assembly of a JSON document ends. *)
From Verif Require Import Base Strings Tables Event Marshal Track File SpecAssemble SpecRead SpecKey SpecJson Utf8 Hex Regex Assemble TextAssemble Json
  AssembleProofs DecodedProofs TextCrashProofs JsonCrashProofs SpecTable SpecNote SpecEvent SpecTrack SpecLine SpecSurvive NoteProofs LineProofs SpecJsonEvent JsonReadProofs JsonEventProofs SpecSource SourceProofs SpecJsonEnd.

(** [halts crash x]: a crash, or else an endless loop *)
Definition halts {A} (crash : bool) (x : outcome A) : Prop := match x with Panic => crash = true | Loop => crash = false | _ => False end.
Definition quiet {A} (x : outcome A) : Prop := match x with Ok _ | Err => True | _ => False end.

Lemma quiet_only : forall A q (x : outcome A), only q False False x -> quiet x.
Proof. intros A q [x| | | |] H; cbn in *; auto. Qed.

Lemma bind_halts : forall A B c (a : outcome A) (f : A -> outcome B), halts c (bind a f) <-> halts c a \/ exists x, a = Ok x /\ halts c (f x).
Proof.
  intros A B c a f. destruct a as [x| | | |]; cbn [bind halts].
  - split; [intros H; right; exists x; auto|intros [[]|(y & E & H)]]. injection E as ->. exact H.
  - split; [intros []|intros [[]|(y & E & _)]; discriminate].
  - split; [intros []|intros [[]|(y & E & _)]; discriminate].
  - split; [intros H; left; exact H|intros [H|(y & E & _)]; [exact H|discriminate]].
  - split; [intros H; left; exact H|intros [H|(y & E & _)]; [exact H|discriminate]].
Qed.

Lemma quiet_halts : forall A B c (a : outcome A) (f : A -> outcome B), quiet a -> halts c (bind a f) <-> exists x, a = Ok x /\ halts c (f x).
Proof. intros A B c a f Q. rewrite bind_halts. split; [intros [H|H]; [destruct a; contradiction|exact H]|auto]. Qed.

Lemma quiet_int : forall name lo hi a o, quiet (field name (read_int lo hi) a o).
Proof. intros. eapply quiet_only, only_int. Qed.
Lemma quiet_text : forall name o, quiet (text_of name o).
Proof. intros. unfold text_of. eapply quiet_only, only_string. Qed.

Lemma tagged_halts : forall A c tag o (rest : Z -> outcome A) make, (forall d, quiet (rest d)) -> halts c (tagged tag o rest make) <->
  string_field (str "tag") o tag /\ exists d x, number_field (str "delta") 0 4294967295 o d /\ rest d = Ok x /\ halts c (make x).
Proof.
  intros A c tag o rest make R. unfold tagged. rewrite quiet_halts by apply quiet_text. split.
  - intros (t & T & H). rewrite quiet_halts in H by apply quiet_int. destruct H as (d & D & H). rewrite quiet_halts in H by apply R. destruct H as (x & X & H).
    destruct (bytes_eqb t tag) eqn:E; [|destruct H]. apply bytes_eqb_eq in E. subst t. split; [apply string_is, T|]. exists d, x. split; [apply number_is, D|auto].
  - intros (T & d & x & D & X & M). exists tag. split; [apply string_is, T|]. rewrite quiet_halts by apply quiet_int. exists d. split; [apply number_is, D|].
    rewrite quiet_halts by apply R. exists x. split; [exact X|]. rewrite (proj2 (bytes_eqb_eq tag tag) eq_refl). exact M.
Qed.

Definition bad_values (crash : bool) : list (bytes * json) -> bytes -> Prop := if crash then crash_values else hang_values.

Ltac quiets := intros; eapply (quiet_only _ any); repeat JsonCrashProofs.step; exact I.

Lemma halts_never : forall A c q (x : outcome A), only q False False x -> ~ halts c x.
Proof. intros A c q [x| | | |] H; cbn in *; auto. Qed.

(** The events that are always made. *)
Lemma calm : forall env i t f o c, nth_error (json_cases env) i = Some (t, f) -> ~ In t [str "NoteOn"; str "PolyphonicPressure"; str "ChannelPressure"; str "KeySignature"; str "SMPTEOffset"; str "TimeSignature"] ->
  ~ halts c (f o) /\ ~ bad_values c o t.
Proof.
  intros env i t f o c N H. split.
  - destruct i as [|[|[|[|[|[|[|[|[|[|[|[|[|[|[|[|[|[|[|[|[|[|[|[|[|[|[|[|i]]]]]]]]]]]]]]]]]]]]]]]]]]]]; [apply case_inj in N as [<- <-]..|destruct i; discriminate N];
      try (eapply halts_never; first [apply json_sequence_number_ok|apply json_text_ok|apply json_tempo_ok|apply json_end_of_track_ok|apply json_sequencer_specific_ok|apply json_note_off_ok|apply json_sysex_ok
        |apply json_continuation_ok|apply json_escape_ok|apply json_channel_prefix_ok|apply json_port_ok|apply json_controller_ok|apply json_program_change_ok|apply json_pitch_bend_ok]);
      exfalso; apply H; cbn; tauto.
  - intros B. apply H. destruct c; destruct B; cbn; tauto.
Qed.

Lemma note_on_halts : forall env o c, halts c (json_note_on env o) <-> string_field (str "tag") o (str "NoteOn") /\ exists d, number_field (str "delta") 0 4294967295 o d /\ bad_values c o (str "NoteOn").
Proof.
  intros env o c. unfold json_note_on. rewrite tagged_halts by quiets. split.
  - intros (T & d & x & D & X & M). split; [exact T|]. exists d. split; [exact D|]. parts. apply Ok_inj in X. subst x. fields_found. unfold make_note_on in M.
    match goal with H : channel_field _ ?c |- _ => pose proof (channel_range _ _ H) as CR end. replace (15 <? x0) with false in M by lia.
    destruct (127 <? x2) eqn:V; [|destruct M]. cbn in M. subst c. eapply cv_on; [eassumption|apply note_is; eauto|eassumption|lia].
  - intros (T & d & D & B). split; [exact T|]. destruct c; [|inversion B; discriminate]. remember (str "NoteOn") as t eqn:ET. destruct B as [ch n v C N V L| | | |]; try discriminate ET.
    apply note_is in N as (nx & NX & <-). exists d, (d, ch, nx, v). split; [exact D|]. split; [put|]. pose proof (channel_range o ch) as CR. unfold make_note_on. put.
    destruct (15 <? ch); [reflexivity|]. replace (127 <? v) with true by lia. reflexivity.
Qed.

Lemma poly_halts : forall o c, halts c (json_polyphonic_pressure o) <->
  string_field (str "tag") o (str "PolyphonicPressure") /\ exists d, number_field (str "delta") 0 4294967295 o d /\ bad_values c o (str "PolyphonicPressure").
Proof.
  intros o c. unfold json_polyphonic_pressure. rewrite tagged_halts by quiets. split.
  - intros (T & d & x & D & X & M). split; [exact T|]. exists d. split; [exact D|]. parts. apply Ok_inj in X. subst x. fields_found. unfold make_polyphonic_pressure in M.
    match goal with H : channel_field _ ?c |- _ => pose proof (channel_range _ _ H) as CR end. replace (15 <? x0) with false in M by lia.
    destruct (127 <? x1) eqn:V; [|destruct M]. cbn in M. subst c. eapply cv_poly; [eassumption|eassumption|lia].
  - intros (T & d & D & B). split; [exact T|]. destruct c; [|inversion B; discriminate]. remember (str "PolyphonicPressure") as t eqn:ET. destruct B as [|ch p C V L| | |]; try discriminate ET.
    exists d, (d, ch, p). split; [exact D|]. split; [put|]. unfold make_polyphonic_pressure.
    destruct (15 <? ch); [reflexivity|]. replace (127 <? p) with true by lia. reflexivity.
Qed.

Lemma pressure_halts : forall o c, halts c (json_channel_pressure o) <->
  string_field (str "tag") o (str "ChannelPressure") /\ exists d, number_field (str "delta") 0 4294967295 o d /\ bad_values c o (str "ChannelPressure").
Proof.
  intros o c. unfold json_channel_pressure. rewrite tagged_halts by quiets. split.
  - intros (T & d & x & D & X & M). split; [exact T|]. exists d. split; [exact D|]. parts. apply Ok_inj in X. subst x. fields_found. unfold make_channel_pressure in M.
    match goal with H : channel_field _ ?c |- _ => pose proof (channel_range _ _ H) as CR end. replace (15 <? x0) with false in M by lia.
    destruct (127 <? x1) eqn:V; [|destruct M]. cbn in M. subst c. eapply cv_pressure; [eassumption|eassumption|lia].
  - intros (T & d & D & B). split; [exact T|]. destruct c; [|inversion B; discriminate]. remember (str "ChannelPressure") as t eqn:ET. destruct B as [| |ch p C V L| |]; try discriminate ET.
    exists d, (d, ch, p). split; [exact D|]. split; [put|]. unfold make_channel_pressure.
    destruct (15 <? ch); [reflexivity|]. replace (127 <? p) with true by lia. reflexivity.
Qed.

Lemma key_quiet : forall d a k, make_key_signature 0 d a k [] = Panic \/ exists e, make_key_signature 0 d a k [] = Ok e.
Proof.
  intros d a k. unfold make_key_signature. destruct (k =? 0); [destruct (major_scale a); eauto|]. destruct (k =? 1); [destruct (minor_scale a); eauto|]. auto.
Qed.

Lemma key_halts : forall o c, halts c (json_key_signature o) <->
  string_field (str "tag") o (str "KeySignature") /\ exists d, number_field (str "delta") 0 4294967295 o d /\ bad_values c o (str "KeySignature").
Proof.
  intros o c. unfold json_key_signature. rewrite tagged_halts by quiets. split.
  - intros (T & d & x & D & X & M). split; [exact T|]. exists d. split; [exact D|]. parts. apply Ok_inj in X. subst x. fields_found. cbv beta iota in M.
    destruct (key_quiet d x0 x1) as [E|[e E]]; rewrite E in M; [|destruct M]. cbn in M. subst c. eapply cv_key; [eassumption|eassumption|].
    intros [K R]. assert (Y : make_key_signature 0 d x0 x1 [] = Ok (Event 0 d [] 255 89 (KeySignature x0 x1 (key_name (x1 =? 1) x0)))); [|congruence].
    apply key_made. exists (x1 =? 1). destruct R as [-> | ->]; auto.
  - intros (T & d & D & B). split; [exact T|]. destruct c; [|inversion B; discriminate]. remember (str "KeySignature") as t eqn:ET. destruct B as [| | |a k A K L|]; try discriminate ET.
    exists d, (d, a, k). split; [exact D|]. split; [put|]. destruct (key_quiet d a k) as [E|[e E]]; [rewrite E; reflexivity|]. exfalso. apply L.
    apply key_made in E as (minor & -> & R & _). split; [exact R|]. destruct minor; auto.
Qed.

Lemma offset_halts : forall o c, halts c (json_smpte_offset o) <->
  string_field (str "tag") o (str "SMPTEOffset") /\ exists d, number_field (str "delta") 0 4294967295 o d /\ bad_values c o (str "SMPTEOffset").
Proof.
  assert (P : forall d h m s r f ff c, halts c (make_smpte_offset 0 d h m s r f ff []) <-> c = true /\ ~ offset_range h m s r f ff).
  { intros. unfold make_smpte_offset, offset_range. cbn [In]. repeat match goal with |- halts _ (if ?b then _ else _) <-> _ => destruct b eqn:? end; cbn [halts].
    1-6: split; [intros K; split; [exact K|intros R; destruct R as (? & ? & ? & ? & ? & ?); lia]|intros [K _]; exact K].
    split; [intros []|intros [_ K]]. apply K. lia. }
  intros o c. unfold json_smpte_offset. rewrite tagged_halts by quiets. split.
  - intros (T & d & x & D & X & M). split; [exact T|]. exists d. split; [exact D|]. parts. apply Ok_inj in X. subst x. fields_found. cbv beta iota in M.
    apply P in M as [-> M]. eapply cv_offset; eassumption.
  - intros (T & d & D & B). split; [exact T|]. destruct c; [|inversion B; discriminate]. remember (str "SMPTEOffset") as t eqn:ET. destruct B as [| | | |h m s r f ff H M S0 R F FF L]; try discriminate ET.
    exists d, (d, h, m, s, r, f, ff). split; [exact D|]. split; [put|]. apply P. auto.
Qed.

Lemma log2_stops : forall d, 0 <= d < 256 -> forall c, halts c (log2_loop 9 1 d 0) <-> c = false /\ 128 < d.
Proof.
  intros d D c. pose proof (byte_sweep (fun b => match log2_loop 9 1 b 0 with Ok _ => b <=? 128 | Loop => 128 <? b | _ => false end) ltac:(vm_compute; reflexivity) d D) as E.
  cbv beta in E. destruct (log2_loop 9 1 d 0); cbn [halts]; try discriminate E; split; intuition (try discriminate; lia).
Qed.

Lemma time_halts : forall o c, halts c (json_time_signature o) <->
  string_field (str "tag") o (str "TimeSignature") /\ exists d, number_field (str "delta") 0 4294967295 o d /\ bad_values c o (str "TimeSignature").
Proof.
  assert (P : forall d n m t q c, 0 <= m < 256 -> halts c (make_time_signature 0 d n m t q []) <-> c = false /\ 128 < m).
  { intros. unfold make_time_signature. rewrite bind_halts, log2_stops by assumption. split; [intros [H'|(x & _ & [])]; exact H'|auto]. }
  intros o c. unfold json_time_signature. rewrite tagged_halts by quiets. split.
  - intros (T & d & x & D & X & M). split; [exact T|]. exists d. split; [exact D|]. parts. apply Ok_inj in X. subst x. fields_found. cbv beta iota in M.
    match goal with F : number_field (str "denominator") _ _ _ ?q |- _ => pose proof (number_range _ 0 255 _ _ ltac:(lia) F) as DR end.
    apply P in M as [-> M]; [|lia]. eapply hv_time; eassumption.
  - intros (T & d & D & B). split; [exact T|]. destruct c; [inversion B; discriminate|]. remember (str "TimeSignature") as t eqn:ET. destruct B as [n m u q N M U Q L].
    exists d, (d, n, m, u, q). split; [exact D|]. pose proof (number_range _ 0 255 _ _ ltac:(lia) M) as DR. split; [put|]. apply P; [lia|auto].
Qed.

Lemma case_halts : forall env i t f o c, nth_error (json_cases env) i = Some (t, f) ->
  halts c (f o) <-> string_field (str "tag") o t /\ exists d, number_field (str "delta") 0 4294967295 o d /\ bad_values c o t.
Proof.
  intros env i t f o c N. pose proof (calm env i t f o c N) as K.
  destruct i as [|[|[|[|[|[|[|[|[|[|[|[|[|[|[|[|[|[|[|[|[|[|[|[|[|[|[|[|i]]]]]]]]]]]]]]]]]]]]]]]]]]]]; [apply case_inj in N as [<- <-]..|destruct i; discriminate N];
    try first [apply note_on_halts|apply poly_halts|apply pressure_halts|apply key_halts|apply offset_halts|apply time_halts].
  all: destruct K as [K1 K2]; [cbn [In]; intros K; repeat (destruct K as [K|K]; [discriminate K|]); exact K|].
  all: split; [intros H; destruct (K1 H)|intros (_ & d & _ & H); destruct (K2 H)].
Qed.

Lemma event_halts : forall env v c, halts c (unmarshal_json env v) <-> event_with (bad_values c) v.
Proof.
  intros env v c. unfold unmarshal_json, event_with.
  assert (Q : forall v, quiet (object v)) by (intros w; eapply quiet_only, only_object). rewrite quiet_halts by apply Q.
  assert (L : forall l a, exists x, each_over (fun (_ : option json) v => Ok (Some v)) a l = Ok x) by (clear; induction l as [|v l IH]; intros a; [eexists; reflexivity|apply IH]).
  split.
  - intros (o & O & H). destruct (under_some (str "event") o) as [l U]. rewrite (field_under _ _ _ _ _ _ U) in H. destruct l as [|w l _] using rev_ind; [destruct H|].
    destruct (L l None) as [x X]. rewrite each_over_app, X in H. cbn [bind each_over] in H. rewrite quiet_halts in H by apply Q. destruct H as (f & F & H).
    rewrite quiet_halts in H by apply quiet_text. destruct H as (t & T & H). destruct (find _ _) as [[t' g]|] eqn:E in H; [|destruct H].
    apply find_nth in E as (i & g' & I & E). injection E as -> ->. apply (case_halts _ _ _ _ _ _ I) in H as (T' & d & D & H).
    exists o, l, w, f, t, d. split; [apply object_is, O|]. split; [exact U|]. split; [apply object_is, F|]. auto.
  - intros (o & l & w & f & t & d & O & U & F & T & D & B). exists o. split; [apply object_is, O|]. rewrite (field_under _ _ _ _ _ _ U).
    destruct (L l None) as [x X]. rewrite each_over_app, X. cbn [bind each_over]. rewrite quiet_halts by apply Q. exists f. split; [apply object_is, F|].
    rewrite quiet_halts by apply quiet_text. exists t. split; [apply string_is, T|].
    assert (G : exists i g, nth_error (json_cases env) i = Some (t, g)).
    { destruct c; destruct B; [exists 19%nat|exists 20%nat|exists 23%nat|exists 14%nat|exists 15%nat|exists 13%nat]; eexists; reflexivity. }
    destruct G as (i & g & I). rewrite (find_case _ _ _ _ I). apply (case_halts _ _ _ _ _ _ I). eauto.
Qed.

Lemma event_quiet : forall env v, unmarshal_json env v <> Eof.
Proof. intros env v E. pose proof (json_event_ok env v) as H. rewrite E in H. exact H. Qed.

(** ** Tracks *)

Lemma each_halts : forall A c (f : json -> outcome A) l, halts c (each f l) <-> exists a v b, l = a ++ v :: b /\ Forall (fun w => exists x, f w = Ok x) a /\ halts c (f v).
Proof.
  intros A c f. induction l as [|w l IH]; cbn [each].
  - split; [intros []|intros ([|x a] & v & b & E & _); discriminate].
  - rewrite bind_halts. split.
    + intros [H|(x & X & H)]; [exists [], w, l; auto|]. rewrite bind_halts in H. destruct H as [H|(y & _ & H)]; [|destruct H].
      apply IH in H as (a & v & b & -> & F & H). exists (w :: a), v, b. split; [reflexivity|]. split; [constructor; eauto|exact H].
    + intros (a & v & b & E & F & H). destruct a as [|w' a]; cbn [app] in E; injection E as E1 E2; subst w l; [left; exact H|]. inversion F as [|? ? [x X] F']. subst.
      right. exists x. split; [exact X|]. rewrite bind_halts. left. apply IH. exists a, v, b. auto.
Qed.

Lemma well_reads : forall env v, (exists e, unmarshal_json env v = Ok e) <-> well (env_manufacturers env) (middle_octave env) v.
Proof. intros env v. unfold well. split; intros [e E]; exists e; apply json_reads, E. Qed.

Lemma forall_well : forall env l, Forall (fun w => exists x, unmarshal_json env w = Ok x) l <-> Forall (well (env_manufacturers env) (middle_octave env)) l.
Proof. intros env l. split; intros H; (eapply Forall_impl; [|exact H]); intros v V; apply well_reads, V. Qed.

Lemma track_halts : forall env t c, halts c (json_mtrk env t) <->
  (c = true /\ plain t = (Some (str "MTrk"), [])) \/ track_with (env_manufacturers env) (middle_octave env) (bad_values c) (plain t).
Proof.
  intros env t c. unfold json_mtrk, track_with, plain. cbn [fst snd]. destruct (jt_tag t) as [tag|].
  2: { split; [intros []|intros [[_ E]|[E _]]; discriminate]. }
  destruct (bytes_eqb tag (str "MTrk")) eqn:B; cbn [negb].
  2: { assert (N : tag <> str "MTrk") by (intros ->; discriminate). split; [intros []|intros [[_ E]|[E _]]; injection E; congruence]. }
  apply bytes_eqb_eq in B. subst tag. rewrite bind_halts, each_halts. split.
  - intros [(a & v & b & E & F & H)|(es & E & H)].
    + right. split; [reflexivity|]. exists a, v, b. split; [exact E|]. split; [apply forall_well, F|apply event_halts with (env := env), H].
    + left. destruct es as [|e es]; [|destruct H]. destruct (jt_events t) as [|w l]; [cbn in H; auto|]. cbn [each] in E. apply bind_ok in E as (x & _ & E). apply bind_ok in E as (y & _ & E). discriminate.
  - intros [[-> E]|(_ & a & v & b & E & F & H)].
    + right. injection E as ->. exists []. split; reflexivity.
    + left. exists a, v, b. split; [exact E|]. split; [apply forall_well, F|apply event_halts, H].
Qed.

Lemma each_ok : forall A (f : json -> outcome A) l, (exists xs, each f l = Ok xs) <-> Forall (fun w => exists x, f w = Ok x) l.
Proof.
  intros A f. induction l as [|w l IH]; cbn [each]; [split; [constructor|eexists; reflexivity]|]. split.
  - intros [xs H]. apply bind_ok in H as (x & X & H). apply bind_ok in H as (y & Y & _). constructor; [eauto|apply IH; eauto].
  - intros H. inversion H as [|? ? [x X] F]. subst. apply IH in F as [y Y]. rewrite X. cbn [bind]. rewrite Y. eexists. reflexivity.
Qed.

Lemma track_well : forall env t, (exists es, json_mtrk env t = Ok es) <-> well_track (env_manufacturers env) (middle_octave env) (plain t).
Proof.
  intros env t. unfold json_mtrk, well_track, plain. cbn [fst snd]. destruct (jt_tag t) as [tag|]; [|split; [intros [x X]; discriminate|intros [E _]; discriminate]].
  destruct (bytes_eqb tag (str "MTrk")) eqn:B; cbn [negb].
  2: { assert (N : tag <> str "MTrk") by (intros ->; discriminate). split; [intros [x X]; discriminate|intros [E _]; injection E; congruence]. }
  apply bytes_eqb_eq in B. subst tag. rewrite <- forall_well, <- each_ok. split.
  - intros [es H]. apply bind_ok in H as (x & X & H). split; [reflexivity|]. split; [|eauto]. intros E. rewrite E in X. apply Ok_inj in X. subst x. discriminate.
  - intros (_ & N & [xs X]). rewrite X. cbn [bind]. destruct xs as [|e xs]; [|eexists; reflexivity]. destruct (jt_events t) as [|w l]; [destruct N; reflexivity|].
    cbn [each] in X. apply bind_ok in X as (a & _ & X). apply bind_ok in X as (y & _ & X). discriminate.
Qed.

Lemma tracks_halts : forall env c js n, halts c (json_tracks env n js) <->
  exists a t b, map plain js = a ++ t :: b /\ Forall (well_track (env_manufacturers env) (middle_octave env)) a /\
    ((c = true /\ t = (Some (str "MTrk"), [])) \/ track_with (env_manufacturers env) (middle_octave env) (bad_values c) t).
Proof.
  intros env c. induction js as [|j js IH]; intros n; cbn [json_tracks map].
  - split; [intros []|intros ([|x a] & v & b & E & _); discriminate].
  - rewrite bind_halts. split.
    + intros [H|(x & X & H)]; [apply track_halts in H; exists [], (plain j), (map plain js); auto|]. rewrite bind_halts in H. destruct H as [H|(y & _ & H)]; [|destruct H].
      apply IH in H as (a & v & b & E & F & H). exists (plain j :: a), v, b. split; [rewrite E; reflexivity|]. split; [constructor; [apply track_well; eauto|exact F]|exact H].
    + intros (a & v & b & E & F & H). destruct a as [|w' a]; cbn [app] in E; injection E as E1 E2; [left; subst v; apply track_halts, H|]. subst w'. inversion F as [|? ? X F']. subst.
      apply track_well in X as [x X]. right. exists x. split; [exact X|]. rewrite bind_halts. left. apply IH. exists a, v, b. auto.
Qed.

Lemma tracks_well : forall env js n, (exists ts, json_tracks env n js = Ok ts) <-> Forall (well_track (env_manufacturers env) (middle_octave env)) (map plain js).
Proof.
  intros env. induction js as [|j js IH]; intros n; cbn [json_tracks map]; [split; [constructor|eexists; reflexivity]|]. split.
  - intros [ts H]. apply bind_ok in H as (x & X & H). apply bind_ok in H as (y & Y & _). constructor; [apply track_well; eauto|apply (IH (n + 1)); eauto].
  - intros H. inversion H as [|? ? X F]. subst. apply track_well in X as [x X]. apply (IH (n + 1)) in F as [y Y]. rewrite X. cbn [bind]. rewrite Y. eexists. reflexivity.
Qed.

(** ** Documents *)

(** The steps up to the tracks *)
Definition start (v : json) : outcome (mthd * list jtrack) :=
  do o <- object v;
  do h <- field (str "header") read_header (JHeader None None None) o;
  do ts <- field (str "tracks") (fun _ v => do l <- Json.elements v; each read_track l) [] o;
  do h <- json_mthd h;
  Ok (h, ts).

Lemma assembled_from : forall env v, assemble_json env v =
  do p <- start v;
  do ts <- json_tracks env 0 (snd p);
  let h := fst p in
  encode (SMF (Some (MThd (h_tag h) (h_length h) (h_format h) (zlen ts mod 65536) (h_division h) (h_ppqn h) (h_smpte h) (h_subframes h) (h_fps h) (h_drop h) (h_bytes h))) ts).
Proof.
  intros env v. unfold assemble_json, start. destruct (object v); try reflexivity. cbn [bind]. destruct (field _ _ _ _); try reflexivity. cbn [bind].
  destruct (field _ _ _ _); try reflexivity. cbn [bind]. destruct (json_mthd _); reflexivity.
Qed.

Lemma start_quiet : forall v, quiet (start v).
Proof.
  intros v. eapply (quiet_only _ any). unfold start. eapply only_bind; [apply only_object|]. intros o _ _.
  eapply only_bind with (q := any).
  { apply only_any. intros a w. unfold read_header. eapply only_bind; [apply only_object|]. intros f _ _.
    repeat (eapply only_bind; [apply only_any; intros; apply only_pointer; first [intros; apply only_read_int|intros []; exact I]|intros]). exact I. }
  intros h _ _. eapply only_bind with (q := any).
  { apply only_any. intros a w. eapply only_bind; [apply only_elements|]. intros vs _ _. eapply only_impl; [eapply (only_each _ from_object False False); intros; apply only_track|intros; exact I|intros []|intros []]. }
  intros ts _ _. eapply only_bind; [apply only_json_mthd|]. intros; exact I.
Qed.

Lemma start_is : forall v h js, start v = Ok (h, js) <-> exists f d, h = mthd_of 0 f d /\ outline v f d (map plain js) /\ start v = Ok (h, js).
Proof.
  intros v h js. split; [|intros (f & d & _ & _ & H); exact H]. intros H0. pose proof H0 as H. unfold start in H.
  apply bind_ok in H as (o & O & H). apply bind_ok in H as (jh & JH & H). apply bind_ok in H as (js' & JS & H). apply bind_ok in H as (h' & M & H). apply Ok_inj in H. injection H as -> ->.
  destruct (under_some (str "header") o) as [lh UH]. rewrite (field_under _ _ _ _ _ _ UH) in JH. apply headers_is in JH as (r & TG & F1 & F2 & F3). cbn [jh_tag jh_format jh_ppqn] in F1, F2, F3.
  destruct (under_some (str "tracks") o) as [lt UT]. rewrite (field_under _ _ _ _ _ _ UT) in JS.
  destruct jh as [[tag|] [f|] [d|]]; unfold json_mthd in M; cbn [jh_tag jh_format jh_ppqn] in *; try discriminate;
    destruct (bytes_eqb tag (str "MThd")) eqn:B; try discriminate; try (destruct (negb ((f =? 0) || (f =? 1) || (f =? 2))); discriminate).
  apply bytes_eqb_eq in B. subst tag. apply figure_is in F2, F3. apply tag_is in F1. pose proof (json_header_range _ _ _ F3) as RD.
  assert (RD' : 0 <= d < 65536) by lia. pose proof (proj1 (mthd_made f d RD' h) M) as [HV E].
  exists f, d. split; [exact E|]. split; [|exact H0]. exists o, lh, r, lt. split; [apply object_is, O|]. split; [exact UH|]. split; [exact TG|]. split; [exact F1|]. split; [exact F2|]. split; [exact F3|].
  split; [exact HV|]. split; [exact UT|apply tracks_over; eauto].
Qed.

Lemma start_outline : forall v f d ts, outline v f d ts -> exists js, start v = Ok (mthd_of 0 f d, js) /\ map plain js = ts.
Proof.
  intros v f d ts (o & lh & r & lt & O & UH & TG & F1 & F2 & F3 & HV & UT & L). unfold start.
  apply object_is in O. rewrite O. cbn [bind]. rewrite (field_under _ _ _ _ _ _ UH).
  pose proof (json_header_range _ _ _ F3) as RD. assert (RD' : 0 <= d < 65536) by lia. apply figure_is in F2, F3. apply tag_is in F1.
  rewrite (proj2 (headers_is lh (JHeader None None None) (JHeader (Some (str "MThd")) (Some f) (Some d)))) by (exists r; auto). cbn [bind].
  rewrite (field_under _ _ _ _ _ _ UT). apply tracks_over in L as (js & J & <-). exists js. rewrite J. cbn [bind].
  rewrite (proj2 (mthd_made f d RD' (mthd_of 0 f d))) by auto. auto.
Qed.

Lemma tracks_fine : forall env js n ts, json_tracks env n js = Ok ts -> Forall (fun t => Forall writable (t_events t)) ts.
Proof.
  intros env. induction js as [|j js IH]; intros n ts H; cbn [json_tracks] in H; [apply Ok_inj in H; subst; constructor|].
  apply bind_ok in H as (es & E & H). apply bind_ok in H as (r & R & H). apply Ok_inj in H. subst ts. constructor; [|apply (IH _ _ R)]. cbn [assembled_mtrk t_events].
  unfold json_mtrk in E. destruct (jt_tag j) as [tag|]; [|discriminate]. destruct (negb _); [discriminate|]. apply bind_ok in E as (l & L & E).
  assert (W : Forall writable l).
  { pose proof (only_each _ (fun _ e => writable e) True True (unmarshal_json env) (jt_events j)) as K. rewrite L in K.
    assert (Q : Forall2 (fun _ e => writable e) (jt_events j) l) by (apply K; intros v _; eapply only_impl; [apply json_event_ok|auto|intros _; exact I|intros _; exact I]).
    clear - Q. induction Q; constructor; assumption. }
  pose proof (only_fixups l W) as K. rewrite E in K. exact K.
Qed.

Lemma tracks_length : forall env js n ts, json_tracks env n js = Ok ts -> zlen ts = zlen js.
Proof.
  intros env. induction js as [|j js IH]; intros n ts H; cbn [json_tracks] in H; [apply Ok_inj in H; subst; reflexivity|].
  apply bind_ok in H as (es & E & H). apply bind_ok in H as (r & R & H). apply Ok_inj in H. subst ts. apply IH in R. unfold zlen in *. cbn [length]. lia.
Qed.

Lemma encode_all : forall s, fine s -> forall h, f_mthd s = Some h -> (exists bs, encode s = Ok bs) <-> h_tracks h = zlen (f_tracks s).
Proof.
  intros s F h H. unfold encode. rewrite H. destruct (h_tracks h =? zlen (f_tracks s)) eqn:E; cbn [negb]; [|split; [intros [x X]; discriminate|lia]].
  split; [lia|]. intros _. unfold fine in F.
  assert (G : exists bs, encode_tracks (f_tracks s) = Ok bs).
  { clear - F. induction F as [|t ts W _ [bs IH]]; [eexists; reflexivity|]. cbn [encode_tracks]. unfold encode_mtrk. destruct (marshal_all _ W) as [b B]. rewrite B. cbn [bind]. rewrite IH. eexists. reflexivity. }
  destruct G as [bs G]. rewrite G. eexists. reflexivity.
Qed.

Lemma assembly_halts : forall env v c, halts c (assemble_json env v) <->
  exists f d a t b, outline v f d (a ++ t :: b) /\ Forall (well_track (env_manufacturers env) (middle_octave env)) a /\
    ((c = true /\ t = (Some (str "MTrk"), [])) \/ track_with (env_manufacturers env) (middle_octave env) (bad_values c) t).
Proof.
  intros env v c. rewrite assembled_from, quiet_halts by apply start_quiet. split.
  - intros ([h js] & S0 & H). cbn [fst snd] in H. apply start_is in S0 as (f & d & E & O & _). rewrite bind_halts in H. destruct H as [H|(ts & T & H)].
    + apply tracks_halts in H as (a & t & b & M & K). exists f, d, a, t, b. rewrite <- M. split; [exact O|exact K].
    + exfalso. revert H. eapply halts_never, only_encode. apply (tracks_fine _ _ _ _ T).
  - intros (f & d & a & t & b & O & K). apply start_outline in O as (js & S0 & M). exists (mthd_of 0 f d, js). split; [exact S0|]. cbn [fst snd]. rewrite bind_halts. left.
    apply tracks_halts. exists a, t, b. rewrite M. auto.
Qed.

Lemma panic_halts : forall A (x : outcome A), x = Panic <-> halts true x.
Proof. intros A x. destruct x; cbn [halts]; split; intros H; try discriminate H; try contradiction; reflexivity. Qed.
Lemma loop_halts : forall A (x : outcome A), x = Loop <-> halts false x.
Proof. intros A x. destruct x; cbn [halts]; split; intros H; try discriminate H; try contradiction; reflexivity. Qed.

Theorem document_crash : forall env v, assemble_json env v = Panic <-> document_crashes (env_manufacturers env) (middle_octave env) v.
Proof.
  intros env v. rewrite panic_halts, assembly_halts. unfold document_crashes, bad_values. split; intros (f & d & a & t & b & O & W & K); exists f, d, a, t, b; (split; [exact O|split; [exact W|]]); tauto.
Qed.

Theorem document_hang : forall env v, assemble_json env v = Loop <-> document_hangs (env_manufacturers env) (middle_octave env) v.
Proof.
  intros env v. rewrite loop_halts, assembly_halts. unfold document_hangs, bad_values. split; intros (f & d & a & t & b & O & W & K); exists f, d, a, t, b; (split; [exact O|split; [exact W|]]).
  - destruct K as [[K _]|K]; [discriminate|exact K].
  - right. exact K.
Qed.

Theorem document_file : forall env v, (exists bs, assemble_json env v = Ok bs) <-> document_well (env_manufacturers env) (middle_octave env) v.
Proof.
  intros env v. rewrite assembled_from. split.
  - intros [bs H]. apply bind_ok in H as ([h js] & S0 & H). cbn [fst snd] in H. apply start_is in S0 as (f & d & -> & O & _). apply bind_ok in H as (ts & T & H).
    exists f, d, (map plain js). split; [exact O|]. split; [apply (tracks_well env js 0); eauto|].
    pose proof (proj1 (encode_all (SMF (Some _) ts) (tracks_fine _ _ _ _ T) _ eq_refl) (ex_intro _ _ H)) as L. cbn [h_tracks f_tracks] in L.
    rewrite (tracks_length _ _ _ _ T) in L. unfold zlen in *. rewrite map_length. lia.
  - intros (f & d & ts & O & W & L). apply start_outline in O as (js & S0 & <-). rewrite S0. cbn [bind fst snd]. apply (tracks_well env js 0) in W as [ts T]. rewrite T. cbn [bind].
    apply (proj2 (encode_all (SMF (Some _) ts) (tracks_fine _ _ _ _ T) _ eq_refl)). cbn [h_tracks f_tracks]. rewrite (tracks_length _ _ _ _ T). unfold zlen in *. rewrite map_length in L. lia.
Qed.

Theorem document_never : forall env v, assemble_json env v <> Eof.
Proof. intros env v E. pose proof (json_crash env v) as H. rewrite E in H. exact H. Qed.

Theorem event_ends : forall env v,
  (unmarshal_json env v = Panic <-> event_with crash_values v) /\ (unmarshal_json env v = Loop <-> event_with hang_values v) /\
  ((exists e, unmarshal_json env v = Ok e) <-> well (env_manufacturers env) (middle_octave env) v) /\ unmarshal_json env v <> Eof.
Proof.
  intros env v. split; [rewrite panic_halts; apply (event_halts env v true)|]. split; [rewrite loop_halts; apply (event_halts env v false)|]. split; [apply well_reads|apply event_quiet].
Qed.

Theorem document_ends : forall env v,
  ((exists bs, assemble_json env v = Ok bs) <-> document_well (env_manufacturers env) (middle_octave env) v) /\
  (assemble_json env v = Panic <-> document_crashes (env_manufacturers env) (middle_octave env) v) /\
  (assemble_json env v = Loop <-> document_hangs (env_manufacturers env) (middle_octave env) v) /\ assemble_json env v <> Eof.
Proof. intros env v. split; [apply document_file|]. split; [apply document_crash|]. split; [apply document_hang|apply document_never]. Qed.
