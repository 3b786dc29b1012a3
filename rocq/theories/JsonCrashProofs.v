(** * JsonCrashProofs: which documents crash the JSON assembler or make it hang. *)
From Verif Require Import Base Strings Tables Event Marshal Track File SpecAssemble SpecRead SpecKey SpecJson Utf8 Hex Regex Assemble TextAssemble Json
  AssembleProofs DecodedProofs TextCrashProofs.

(** ** Reading of values *)

Lemma has_cons : forall k v o n w, has o n w -> has ((k, v) :: o) n w.
Proof. intros k v o n w (key & I & N). exists key. split; [right; exact I|exact N]. Qed.

Lemma only_field : forall A (P : json -> A -> Prop) name (f : A -> json -> outcome A) o p l, (forall a v, only (fun x => x = a \/ P v x) p l (f a v)) -> forall a,
  only (fun x => x = a \/ exists v, has o name v /\ P v x) p l (field name f a o).
Proof.
  intros A P name f o p l F. induction o as [|[k v] o IH]; intros a; cbn [field]; [left; reflexivity|]. destruct (names name k) eqn:N.
  - eapply only_bind; [apply F|]. intros b _ B. eapply only_impl; [apply IH| |auto|auto]. intros x [->|(w & H & G)].
    + destruct B as [->|B]; [left; reflexivity|]. right. exists v. split; [|exact B]. exists k. split; [left; reflexivity|exact N].
    + right. exists w. split; [apply has_cons, H|exact G].
  - eapply only_impl; [apply IH| |auto|auto]. intros x [->|(w & H & G)]; [left; reflexivity|]. right. exists w. split; [apply has_cons, H|exact G].
Qed.

Lemma only_any : forall A name (f : A -> json -> outcome A) o p l, (forall a v, only any p l (f a v)) -> forall a, only any p l (field name f a o).
Proof.
  intros A name f o p l F a. eapply only_impl; [apply (only_field A (fun _ _ => True) name f o p l)|intros; exact I|auto|auto].
  intros b v. eapply only_impl; [apply F|intros; right; exact I|auto|auto].
Qed.

Lemma only_int : forall p l name lo hi a o, only (fun x => x = a \/ has o name (JNum x)) p l (field name (read_int lo hi) a o).
Proof.
  intros. eapply only_impl; [apply (only_field Z (fun v x => v = JNum x) name _ o p l)| |auto|auto].
  - intros b v. destruct v; try exact I; cbn [read_int only]; auto. destruct (_ && _); cbn [only]; auto.
  - intros x [->|(v & H & ->)]; auto.
Qed.

Lemma only_int_none : forall p l name lo hi a o, only (fun x => x = a /\ (forall n, ~ has o name (JNum n)) \/ has o name (JNum x)) p l (field name (read_int lo hi) a o).
Proof.
  intros p l name lo hi a o. revert a. induction o as [|[k v] o IH]; intros a; cbn [field]; [left; split; [reflexivity|intros n (key & [] & _)]|].
  assert (S : forall n, has ((k, v) :: o) name (JNum n) -> has o name (JNum n) \/ v = JNum n /\ names name k = true).
  { intros n (key & [E|E] & N); [injection E as -> ->; right; auto|left; exists key; auto]. }
  destruct (names name k) eqn:N.
  - destruct v; try exact I; cbn [read_int bind].
    + eapply only_impl; [apply IH| |auto|auto]. intros x [[-> H]|H]; [left; split; [reflexivity|]|right; apply has_cons, H].
      intros n X. destruct (S n X) as [Y|[Y _]]; [exact (H n Y)|discriminate].
    + destruct (_ && _); [|exact I]. cbn [bind]. eapply only_impl; [apply IH| |auto|auto]. intros x [[-> H]|H]; right; [|apply has_cons, H].
      exists k. split; [left; reflexivity|exact N].
  - eapply only_impl; [apply IH| |auto|auto]. intros x [[-> H]|H]; [left; split; [reflexivity|]|right; apply has_cons, H].
    intros n X. destruct (S n X) as [Y|[_ Y]]; [exact (H n Y)|discriminate].
Qed.

Lemma only_string : forall p l name a o, only (fun x => x = a \/ has o name (JStr x)) p l (field name read_string a o).
Proof.
  intros. eapply only_impl; [apply (only_field bytes (fun v x => v = JStr x) name _ o p l)| |auto|auto].
  - intros b v. destruct v; cbn [read_string only]; auto.
  - intros x [->|(v & H & ->)]; auto.
Qed.

Lemma only_read_int : forall p l lo hi a v, only any p l (read_int lo hi a v).
Proof. intros. destruct v; try exact I. cbn [read_int]. destruct (_ && _); exact I. Qed.

Lemma only_object : forall p l v, only (fun o => v = JNull /\ o = [] \/ v = JObj o) p l (object v).
Proof. intros. destruct v; cbn [object only]; auto. Qed.

Lemma only_elements : forall p l v, only (fun o => v = JNull /\ o = [] \/ v = JArr o) p l (elements v).
Proof. intros. destruct v; cbn [elements only]; auto. Qed.

Lemma only_each : forall A (q : json -> A -> Prop) p l (f : json -> outcome A) vs, (forall v, In v vs -> only (q v) p l (f v)) ->
  only (fun xs => Forall2 q vs xs) p l (each f vs).
Proof.
  intros A q p l f. induction vs as [|v vs IH]; intros F; cbn [each]; [constructor|].
  eapply only_bind; [apply F; left; reflexivity|]. intros x _ X. eapply only_bind; [apply IH; intros w I; apply F; right; exact I|]. intros xs _ XS. constructor; assumption.
Qed.

Lemma only_hex_value : forall p l a v, only any p l (read_hex a v).
Proof.
  intros. unfold read_hex. eapply only_bind; [apply only_elements|]. intros vs _ _. eapply only_bind; [apply (only_each _ (fun _ _ => True)); intros; apply only_read_int|].
  intros ns _ _. unfold hex_of_json. destruct (forallb _ _); exact I.
Qed.

Lemma only_manufacturer_value : forall p l env a v, only any p l (read_manufacturer env a v).
Proof.
  intros. unfold read_manufacturer. eapply only_bind; [apply only_object|]. intros o _ _. eapply only_bind; [|intros; exact I]. apply only_any. intros b w.
  eapply only_bind; [apply only_elements|]. intros vs _ _. eapply only_impl; [apply (only_each _ (fun _ _ => True) p l); intros; apply only_read_int|intros; exact I|auto|auto].
Qed.

Lemma only_note_value : forall p l a v, only any p l (read_note a v).
Proof. intros. unfold read_note. eapply only_bind; [apply only_object|]. intros. repeat (eapply only_bind; [first [apply only_int|apply only_string]|intros]). exact I. Qed.

Lemma only_controller_value : forall p l a v, only any p l (read_controller a v).
Proof. intros. unfold read_controller. eapply only_bind; [apply only_object|]. intros. repeat (eapply only_bind; [first [apply only_int|apply only_string]|intros]). exact I. Qed.

Lemma only_channel_of : forall p l o, only (fun c => c <= 15) p l (channel_of o).
Proof.
  intros. unfold channel_of. eapply only_impl; [apply (only_field Z (fun _ x => x <= 15) _ _ o p l)| |auto|auto].
  - intros b v. unfold read_channel. eapply only_bind; [apply only_read_int|]. intros x _ _. destruct (15 <? x) eqn:E; cbn [only]; [exact I|right; lia].
  - intros x [->|(v & _ & H)]; lia.
Qed.

(** ** Events *)

Ltac step := first
  [ exact I
  | eapply only_bind; [first [apply only_channel_of|apply only_int|apply only_string|apply only_any; intros;
      first [apply only_hex_value|apply only_manufacturer_value|apply only_note_value|apply only_controller_value|match goal with |- only _ _ _ (read_bool _ ?v) => destruct v; exact I end]]|intros] ].

Lemma only_tagged : forall A tag o (rest : Z -> outcome A) (make : A -> outcome event) (q : A -> Prop) crash hang, tag <> [] ->
  (forall d, only q crash hang (rest d)) -> (forall x, q x -> has o (str "tag") (JStr tag) -> only writable crash hang (make x)) ->
  only writable crash hang (tagged tag o rest make).
Proof.
  intros A tag o rest make q crash hang N R M. unfold tagged. eapply only_bind; [apply only_string|]. intros t _ T. eapply only_bind; [apply only_int|]. intros d _ _.
  eapply only_bind; [apply R|]. intros x _ Q. destruct (bytes_eqb t tag) eqn:E; [|exact I]. apply bytes_eqb_eq in E. subst t. apply M; [exact Q|]. destruct T; [contradiction|assumption].
Qed.

(** The events that are made without conditions *)
Ltac plain := intros; match goal with |- only _ _ _ (?f _) => unfold f | |- only _ _ _ (?f _ _) => unfold f | _ => idtac end;
  eapply (only_tagged _ _ _ _ _ any); [try match goal with k : textkind |- _ => destruct k end; discriminate|intros d; repeat step; exact I|]; intros x _ _; repeat match goal with x : (_ * _)%type |- _ => destruct x end; cbv beta iota;
  repeat match goal with |- only _ _ _ (if ?c then _ else _) => destruct c eqn:? end; try exact I; apply wr; exact I.

Lemma json_sequence_number_ok : forall p l o, only writable p l (json_sequence_number o). Proof. plain. Qed.
Lemma json_text_ok : forall p l k o, only writable p l (json_text k o). Proof. plain. Qed.
Lemma json_tempo_ok : forall p l o, only writable p l (json_tempo o). Proof. plain. Qed.
Lemma json_end_of_track_ok : forall p l o, only writable p l (json_end_of_track o). Proof. plain. Qed.
Lemma json_sequencer_specific_ok : forall p l env o, only writable p l (json_sequencer_specific env o). Proof. plain. Qed.
Lemma json_note_off_ok : forall p l env o, only writable p l (json_note_off env o). Proof. plain. Qed.
Lemma json_sysex_ok : forall p l env o, only writable p l (json_sysex env o). Proof. plain. Qed.
Lemma json_continuation_ok : forall p l o, only writable p l (json_continuation o). Proof. plain. Qed.
Lemma json_escape_ok : forall p l o, only writable p l (json_escape o). Proof. plain. Qed.

(** Channel, port: checked when they are read. *)
Lemma json_channel_prefix_ok : forall p l o, only writable p l (json_channel_prefix o).
Proof.
  intros. unfold json_channel_prefix. eapply (only_tagged _ _ _ _ _ any); [discriminate|intros d; repeat step; exact I|]. intros [d c] _ _.
  destruct (15 <? c) eqn:E; [exact I|]. unfold make_channel_prefix. rewrite E. apply wr. exact I.
Qed.
Lemma json_port_ok : forall p l o, only writable p l (json_port o).
Proof.
  intros. unfold json_port. eapply (only_tagged _ _ _ _ _ any); [discriminate|intros d; repeat step; exact I|]. intros [d c] _ _.
  destruct (127 <? c) eqn:E; [exact I|]. unfold make_port. rewrite E. apply wr. exact I.
Qed.
Lemma json_controller_ok : forall p l o, only writable p l (json_controller o).
Proof.
  intros. unfold json_controller. eapply (only_tagged _ _ _ _ _ (fun '(d, c, k, v) => c <= 15)); [discriminate|intros d; repeat step; cbn [only]; assumption|].
  intros [[[d c] k] v] C _. unfold make_controller. replace (15 <? c) with false by lia. apply wr. exact I.
Qed.
Lemma json_program_change_ok : forall p l o, only writable p l (json_program_change o).
Proof.
  intros. unfold json_program_change. eapply (only_tagged _ _ _ _ _ (fun '(d, c, b, x) => c <= 15)); [discriminate|intros d; repeat step; cbn [only]; assumption|].
  intros [[[d c] b] x] C _. unfold make_program_change. replace (15 <? c) with false by lia. apply wr. exact I.
Qed.
Lemma json_pitch_bend_ok : forall p l o, only writable p l (json_pitch_bend o).
Proof.
  intros. unfold json_pitch_bend. eapply (only_tagged _ _ _ _ _ (fun '(d, c, b) => c <= 15)); [discriminate|intros d; repeat step; cbn [only]; assumption|].
  intros [[d c] b] C _. unfold make_pitch_bend. replace (15 <? c) with false by lia. apply wr. exact I.
Qed.

(** Values that are not checked *)
Lemma json_note_on_ok : forall l env o, only writable (crash_event o) l (json_note_on env o).
Proof.
  intros. unfold json_note_on. eapply (only_tagged _ _ _ _ _ (fun '(d, c, n, v) => c <= 15 /\ (v = 0 \/ has o (str "velocity") (JNum v)))).
  - discriminate.
  - intros d. repeat step. cbn [only]. auto.
  - intros [[[d c] n] v] [C V] T. unfold make_note_on. replace (15 <? c) with false by lia. destruct (127 <? v) eqn:E; [|apply wr; exact I].
    cbn [only]. eexists. split; [exact T|]. left. split; [reflexivity|]. exists v. destruct V; [lia|]. split; [assumption|lia].
Qed.
Lemma json_polyphonic_pressure_ok : forall l o, only writable (crash_event o) l (json_polyphonic_pressure o).
Proof.
  intros. unfold json_polyphonic_pressure. eapply (only_tagged _ _ _ _ _ (fun '(d, c, v) => c <= 15 /\ (v = 0 \/ has o (str "pressure") (JNum v)))).
  - discriminate.
  - intros d. repeat step. cbn [only]. auto.
  - intros [[d c] v] [C V] T. unfold make_polyphonic_pressure. replace (15 <? c) with false by lia. destruct (127 <? v) eqn:E; [|apply wr; exact I].
    cbn [only]. eexists. split; [exact T|]. right; left. split; [left; reflexivity|]. exists v. destruct V; [lia|]. split; [assumption|lia].
Qed.
Lemma json_channel_pressure_ok : forall l o, only writable (crash_event o) l (json_channel_pressure o).
Proof.
  intros. unfold json_channel_pressure. eapply (only_tagged _ _ _ _ _ (fun '(d, c, v) => c <= 15 /\ (v = 0 \/ has o (str "pressure") (JNum v)))).
  - discriminate.
  - intros d. repeat step. cbn [only]. auto.
  - intros [[d c] v] [C V] T. unfold make_channel_pressure. replace (15 <? c) with false by lia. destruct (127 <? v) eqn:E; [|apply wr; exact I].
    cbn [only]. eexists. split; [exact T|]. right; left. split; [right; reflexivity|]. exists v. destruct V; [lia|]. split; [assumption|lia].
Qed.
Lemma json_key_signature_ok : forall l o, only writable (crash_event o) l (json_key_signature o).
Proof.
  intros. unfold json_key_signature.
  eapply (only_tagged _ _ _ _ _ (fun '(d, a, k) => (a = 0 \/ has o (str "accidentals") (JNum a)) /\ (k = 0 \/ has o (str "key-type") (JNum k)))).
  - discriminate.
  - intros d. repeat step. cbn [only]. auto.
  - intros [[d a] k] [A K] T.
    assert (P : crash_event o \/ (-7 <= a <= 7) /\ (k = 0 \/ k = 1)).
    { assert (D : -7 <= a <= 7 \/ ~ -7 <= a <= 7) by lia. destruct D as [D|D].
      - assert (D' : (k = 0 \/ k = 1) \/ (k <> 0 /\ k <> 1)) by lia. destruct D' as [D'|D']; [right; auto|left].
        eexists. split; [exact T|]. right; right; left. split; [reflexivity|]. right. exists k. destruct K; [lia|]. auto.
      - left. eexists. split; [exact T|]. right; right; left. split; [reflexivity|]. left. exists a. destruct A; [lia|]. auto. }
    destruct P as [P|[R M]].
    + unfold make_key_signature. destruct (k =? 0); [destruct (major_scale a); [apply wr; exact I|exact P]|]. destruct (k =? 1); [destruct (minor_scale a); [apply wr; exact I|exact P]|exact P].
    + assert (C : a = -7 \/ a = -6 \/ a = -5 \/ a = -4 \/ a = -3 \/ a = -2 \/ a = -1 \/ a = 0 \/ a = 1 \/ a = 2 \/ a = 3 \/ a = 4 \/ a = 5 \/ a = 6 \/ a = 7) by lia.
      assert (S : match major_scale a, minor_scale a with Some _, Some _ => True | _, _ => False end) by (repeat (destruct C as [C|C]); subst; exact I).
      unfold make_key_signature. destruct (major_scale a), (minor_scale a); try contradiction. destruct M as [-> | ->]; apply wr; exact I.
Qed.
Lemma json_smpte_offset_ok : forall l o, only writable (crash_event o) l (json_smpte_offset o).
Proof.
  intros. unfold json_smpte_offset.
  eapply (only_tagged _ _ _ _ _ (fun '(d, h, m, s, r, f, ff) => (h = 0 \/ has o (str "hour") (JNum h)) /\ (m = 0 \/ has o (str "minute") (JNum m)) /\ (s = 0 \/ has o (str "second") (JNum s)) /\
    (r = 0 /\ (forall x, ~ has o (str "frame-rate") (JNum x)) \/ has o (str "frame-rate") (JNum r)) /\ (f = 0 \/ has o (str "frames") (JNum f)) /\
    (ff = 0 \/ has o (str "fractional-frames") (JNum ff)))).
  - discriminate.
  - intros d. do 3 step. eapply only_bind; [|intros].
    { apply only_int_none. }
    repeat step. cbn [only]. repeat split; assumption.
  - intros [[[[[[d h] m] s] r] f] ff] (H & M & S & R & F & FF) T.
    assert (P : bad_offset o \/ (h <= 24 /\ m <= 59 /\ s <= 59 /\ (r = 24 \/ r = 25 \/ r = 29 \/ r = 30) /\ f < r /\ ff <= 100)).
    { unfold bad_offset, has_number.
      destruct (Z_le_gt_dec h 24); [|left; left; exists h; destruct H; [lia|]; split; [assumption|lia]].
      destruct (Z_le_gt_dec m 59); [|left; right; left; exists m; destruct M; [lia|]; split; [assumption|lia]].
      destruct (Z_le_gt_dec s 59); [|left; right; right; left; exists s; destruct S; [lia|]; split; [assumption|lia]].
      destruct R as [[-> R]|R]; [left; do 3 right; left; exact R|].
      assert (D : (r = 24 \/ r = 25 \/ r = 29 \/ r = 30) \/ (r <> 24 /\ r <> 25 /\ r <> 29 /\ r <> 30)) by lia. destruct D as [D|D]; [|left; do 4 right; left; exists r; auto].
      destruct (Z_lt_ge_dec f r); [|left; do 5 right; left; exists f; destruct F; [lia|]; split; [assumption|]; exists r; split; [assumption|lia]].
      destruct (Z_le_gt_dec ff 100); [|left; do 6 right; exists ff; destruct FF; [lia|]; split; [assumption|lia]].
      right. repeat split; assumption || lia. }
    destruct P as [P|(P1 & P2 & P3 & P4 & P5 & P6)].
    + assert (C : crash_event o) by (eexists; split; [exact T|]; do 3 right; split; [reflexivity|exact P]).
      unfold make_smpte_offset. repeat match goal with |- only _ _ _ (if ?c then _ else _) => destruct c end; try exact C. apply wr. exact I.
    + unfold make_smpte_offset. replace (24 <? h) with false by lia. replace (59 <? m) with false by lia. replace (59 <? s) with false by lia.
      replace (negb ((r =? 24) || (r =? 25) || (r =? 29) || (r =? 30))) with false by lia. replace (r <=? f) with false by lia. replace (100 <? ff) with false by lia. apply wr. exact I.
Qed.
Lemma json_time_signature_ok : forall p o, only writable p (hang_event o) (json_time_signature o).
Proof.
  intros. unfold json_time_signature. eapply (only_tagged _ _ _ _ _ (fun '(d, n, dd, t, q) => dd = 0 \/ has o (str "denominator") (JNum dd))).
  - discriminate.
  - intros d. repeat step. cbn [only]. assumption.
  - intros [[[[d n] dd] t] q] D T. unfold make_time_signature. destruct (log2_loop 9 1 dd 0) as [z| | | |] eqn:E; cbn [bind only].
    + unfold writable, marshal. cbn [e_body]. unfold marshal_time_signature. rewrite E. eexists. reflexivity.
    + exact I.
    + exfalso. revert E. generalize 9%nat, 1, 0. clear. intros f. induction f as [|f IH]; intros a b E; cbn [log2_loop] in E; destruct (_ <? _); try discriminate. eapply IH, E.
    + exfalso. revert E. generalize 9%nat, 1, 0. clear. intros f. induction f as [|f IH]; intros a b E; cbn [log2_loop] in E; destruct (_ <? _); try discriminate. eapply IH, E.
    + split; [exact T|]. exists dd.
      assert (B : 128 < dd).
      { destruct (Z_lt_ge_dec 128 dd) as [|G]; [assumption|]. exfalso. cbn [log2_loop] in E.
        repeat match type of E with (if ?c then _ else _) = _ => destruct c eqn:?; [|discriminate] end. change (((((((1 * 2) mod 256 * 2) mod 256 * 2) mod 256 * 2) mod 256 * 2) mod 256 * 2) mod 256 * 2) with 128 in *. lia. }
      split; [|exact B]. destruct D; [lia|assumption].
Qed.

Lemma json_event_ok : forall env v, only writable (exists w e, v = JObj w /\ has w (str "event") (JObj e) /\ crash_event e)
  (exists w e, v = JObj w /\ has w (str "event") (JObj e) /\ hang_event e) (unmarshal_json env v).
Proof.
  intros env v. unfold unmarshal_json. eapply only_bind; [apply only_object|]. intros w _ W.
  eapply only_bind; [apply (only_field _ (fun v x => x = Some v)); intros; right; reflexivity|]. intros raw _ R. destruct raw as [raw|]; [|exact I].
  destruct R as [R|(v' & R & E)]; [discriminate|]. injection E as <-. eapply only_bind; [apply only_object|]. intros fields _ F. eapply only_bind; [apply only_string|].
  intros tag _ T. destruct (find _ (json_cases env)) as [[k f]|] eqn:E; [|exact I].
  apply find_some in E as [E K]. cbn [fst] in K. apply bytes_eqb_eq in K. subst k.
  assert (G : raw = JObj fields /\ v = JObj w).
  { split.
    - destruct F as [[-> ->]|F]; [|exact F]. destruct T as [->|(k & [] & _)]. clear - E. unfold json_cases in E. repeat (destruct E as [E|E]; [discriminate|]). contradiction.
    - destruct W as [[-> ->]|W]; [|exact W]. destruct R as (k & [] & _). }
  destruct G as [-> ->].
  assert (Q : only writable (crash_event fields) (hang_event fields) (f fields)).
  { unfold json_cases in E. repeat (destruct E as [E|E]; [injection E as <- <-;
      first [apply json_sequence_number_ok|apply json_text_ok|apply json_tempo_ok|apply json_end_of_track_ok|apply json_sequencer_specific_ok|apply json_note_off_ok|apply json_sysex_ok
        |apply json_continuation_ok|apply json_escape_ok|apply json_channel_prefix_ok|apply json_port_ok|apply json_controller_ok|apply json_program_change_ok|apply json_pitch_bend_ok
        |apply json_note_on_ok|apply json_polyphonic_pressure_ok|apply json_channel_pressure_ok|apply json_key_signature_ok|apply json_smpte_offset_ok|apply json_time_signature_ok]|]). contradiction. }
  eapply only_impl; [exact Q|auto| |]; intros X; exists w, fields; auto.
Qed.

(** ** Documents *)

Definition jcrash (v : json) : Prop := exists w e, v = JObj w /\ has w (str "event") (JObj e) /\ crash_event e.
Definition jhang (v : json) : Prop := exists w e, v = JObj w /\ has w (str "event") (JObj e) /\ hang_event e.

(** A track as read from the object *)
Definition from_object (v : json) (t : jtrack) : Prop :=
  v = JNull /\ jt_tag t = None \/
  exists o, v = JObj o /\ ((jt_events t = [] /\ without_events o) \/ has o (str "events") (JArr (jt_events t))).

Lemma only_events_field : forall p l o, only (fun x => x = [] /\ without_events o \/ has o (str "events") (JArr x)) p l (field (str "events") (fun _ v => elements v) [] o).
Proof.
  intros p l o. eapply only_impl with (q := fun x => x = [] /\ (forall v, ~ has o (str "events") v) \/ exists v, has o (str "events") v /\ elements v = Ok x) (p := p) (l := l); [| |auto|auto].
  - generalize (str "events"). intros name. generalize (@nil json). induction o as [|[k v] o IH]; intros a; cbn [field].
    + left. split; [reflexivity|]. intros v (key & [] & _).
    + assert (S : forall w, has ((k, v) :: o) name w -> has o name w \/ v = w /\ names name k = true).
      { intros w (key & [E|E] & N); [injection E as -> ->; right; auto|left; exists key; auto]. }
      destruct (names name k) eqn:N.
      * eapply only_bind; [apply only_elements|]. intros x E _. eapply only_impl; [apply IH| |auto|auto]. intros y [[-> H]|(w & H & G)]; right.
        -- exists v. split; [|exact E]. exists k. split; [left; reflexivity|exact N].
        -- exists w. split; [apply has_cons, H|exact G].
      * eapply only_impl; [apply IH| |auto|auto]. intros y [[-> H]|(w & H & G)]; [left; split; [reflexivity|]|right; exists w; split; [apply has_cons, H|exact G]].
        intros w X. destruct (S w X) as [Y|[_ Y]]; [exact (H w Y)|discriminate].
  - intros x [[-> H]|(v & H & E)]; [left; split; [reflexivity|left; exact H]|]. destruct v; cbn [elements] in E; try discriminate; apply Ok_inj in E; subst x.
    + left. split; [reflexivity|right; left; exact H].
    + right. exact H.
Qed.

Lemma only_pointer : forall A p l (f : json -> outcome A) a v, (forall w, only any p l (f w)) -> only any p l (read_pointer f a v).
Proof. intros A p l f a v F. destruct v; try exact I; unfold read_pointer; (eapply only_bind; [apply F|intros; exact I]). Qed.

Lemma only_track : forall p l v, only (from_object v) p l (read_track v).
Proof.
  intros p l v. unfold read_track. eapply only_bind; [apply only_object|]. intros o _ O.
  assert (P : forall A (f : json -> outcome A) name, (forall w, only any p l (f w)) -> only (fun x : option A => o = [] -> x = None) p l (field name (read_pointer f) None o)).
  { intros A f name F. destruct o; [cbn; auto|]. eapply only_impl with (q := any) (p := p) (l := l); [apply only_any|intros x _ X; discriminate|auto|auto].
    intros a w. destruct w; try exact I; unfold read_pointer; (eapply only_bind; [apply F|intros; exact I]). }
  eapply only_bind; [apply P; intros []; exact I|]. intros tag _ T. eapply only_bind; [apply P; intros; apply only_read_int|]. intros n _ _.
  eapply only_bind; [apply only_events_field|]. intros es _ E. cbn [only]. destruct O as [[-> ->]| ->]; [left; cbn; auto|right].
  exists o. split; [reflexivity|]. cbn [jt_events]. exact E.
Qed.

Lemma only_fixups : forall es, Forall writable es -> only (Forall writable) (es = []) False (fixups es).
Proof. intros [|e es] W; cbn [fixups only]; [reflexivity|]. apply close_writable, W. Qed.

Lemma only_json_mtrk : forall env v t, from_object v t ->
  only (Forall writable)
    (exists o, v = JObj o /\ (without_events o \/ exists es w e, has o (str "events") (JArr es) /\ In (JObj w) es /\ has w (str "event") (JObj e) /\ crash_event e))
    (exists o es w e, v = JObj o /\ has o (str "events") (JArr es) /\ In (JObj w) es /\ has w (str "event") (JObj e) /\ hang_event e) (json_mtrk env t).
Proof.
  intros env v t F. unfold json_mtrk. destruct (jt_tag t) as [tag|] eqn:T; [|exact I]. destruct (negb _); [exact I|].
  destruct F as [[_ F]|(o & -> & F)]; [congruence|]. eapply only_bind with (q := fun es => Forall writable es /\ (es = [] -> jt_events t = [])).
  - eapply only_impl with (q := fun xs => Forall2 (fun _ e => writable e) (jt_events t) xs) (p := exists v, In v (jt_events t) /\ jcrash v) (l := exists v, In v (jt_events t) /\ jhang v).
    + apply only_each. intros v I. eapply only_impl; [apply json_event_ok|auto| |]; intros X; exists v; auto.
    + intros xs X. split; [clear - X; induction X; constructor; assumption|]. intros ->. inversion X. reflexivity.
    + intros (v & I & w & e & -> & W & C). destruct F as [[E _]|F]; [rewrite E in I; destruct I|]. exists o. split; [reflexivity|]. right. exists (jt_events t), w, e. auto.
    + intros (v & I & w & e & -> & W & C). destruct F as [[E _]|F]; [rewrite E in I; destruct I|]. exists o, (jt_events t), w, e. auto.
  - intros es _ [W N]. eapply only_impl; [apply only_fixups, W|auto| |intros []]. intros E. exists o. split; [reflexivity|]. left.
    destruct F as [[_ F]|F]; [exact F|]. rewrite (N E) in F. right; right. exact F.
Qed.

Lemma only_json_tracks : forall env vs ts k, Forall2 from_object vs ts ->
  only (fun ts => Forall (fun t => Forall writable (t_events t)) ts)
    (exists o, In (JObj o) vs /\ (without_events o \/ exists es w e, has o (str "events") (JArr es) /\ In (JObj w) es /\ has w (str "event") (JObj e) /\ crash_event e))
    (exists o es w e, In (JObj o) vs /\ has o (str "events") (JArr es) /\ In (JObj w) es /\ has w (str "event") (JObj e) /\ hang_event e) (json_tracks env k ts).
Proof.
  intros env vs ts k F. revert k. induction F as [|v t vs ts O F IH]; intros k; cbn [json_tracks]; [constructor|].
  eapply only_bind.
  - eapply only_impl; [apply (only_json_mtrk env v t O)|intros x X; exact X| |].
    + intros (o & -> & X). exists o. split; [left; reflexivity|exact X].
    + intros (o & es & w & e & -> & X). exists o, es, w, e. split; [left; reflexivity|exact X].
  - intros es _ W. eapply only_bind.
    + eapply only_impl; [apply IH|intros x X; exact X| |].
      * intros (o & I & X). exists o. split; [right; exact I|exact X].
      * intros (o & es' & w & e & I & X). exists o, es', w, e. split; [right; exact I|exact X].
    + intros ts' _ W'. constructor; assumption.
Qed.

Lemma only_json_mthd : forall h, only any False False (json_mthd h).
Proof.
  intros h. unfold json_mthd. destruct (jh_tag h); [|exact I]. destruct (negb _); [exact I|]. destruct (jh_format h) as [f|]; [|exact I].
  destruct (negb ((f =? 0) || _ || _)) eqn:F; [exact I|]. destruct (jh_ppqn h) as [d|]; [|exact I]. cbv zeta. destruct (_ && _) eqn:A; [exact I|]. unfold make_mthd. rewrite F.
  destruct (land_bit d) as [-> | L]; [exact I|]. rewrite L in *. cbn [Z.eqb Pos.eqb andb] in *. unfold smpte_fps.
  repeat match goal with |- only _ _ _ (match (if ?c then _ else _) with _ => _ end) => destruct c eqn:? end; try exact I. lia.
Qed.

Theorem json_crash : forall env v,
  match assemble_json env v with
  | Panic => (exists t, track_of v t /\ without_events t) \/ exists e, event_of v e /\ crash_event e
  | Loop => exists e, event_of v e /\ hang_event e
  | Eof => False
  | _ => True
  end.
Proof.
  intros env v.
  assert (G : only any ((exists t, track_of v t /\ without_events t) \/ exists e, event_of v e /\ crash_event e) (exists e, event_of v e /\ hang_event e) (assemble_json env v)).
  { unfold assemble_json. eapply only_bind; [apply only_object|]. intros o _ O.
    eapply only_bind with (q := any).
    { apply only_any. intros a w. unfold read_header. eapply only_bind; [apply only_object|]. intros f _ _.
      repeat (eapply only_bind; [apply only_any; intros; apply only_pointer; first [intros; apply only_read_int|intros []; exact I]|intros]). exact I. }
    intros h _ _. eapply only_bind.
    { apply (only_field _ (fun v ts => exists vs, (v = JNull /\ vs = [] \/ v = JArr vs) /\ Forall2 from_object vs ts)). intros a w. eapply only_bind; [apply only_elements|].
      intros vs _ V. eapply only_impl; [eapply (only_each _ from_object); intros; apply only_track|intros x X; right; exists vs; auto|intros X; exact X|intros X; exact X]. }
    intros jts _ J. eapply only_bind with (q := any); [eapply only_impl; [apply only_json_mthd|auto|intros []|intros []]|]. intros hh _ _.
    assert (T : exists vs, Forall2 from_object vs jts /\ forall t, In (JObj t) vs -> track_of v t).
    { destruct J as [->|(w & H & vs & V & F)]; [exists []; split; [constructor|intros t []]|]. exists vs. split; [exact F|]. intros t I.
      destruct V as [[_ ->]| ->]; [destruct I|]. destruct O as [[_ ->]| ->]; [destruct H as (k & [] & _)|]. exists o, vs. auto. }
    destruct T as (vs & F & T). eapply only_bind with (q := fun ts => Forall (fun t => Forall writable (t_events t)) ts).
    - eapply only_impl; [apply (only_json_tracks env vs jts 0 F)|auto| |].
      + intros (t & I & [X|(es & w & e & A & B & C & D)]); [left; exists t; split; [apply T, I|exact X]|right]. exists e. split; [|exact D]. exists t, es, w. split; [apply T, I|auto].
      + intros (t & es & w & e & I & A & B & C & D). exists e. split; [|exact D]. exists t, es, w. split; [apply T, I|auto].
    - intros ts _ W. eapply only_impl; [apply only_encode; exact W|auto|intros []|intros []]. }
  destruct (assemble_json env v); cbn [only] in G; try exact I; assumption.
Qed.
