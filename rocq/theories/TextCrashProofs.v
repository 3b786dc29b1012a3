(** * TextCrashProofs: when the text assembler crashes or hangs. *)
From Verif Require Import Base Strings Tables Event Marshal Track File SpecAssemble SpecRead Hex Manufacturer Regex TextEvent Assemble TextAssemble AssembleProofs
  RegexProofs TextProofs TextReadProofs TextFileProofs.

(** What a step may do: succeed with a result, report an error, and crash or hang only under a condition. *)
Definition only {A} (q : A -> Prop) (panic loop : Prop) (o : outcome A) : Prop :=
  match o with Ok x => q x | Err => True | Panic => panic | Loop => loop | Eof => False end.
Definition any {A} (x : A) : Prop := True.

Lemma only_bind : forall A B q q' p l (a : outcome A) (f : A -> outcome B), only q p l a -> (forall x, a = Ok x -> q x -> only q' p l (f x)) -> only q' p l (do x <- a; f x).
Proof. intros A B q q' p l a f H F. destruct a; cbn [bind only] in *; auto. Qed.

Lemma only_impl : forall A (q q' : A -> Prop) (p l p' l' : Prop) (a : outcome A), only q p l a -> (forall x, q x -> q' x) -> (p -> p') -> (l -> l') -> only q' p' l' a.
Proof. intros A q q' p l p' l' a H Q P L. destruct a; cbn [only] in *; auto. Qed.

Lemma only_uint : forall p l b s, only any p l (parse_uint b s).
Proof. intros p l b [|c s]; [exact I|]. unfold parse_uint. destruct (forallb _ _); [|exact I]. destruct (_ <? _); exact I. Qed.

Lemma only_delta : forall p l s, only any p l (parse_delta s).
Proof. intros. apply only_uint. Qed.

Lemma only_channel : forall p l s, only (fun c => c <= 15) p l (parse_channel s).
Proof. intros. unfold parse_channel. eapply only_bind; [apply only_uint|]. intros x _ _. destruct (15 <? x) eqn:E; cbn [only]; [exact I|lia]. Qed.

Lemma only_note : forall p l s, only any p l (parse_note s).
Proof.
  intros p l s. unfold parse_note. destruct (rfind note_re s) as [[|a [|b [|c r]]]|]; try exact I. apply only_bind with (q := any).
  - unfold lookup_note. destruct (List.find _ _); exact I.
  - intros x _ _. apply only_bind with (q := any); [|intros; exact I]. unfold parse_octave.
    assert (G : forall d, only any p l (parse_uint 7 d)) by (intros; apply only_uint).
    destruct b as [|c b]; [apply G|]. destruct c as [|c|c]; try apply G. do 6 (destruct c; try apply G). eapply only_bind; [apply only_uint|intros; exact I].
Qed.

Lemma only_find : forall p l t m, only any p l (find_manufacturer t m).
Proof. intros p l t m. induction t as [|[k x] t IH]; cbn [find_manufacturer]; [exact I|]. destruct (bytes_eqb _ _); [exact I|exact IH]. Qed.

Lemma only_hex : forall p l s, only any p l (parse_hex s).
Proof.
  intros p l s. unfold parse_hex. generalize (filter (fun c => negb (is_space c)) s). clear s. intros s. 
  remember (length s) as n eqn:E. assert (L : (length s <= n)%nat) by lia. clear E. revert s L.
  induction n as [|n IH]; intros [|c [|d r]] L; try exact I; cbn [length] in L; [lia|]. cbn [decode_hex]. destruct (from_hex_char c), (from_hex_char d); try exact I.
  eapply only_bind; [apply IH; lia|]. intros; exact I.
Qed.

(** The event can be written. *)
Definition writable (e : event) : Prop := exists b, marshal e = Ok b.

Lemma wr : forall e, match e_body e with TimeSignature _ _ _ _ => False | _ => True end -> writable e.
Proof. intros e H. unfold writable, marshal. destruct (e_body e); try contradiction; try (eexists; reflexivity). destruct k; eexists; reflexivity. Qed.

Ltac step := first
  [ exact I
  | eapply only_bind; [first [apply only_delta|apply only_channel|apply only_note|apply only_find|apply only_hex|apply only_uint]|intros]
  | match goal with |- only _ _ _ (if ?c then _ else _) => destruct c eqn:? end
  | match goal with |- only _ _ _ (match ?l with _ => _ end) => destruct l end
  | progress unfold make_note_on, make_polyphonic_pressure, make_controller, make_program_change, make_channel_pressure, make_pitch_bend, make_channel_prefix, make_port
  | cbn [only]; apply wr; exact I
  | cbn [only]; cbv beta in *; lia ].

Ltac steps := repeat step.

Lemma only_sequence_number : forall s, only writable False False (text_sequence_number s). Proof. intros. unfold text_sequence_number. steps. Qed.
Lemma only_text : forall k s, only writable False False (text_text k s). Proof. intros. unfold text_text. steps. Qed.
Lemma only_channel_prefix : forall s, only writable False False (text_channel_prefix s). Proof. intros. unfold text_channel_prefix. steps. Qed.
Lemma only_port : forall s, only writable False False (text_port s). Proof. intros. unfold text_port. steps. Qed.
Lemma only_tempo : forall s, only writable False False (text_tempo s). Proof. intros. unfold text_tempo. steps. Qed.
Lemma only_time_signature : forall s, only writable False True (text_time_signature s).
Proof.
  intros. unfold text_time_signature. steps. unfold make_time_signature.
  destruct (log2_loop 9 1 x1 0) as [z| | | |] eqn:E; try exact I; cbn [bind only].
  - unfold writable, marshal. cbn [e_body]. unfold marshal_time_signature. rewrite E. eexists. reflexivity.
  - revert E. generalize 9%nat, 1, 0. clear. intros f. induction f as [|f IH]; intros a b E; cbn [log2_loop] in E; destruct (_ <? _); try discriminate. eapply IH, E.
  - revert E. generalize 9%nat, 1, 0. clear. intros f. induction f as [|f IH]; intros a b E; cbn [log2_loop] in E; destruct (_ <? _); try discriminate. eapply IH, E.
Qed.
Lemma scales_found : forall s, In s MAJOR_SCALES \/ In s MINOR_SCALES -> forall d, exists e, make_key_signature 0 d (s_acc s) (s_type s) [] = Ok e /\ writable e.
Proof.
  intros s H d.
  assert (E : forallb (fun s => ((s_type s =? 0) && match major_scale (s_acc s) with Some _ => true | None => false end) ||
                        ((s_type s =? 1) && match minor_scale (s_acc s) with Some _ => true | None => false end)) (MAJOR_SCALES ++ MINOR_SCALES) = true) by (vm_compute; reflexivity).
  rewrite forallb_forall in E. specialize (E s ltac:(apply in_or_app; exact H)). unfold make_key_signature.
  apply orb_true_iff in E as [E|E]; apply andb_true_iff in E as [T E]; apply Z.eqb_eq in T; rewrite T; cbn [Z.eqb Pos.eqb].
  - destruct (major_scale (s_acc s)); [|discriminate]. eexists. split; [reflexivity|]. apply wr. exact I.
  - destruct (minor_scale (s_acc s)); [|discriminate]. eexists. split; [reflexivity|]. apply wr. exact I.
Qed.

Lemma only_key_signature : forall s, only writable False False (text_key_signature s).
Proof.
  intros. unfold text_key_signature. destruct (rfind re_key_signature s) as [[|d [|n [|m [|x y]]]]|]; try exact I.
  eapply only_bind; [apply only_delta|]. intros dl _ _. unfold key_by_name. generalize (to_lower (n ++ [32] ++ m)). intros k.
  assert (G : forall sc, In sc MAJOR_SCALES \/ In sc MINOR_SCALES -> only writable False False (make_key_signature 0 dl (s_acc sc) (s_type sc) [])).
  { intros sc H. destruct (scales_found sc H dl) as (e & E & W). rewrite E. exact W. }
  destruct (find _ MINOR_SCALES) as [sc|] eqn:E; [apply find_some in E as [E _]; apply G; right; exact E|].
  destruct (find _ MAJOR_SCALES) as [sc|] eqn:E2; [apply find_some in E2 as [E2 _]; apply G; left; exact E2|].
  unfold make_key_signature. cbn [Z.eqb]. vm_compute (major_scale 0). cbn [only]. apply wr. exact I.
Qed.

Lemma only_smpte_offset : forall s, only writable True False (text_smpte_offset s).
Proof. intros. unfold text_smpte_offset. steps. unfold make_smpte_offset. steps. Qed.
Lemma only_end_of_track : forall s, only writable False False (text_end_of_track s). Proof. intros. unfold text_end_of_track. steps. Qed.
Lemma only_sequencer_specific : forall t s, only writable False False (text_sequencer_specific t s). Proof. intros. unfold text_sequencer_specific. steps. Qed.
Lemma only_note_off : forall s, only writable False False (text_note_off s). Proof. intros. unfold text_note_off. steps. Qed.
Lemma only_note_on : forall s, only writable False False (text_note_on s). Proof. intros. unfold text_note_on. steps. Qed.
Lemma only_poly : forall s, only writable False False (text_polyphonic_pressure s). Proof. intros. unfold text_polyphonic_pressure. steps. Qed.
Lemma only_controller : forall s, only writable False False (text_controller s). Proof. intros. unfold text_controller. steps. Qed.
Lemma only_program : forall s, only writable False False (text_program_change s). Proof. intros. unfold text_program_change. steps. Qed.
Lemma only_pressure : forall s, only writable False False (text_channel_pressure s). Proof. intros. unfold text_channel_pressure. steps. Qed.
Lemma only_bend : forall s, only writable False False (text_pitch_bend s). Proof. intros. unfold text_pitch_bend. steps. Qed.
Lemma only_sysex : forall t s, only writable False False (text_sysex t s). Proof. intros. unfold text_sysex. steps. Qed.
Lemma only_continuation : forall s, only writable False False (text_continuation s). Proof. intros. unfold text_continuation. steps. Qed.
Lemma only_escape : forall s, only writable False False (text_escape s). Proof. intros. unfold text_escape. steps. Qed.

Lemma only_event : forall table s, only writable (occurs (str "SMPTEOffset") s) (occurs (str "TimeSignature") s) (unmarshal_text table s).
Proof.
  intros table s. unfold unmarshal_text, text_cases. cbn [first_case].
  repeat lazymatch goal with
    | |- only _ _ _ (if contains s ?t then _ else _) =>
        destruct (contains s t) eqn:?;
        [first [eapply only_impl; [first [apply only_sequence_number|apply only_text|apply only_channel_prefix|apply only_port|apply only_tempo|apply only_time_signature|apply only_key_signature|
           apply only_smpte_offset|apply only_end_of_track|apply only_sequencer_specific|apply only_note_off|apply only_note_on|apply only_poly|apply only_controller|apply only_program|
           apply only_pressure|apply only_bend|apply only_sysex|apply only_continuation|apply only_escape]
         |auto|intro X; first [contradiction|apply contains_spec; assumption]|intro X; first [contradiction|apply contains_spec; assumption]]]|]
    end.
  exact I.
Qed.

Lemma format_digit : forall s f, rfind format_re s = Some [f] -> exists c, f = [c] /\ 48 <= c <= 50.
Proof.
  induction s as [|x s IH]; intros f H; [vm_compute in H; discriminate|].
  cbn [rfind] in H. destruct (rmatch format_re [] (x :: s) _) as [caps|] eqn:E; [|apply IH, H]. injection H as H; subst caps.
  revert E. generalize (x :: s). clear. intros s E. unfold format_re, cat in E. cbn [fold_right rmatch lit cls] in E.
  destruct (strip _ s) as [[|c r]|]; try discriminate. cbn [byte1] in E. destruct ((48 <=? c) && (c <=? 50)) eqn:C; [|discriminate].
  cbn [app] in E. injection E as <-. exists c. split; [|lia].
  match goal with |- firstn ?n _ = _ => replace n with 1%nat end; [reflexivity|]. destruct (length r) as [|n]; [reflexivity|lia].
Qed.

Lemma land_bit : forall d, Z.land d 32768 = 0 \/ Z.land d 32768 = 32768.
Proof.
  intros d. destruct (Z.testbit d 15) eqn:E; [right|left]; apply Z.bits_inj'; intros n N; rewrite Z.land_spec; change 32768 with (2 ^ 15); rewrite Z.pow2_bits_eqb by lia;
    destruct (15 =? n) eqn:M; try (apply Z.eqb_eq in M; subst n; rewrite E; reflexivity); rewrite ?andb_false_r, ?Z.bits_0; reflexivity.
Qed.

Lemma only_mthd_line : forall l, only any False False (parse_mthd_line l).
Proof.
  intros l. unfold parse_mthd_line. destruct (rfind format_re l) as [[|f [|? ?]]|] eqn:F; try exact I.
  apply format_digit in F as (c & -> & C). assert (P : parse_uint 16 [c] = Ok (c - 48)).
  { assert (X : c = 48 \/ c = 49 \/ c = 50) by lia. destruct X as [-> | [-> | ->]]; reflexivity. }
  rewrite P. cbn [bind]. destruct (rfind metrical_re l) as [[|d [|? ?]]|]; try exact I. eapply only_bind; [apply only_uint|]. intros v _ _.
  destruct (_ && _) eqn:A; [exact I|]. unfold make_mthd. replace (negb _) with false by lia.
  destruct (land_bit v) as [-> | L]; [exact I|]. rewrite L in *. cbn [Z.eqb Pos.eqb andb] in *. unfold smpte_fps.
  repeat match goal with |- context [if ?c then _ else _] => destruct c eqn:? end; try exact I. cbn in A. lia.
Qed.

Lemma has_prefix_comment : forall l, has_prefix (str "%%") l = true -> comment l.
Proof. intros l H. apply has_prefix_spec in H as [r ->]. exists r. reflexivity. Qed.

Lemma not_event : forall l, is_event_line l = false -> void_line l.
Proof.
  intros l H. unfold is_event_line in H. destruct (has_prefix _ l) eqn:E; [left; apply has_prefix_comment, E|]. right. intros x X V.
  rewrite (not_blank l x X V) in H. discriminate.
Qed.

Definition crash_line (ls : list bytes) : Prop := exists l, In l ls /\ occurs (str "SMPTEOffset") l.
Definition hang_line (ls : list bytes) : Prop := exists l, In l ls /\ occurs (str "TimeSignature") l.

Lemma only_events : forall ls tables, only (fun es => Forall writable es /\ (es = [] -> Forall void_line ls)) (crash_line ls) (hang_line ls) (parse_events tables ls).
Proof.
  induction ls as [|l ls IH]; intros tables; cbn [parse_events]; [split; constructor|].
  assert (G : only (fun es => Forall writable es /\ (es = [] -> Forall void_line ls)) (crash_line (l :: ls)) (hang_line (l :: ls)) (parse_events (fun i => tables (S i)) ls)).
  { eapply only_impl; [apply IH|auto| |]; intros (x & X & O); exists x; cbn [In]; auto. }
  destruct (is_event_line l) eqn:E.
  - eapply only_bind.
    { eapply only_impl; [apply only_event|intros x X; exact X| |]; intros O; exists l; cbn [In]; auto. }
    intros e _ W. eapply only_bind; [apply G|]. intros es _ [F _]. cbn [only]. split; [constructor; assumption|discriminate].
  - eapply only_impl; [apply G| |auto|auto]. intros es [F N]. split; [exact F|]. intros Z. constructor; [apply not_event, E|auto].
Qed.

Lemma close_writable : forall es, Forall writable es -> Forall writable (close_loop close_continuation (close_loop close_message es)).
Proof.
  assert (G : forall close, (forall e, writable e -> writable (close e)) -> forall es, Forall writable es -> Forall writable (close_loop close es)).
  { intros close C. induction es as [|e es IH]; intros H; [constructor|]. inversion H as [|? ? W F]; subst. destruct es as [|n es]; [exact H|].
    cbn [close_loop]. constructor; [destruct (is_continuation n); auto|apply IH, F]. }
  intros es H. apply G; [|apply G; [|exact H]]; intros e W.
  - unfold close_continuation. destruct (e_body e) eqn:E; try exact W. apply wr. exact I.
  - unfold close_message. destruct (e_body e) eqn:E; try exact W. apply wr. exact I.
Qed.

Definition fine (s : smf) : Prop := Forall (fun t => Forall writable (t_events t)) (f_tracks s).
Definition no_events (c : list bytes) : Prop := exists h t, c = h :: t /\ track_line h /\ Forall void_line t.

Lemma only_chunk : forall tables c s, one_chunk c -> fine s ->
  only (fun s' => fine s' /\ (f_mthd s <> None -> f_mthd s' <> None) /\ (header_line (hd [] c) -> ~ comment (hd [] c) -> f_mthd s' <> None))
    (crash_line c \/ no_events c \/ f_mthd s = None /\ ~ (header_line (hd [] c) /\ ~ comment (hd [] c))) (hang_line c) (assemble_chunk tables c s c).
Proof.
  intros tables c s (h & t & -> & T & N) F. cbn [assemble_chunk hd].
  assert (R : forall s', assemble_chunk tables (h :: t) s' t = Ok s').
  { intros s'. generalize (h :: t). clear T. intros c. induction N as [|l t N _ IH]; [reflexivity|]. cbn [assemble_chunk]. unfold assemble_line.
    replace (contains l (str "MThd")) with false by (destruct (contains l (str "MThd")) eqn:E; [exfalso; apply N; left; apply header_spec, E|reflexivity]).
    replace (contains l (str "MTrk")) with false by (destruct (contains l (str "MTrk")) eqn:E; [exfalso; apply N; right; apply contains_spec, E|reflexivity]).
    destruct (has_prefix _ l); exact IH. }
  apply only_bind with (q := (fun s' => fine s' /\ (f_mthd s <> None -> f_mthd s' <> None) /\ (header_line h -> ~ comment h -> f_mthd s' <> None)));
    [|intros s' _ Q; rewrite R; exact Q].
  unfold assemble_line. destruct (has_prefix (str "%%") h) eqn:C.
  { apply has_prefix_comment in C. cbn [only]. split; [exact F|split; tauto]. }
  assert (NC : ~ comment h) by (intros (r & ->); rewrite (proj2 (has_prefix_spec _ _)) in C; [discriminate|exists r; reflexivity]).
  destruct (contains h (str "MThd")) eqn:H.
  - eapply only_bind with (q := any); [|intros m _ _; cbn [only]; repeat split; try (exact F); discriminate].
    unfold parse_mthd. cbn [find]. rewrite H. eapply only_impl; [apply only_mthd_line|auto|tauto|tauto].
  - assert (NH : ~ header_line h) by (intro X; apply header_spec in X; congruence).
    destruct T as [T|T]; [contradiction|]. rewrite (proj2 (contains_spec h (str "MTrk")) T).
    apply only_bind with (q := Forall writable).
    + unfold parse_mtrk. cbn [after_mtrk]. rewrite (proj2 (contains_spec h (str "MTrk")) T).
      eapply only_bind.
      { eapply only_impl; [apply only_events|intros x X; exact X| |]; intros (x & X & O); [left|]; exists x; cbn [In]; auto. }
      intros es _ [W V]. destruct es as [|e es].
      * cbn [fixups only]. right. left. exists h, t. auto.
      * cbn [fixups only]. apply close_writable, W.
    + intros es _ W. destruct (f_mthd s) as [m|] eqn:M.
      * cbn [only]. repeat split; try discriminate. unfold fine. cbn [f_tracks]. apply Forall_app. split; [exact F|]. constructor; [exact W|constructor].
      * cbn [only]. right. right. split; [reflexivity|tauto].
Qed.

Lemma only_chunks : forall cs tables s, Forall one_chunk cs -> fine s -> f_mthd s <> None ->
  only fine (crash_line (concat cs) \/ Exists no_events cs) (hang_line (concat cs)) (assemble_chunks tables s cs).
Proof.
  induction cs as [|c cs IH]; intros tables s O F M; cbn [assemble_chunks]; [exact F|]. inversion O as [|? ? O1 O2]; subst.
  eapply only_bind.
  { eapply only_impl; [apply only_chunk; [exact O1|exact F]|intros x X; exact X| |].
    - intros [(l & L & K)|[K|[K _]]]; [left; exists l; split; [apply in_or_app; auto|exact K]|right; left; exact K|contradiction].
    - intros (l & L & K). exists l. split; [apply in_or_app; auto|exact K]. }
  intros s' _ (F' & M' & _). eapply only_impl; [apply IH; auto|auto| |].
  - intros [(l & L & K)|K]; [left; exists l; split; [apply in_or_app; auto|exact K]|right; right; exact K].
  - intros (l & L & K). exists l. split; [apply in_or_app; auto|exact K].
Qed.

Lemma marshal_all : forall es, Forall writable es -> exists bs, marshal_events es = Ok bs.
Proof.
  induction 1 as [|e es [b B] _ [bs E]]; [eexists; reflexivity|]. cbn [marshal_events]. rewrite B. cbn [bind]. rewrite E. eexists. reflexivity.
Qed.

Lemma only_encode : forall s, fine s -> only any False False (encode s).
Proof.
  intros s F. unfold encode. destruct (f_mthd s); [|exact I]. destruct (negb _); [exact I|]. eapply only_bind with (q := any); [|intros; exact I].
  unfold fine in F. induction F as [|t ts W _ IH]; [exact I|]. cbn [encode_tracks]. unfold encode_mtrk. destruct (marshal_all _ W) as [bs E]. rewrite E. cbn [bind].
  eapply only_bind; [exact IH|]. intros; exact I.
Qed.

(** Reading assembly text: what has to be in the text for a crash or a hang. *)
Lemma text_crash : forall tables text, 
  match assemble_text tables text with
  | Panic => exists lines, lines_of text lines /\
      ((exists l, In l lines /\ occurs (str "SMPTEOffset") l) \/ empty_track lines \/ comment_header lines)
  | Loop => exists lines l, lines_of text lines /\ In l lines /\ occurs (str "TimeSignature") l
  | Eof => False
  | _ => True
  end.
Proof.
  intros tables text. unfold assemble_text. destruct (read_chunks text) as [cs| | | |] eqn:R; cbn [bind]; try exact I.
  2-4: unfold read_chunks in R; destruct (scan_lines [] text) as [ls []]; discriminate.
  apply read_chunks_ok in R as (_ & lines & before & L & [D O] & B & H).
  assert (G : only any (crash_line (concat cs) \/ Exists no_events cs \/ comment_header lines) (hang_line (concat cs)) (do s <- assemble_chunks tables (SMF None []) cs; encode s)).
  { eapply only_bind with (q := fine); [|intros s _ F; eapply only_impl; [apply only_encode, F|auto|tauto|tauto]].
    destruct cs as [|c cs]; [constructor|]. inversion O as [|? ? O1 O2]; subst. cbn [assemble_chunks].
    assert (F0 : fine (SMF None [])) by constructor.
    destruct (has_prefix (str "%%") (hd [] c)) eqn:P.
    - eapply only_impl with (p := True) (l := hang_line (concat (c :: cs))) (q := fine); [|auto| |auto].
      + assert (G : forall cs tables s, Forall one_chunk cs -> fine s -> only fine True (hang_line (concat cs)) (assemble_chunks tables s cs)).
        { clear. induction cs as [|c cs IH]; intros tables s O F; cbn [assemble_chunks]; [exact F|]. inversion O as [|? ? O1 O2]; subst.
          eapply only_bind.
          { eapply only_impl; [apply only_chunk; [exact O1|exact F]|intros x X; exact X|auto|].
            intros (l & L & K). exists l. split; [apply in_or_app; auto|exact K]. }
          intros s' _ (F' & _). eapply only_impl; [apply IH; auto|auto|auto|].
          intros (l & L & K). exists l. split; [apply in_or_app; auto|exact K]. }
        apply (G (c :: cs)); assumption.
      + intros _. right. right. destruct O1 as (h & t & -> & _ & _). cbn [hd] in *. exists before, h, (t ++ concat cs).
        split; [reflexivity|]. repeat split; auto. apply has_prefix_comment, P.
    - assert (NC : ~ comment (hd [] c)) by (intros (r & E); rewrite E, (proj2 (has_prefix_spec _ _)) in P; [discriminate|exists r; reflexivity]).
      eapply only_bind.
      { eapply only_impl; [apply only_chunk; [exact O1|exact F0]|intros x X; exact X| |].
        - intros [(l & L' & K)|[K|[_ K]]]; [left; exists l; split; [apply in_or_app; auto|exact K]|right; left; left; exact K|exfalso; auto].
        - intros (l & L' & K). exists l. split; [apply in_or_app; auto|exact K]. }
      intros s' _ (F' & _ & M'). eapply only_impl; [apply only_chunks; auto|auto| |].
      + intros [(l & L' & K)|K]; [left; exists l; split; [apply in_or_app; auto|exact K]|right; left; right; exact K].
      + intros (l & L' & K). exists l. split; [apply in_or_app; auto|exact K]. }
  destruct (do s <- assemble_chunks tables (SMF None []) cs; encode s) as [x| | | |]; cbn [only] in G; try exact I; try contradiction.
  - exists lines. split; [exact L|]. destruct G as [(l & I' & K)|[E|E]]; [left; exists l; split; [subst lines; apply in_or_app; right; exact I'|exact K]| |right; right; exact E].
    right. left. apply Exists_exists in E as (c & C & h & t & -> & T & V). apply in_split in C as (a & b & ->).
    exists (before ++ concat a), h, t, (concat b). split; [|split; [exact T|split; [exact V|]]].
    + rewrite D, concat_app. cbn [concat]. rewrite <- !app_assoc. reflexivity.
    + apply Forall_app in O as [_ O]. inversion O as [|? ? _ O']; subst. destruct b as [|[|t' b'] b]; [left; reflexivity| |].
      * inversion O' as [|? ? (h' & t' & X & _) _]; discriminate.
      * right. inversion O' as [|? ? (h' & t'' & X & Y & _) _]; subst. injection X as -> ->. exists h', (t'' ++ concat b). split; [reflexivity|exact Y].
  - destruct G as (l & I' & K). exists lines, l. split; [exact L|]. split; [subst lines; apply in_or_app; right; exact I'|exact K].
Qed.
