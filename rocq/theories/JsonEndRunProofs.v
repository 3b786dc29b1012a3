(** * JsonEndRunProofs: how the assembly of a JSON file ends, from its text and from the command line. *)
From Verif Require Import Base Strings Tables Event Track File SpecTable NoteProofs Manufacturer Assemble TextAssemble TextEvent Json JsonText SpecJsonText JsonReadProofs JsonEventProofs SpecJsonEvent SpecSource SpecJsonEnd
  TextCrashProofs JsonEndProofs Flags Paths Cli SpecCli SpecRun FlagProofs CliProofs CliTripProofs RunProofs RunCommandProofs SpecExit.

(** ** Reading never crashes. *)

Lemma quiet_bind : forall A B (a : outcome A) (f : A -> outcome B), quiet a -> (forall x, a = Ok x -> quiet (f x)) -> quiet (bind a f).
Proof. intros A B a f Q F. destruct a; cbn [bind]; try exact Q. apply F. reflexivity. Qed.

Lemma quiet_unescape : forall n s, (length s <= n)%nat -> quiet (unescape s).
Proof.
  induction n as [|n IH]; intros s L; [destruct s; [exact I|cbn in L; lia]|]. destruct s as [|b r]; [exact I|]. cbn [unescape]. cbn [length] in L.
  destruct (b =? 34); [exact I|]. destruct (b =? 92).
  - destruct r as [|c r1]; [exact I|]. cbn [length] in L. destruct (c =? 117).
    + destruct r1 as [|h1 [|h2 [|h3 [|h4 r2]]]]; try exact I. cbn [length] in L. destruct (u4 h1 h2 h3 h4); [|exact I].
      assert (Q : forall p, quiet (do (t, rest) <- unescape r2; Ok (p ++ t, rest))) by (intros p; apply quiet_bind; [apply IH; lia|intros [t rest] _; exact I]).
      destruct (_ && _); [|apply Q]. destruct r2 as [|x [|y [|l1 [|l2 [|l3 [|l4 r3]]]]]]; try apply Q. cbn [length] in L.
      destruct (u4 l1 l2 l3 l4); [|apply Q]. destruct (_ && _); [|apply Q]. apply quiet_bind; [apply IH; lia|intros [t rest] _; exact I].
    + destruct (short_escape c); [|exact I]. apply quiet_bind; [apply IH; lia|intros [t rest] _; exact I].
  - destruct (b <? 32); [exact I|]. apply quiet_bind; [apply IH; lia|intros [t rest] _; exact I].
Qed.

Lemma quiet_quoted : forall s, quiet (read_quoted s).
Proof. intros s. unfold read_quoted. apply quiet_bind; [apply (quiet_unescape (length s)); lia|intros [t rest] _; exact I]. Qed.

Lemma quiet_number : forall s, quiet (number s).
Proof.
  intros s. unfold number. destruct (match s with c :: r => if c =? 45 then (true, r) else (false, s) | [] => (false, []) end) as [neg s1].
  apply quiet_bind; [destruct s1 as [|c r]; [exact I|cbn [int_part]; destruct (c =? 48); [exact I|destruct (is_dec c); exact I]]|]. intros [i s2] _.
  apply quiet_bind; [destruct s2 as [|c r]; [exact I|cbn [fraction]; destruct (c =? 46); [destruct (take_digits r) as [[|x y] z]; exact I|exact I]]|]. intros [f s3] _.
  apply quiet_bind; [|intros [e s4] _; exact I]. destruct s3 as [|c r]; [exact I|]. cbn [exponent]. destruct (_ || _); [|exact I].
  destruct (take_digits _) as [[|x y] z]; exact I.
Qed.

Lemma quiet_value : forall f, (forall d s, quiet (JsonText.value f d s)) /\ (forall d s, quiet (elems f d s)) /\ (forall d s, quiet (members f d s)).
Proof.
  induction f as [|f (IHv & IHe & IHm)]; [repeat split; intros; exact I|]. split; [|split]; intros d s.
  - cbn [JsonText.value]. destruct s as [|c r]; [exact I|]. destruct (c =? 123).
    { destruct (10000 <=? d); [exact I|]. destruct (skip r) as [|x r']; [exact I|]. destruct (x =? 125); [exact I|]. apply quiet_bind; [apply IHm|intros [o rest] _; exact I]. }
    destruct (c =? 91).
    { destruct (10000 <=? d); [exact I|]. destruct (skip r) as [|x r']; [exact I|]. destruct (x =? 93); [exact I|]. apply quiet_bind; [apply IHe|intros [o rest] _; exact I]. }
    destruct (c =? 34); [apply quiet_bind; [apply quiet_quoted|intros [o rest] _; exact I]|].
    destruct (c =? 116); [unfold literal; destruct (has_prefix _ _); exact I|]. destruct (c =? 102); [unfold literal; destruct (has_prefix _ _); exact I|].
    destruct (c =? 110); [unfold literal; destruct (has_prefix _ _); exact I|]. apply quiet_number.
  - cbn [elems]. apply quiet_bind; [apply IHv|]. intros [v r] _. destruct (skip r) as [|x r']; [exact I|]. destruct (x =? 44); [apply quiet_bind; [apply IHe|intros [l rest] _; exact I]|].
    destruct (x =? 93); exact I.
  - cbn [members]. destruct s as [|q r]; [exact I|]. destruct (q =? 34); [|exact I]. apply quiet_bind; [apply quiet_quoted|]. intros [k r1] _. destruct (skip r1) as [|x r2]; [exact I|].
    destruct (x =? 58); [|exact I]. apply quiet_bind; [apply IHv|]. intros [v r3] _. destruct (skip r3) as [|y r4]; [exact I|].
    destruct (y =? 44); [apply quiet_bind; [apply IHm|intros [l rest] _; exact I]|]. destruct (y =? 125); exact I.
Qed.

Lemma quiet_read : forall s, quiet (read_text s).
Proof. intros s. apply quiet_value. Qed.

(** ** Texts *)

Lemma document_separated : forall v o rest, fields_of_value v o -> separated v rest.
Proof. intros v o rest H. destruct H; exact I. Qed.

Lemma text_document : forall s (P : json -> Prop), is_bytes s -> (forall v, P v -> exists o, fields_of_value v o) ->
  (exists v rest, read_text s = Ok (v, rest) /\ P v) <-> exists v, starts_with_json s v /\ P v.
Proof.
  intros s P B F. split.
  - intros (v & rest & R & H). exists v. split; [|exact H]. destruct (accepted_only _ _ _ B R) as (w & t & E & W & T & D). exists w, t, rest. auto.
  - intros (v & (w & t & rest & -> & W & T & D) & H). destruct (F v H) as [o O]. exists v, rest. split; [|exact H]. apply accepted_all; [exact T|exact W|exact D|apply (document_separated v o rest O)].
Qed.

Lemma outline_object : forall v f d ts, outline v f d ts -> exists o, fields_of_value v o.
Proof. intros v f d ts (o & _ & _ & _ & O & _). exists o. exact O. Qed.

Lemma text_stops : forall env s x, (x = Panic \/ x = Loop) -> assemble_json_text env s = x <-> exists v rest, read_text s = Ok (v, rest) /\ assemble_json env v = x.
Proof.
  intros env s x X. unfold assemble_json_text. pose proof (quiet_read s) as Q. split.
  - destruct (read_text s) as [[v rest]| | | |]; cbn [bind quiet] in *; try contradiction; [intros H; exists v, rest; auto|]. intros <-. destruct X; discriminate.
  - intros (v & rest & -> & H). exact H.
Qed.

Theorem text_crashes : forall env s, is_bytes s -> assemble_json_text env s = Panic <-> exists v, starts_with_json s v /\ document_crashes (env_manufacturers env) (middle_octave env) v.
Proof.
  intros env s B. rewrite text_stops by auto. rewrite <- (text_document s (document_crashes (env_manufacturers env) (middle_octave env)) B).
  - split; intros (v & rest & R & H); exists v, rest; (split; [exact R|apply document_crash, H]).
  - intros v (f & d & a & t & b & O & _). apply (outline_object _ _ _ _ O).
Qed.

Theorem text_hangs : forall env s, is_bytes s -> assemble_json_text env s = Loop <-> exists v, starts_with_json s v /\ document_hangs (env_manufacturers env) (middle_octave env) v.
Proof.
  intros env s B. rewrite text_stops by auto. rewrite <- (text_document s (document_hangs (env_manufacturers env) (middle_octave env)) B).
  - split; intros (v & rest & R & H); exists v, rest; (split; [exact R|apply document_hang, H]).
  - intros v (f & d & a & t & b & O & _). apply (outline_object _ _ _ _ O).
Qed.

Theorem text_assembles : forall env s, is_bytes s ->
  (exists bs, assemble_json_text env s = Ok bs) <-> exists v, starts_with_json s v /\ document_well (env_manufacturers env) (middle_octave env) v.
Proof.
  intros env s B. rewrite <- (text_document s (document_well (env_manufacturers env) (middle_octave env)) B).
  - unfold assemble_json_text. split.
    + intros [bs H]. apply bind_ok in H as ([v rest] & R & H). exists v, rest. split; [exact R|apply document_file; eauto].
    + intros (v & rest & -> & H). apply document_file in H. exact H.
  - intros v (f & d & ts & O & _). apply (outline_object _ _ _ _ O).
Qed.

Theorem text_never : forall env s, assemble_json_text env s <> Eof.
Proof.
  intros env s. unfold assemble_json_text. pose proof (quiet_read s) as Q. destruct (read_text s) as [[v rest]| | | |]; cbn [bind quiet] in *; try contradiction; [apply document_never|discriminate].
Qed.

(** ** Runs *)

Lemma bytes_nil : forall o, bytes_eqb o [] = true <-> o = [].
Proof. intros o. apply bytes_eqb_eq. Qed.

Ltac parted := repeat match goal with |- _ /\ _ => split | |- _ <-> _ => split end;
  try (intros K; discriminate K); try (intros [_ [? K]]; discriminate K); try (intros _; reflexivity); tauto.

Theorem json_run_ends : forall w d args vs file c4 out src, asked (str "assemble") args vs file -> bool_setting (str "C4") vs c4 -> string_setting (str "out") vs out ->
  let middle := middle_octave (Env c4 manufacturers) in
  holds w d file src -> is_bytes src -> ends_with file (str ".json") ->
  let e := r_ending (run w d (str "assemble" :: args)) in
  (e = Exit 0 <-> can_write w out /\ exists v, starts_with_json src v /\ document_well manufacturers middle v) /\
  (e = Crashed <-> exists v, starts_with_json src v /\ document_crashes manufacturers middle v) /\
  (e = Hung <-> exists v, starts_with_json src v /\ document_hangs manufacturers middle v) /\
  In e [Exit 0; Exit 1; Crashed; Hung].
Proof.
  intros w d args vs file c4 out src A S4 So middle [N R0] B (q & X) e. subst e.
  destruct (same_files w d Assemble_ args vs file _ A) with (c4 := c4) (out := out) as (rest & E & R & E4 & Eo); [cbn; auto 10|assumption|assumption|].
  rewrite R. unfold execute. rewrite E, E4, Eo. unfold run_assemble. unfold read_file. rewrite bytes_eqb_false by exact N. rewrite R0.
  rewrite X, json_ext, bytes_eqb_refl. set (env := Env c4 manufacturers) in *.
  pose proof (text_crashes env src B) as TC. pose proof (text_hangs env src B) as TH. pose proof (text_assembles env src B) as TA. pose proof (text_never env src) as TN.
  change (env_manufacturers env) with manufacturers in *. fold middle in TC, TH, TA. rewrite <- TC, <- TH, <- TA. clear TC TH TA. unfold written, can_write.
  destruct (assemble_json_text env src) as [bs| | | |] eqn:Ea; cbn [stopped ends r_ending In].
  2: { parted. }
  2: { destruct TN; reflexivity. }
  2: { parted. }
  2: { parted. }
  destruct (bytes_eqb out []) eqn:O; [apply bytes_eqb_eq in O|].
  { cbn [r_ending ends]. split; [split; [intros _; split; [left; exact O|exists bs; reflexivity]|reflexivity]|]. parted. }
  assert (O' : out <> []) by (intros ->; discriminate O).
  destruct (w_creatable w out) eqn:C; cbn [r_ending ends].
  - split; [split; [intros _; split; [right; reflexivity|exists bs; reflexivity]|reflexivity]|]. parted.
  - split; [split; [discriminate|intros [[H|H] _]; [contradiction|discriminate]]|]. parted.
Qed.
