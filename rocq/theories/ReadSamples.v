(** * ReadSamples: concrete files whose lines cannot be read again; lemmas for the examples of PropText.v. *)
From Verif Require Import Base Strings Tables Event Track File SpecEvent SpecTable SpecAssemble SpecNote SpecSurvive SpecRead Utf8 Hex Disassemble Regex TextEvent
  AssembleProofs EventProofs Samples.

(** A file of one track with the events given as bytes. *)
Definition file_of (events : bytes) : bytes := single_header ++ sample_track (events ++ [0; 255; 47; 0]).

(** Text with leading spaces, text of two lines, marker with the text "Text A", note 0, time signatures with 19 and 0 thirty-second notes per
    quarter note and with the denominator exponent 8, a message with an unlisted manufacturer. *)
Definition indented : bytes := [0; 255; 1; 4; 32; 32; 72; 105].
Definition two_lines : bytes := [0; 255; 1; 3; 65; 10; 66].
Definition marker_text : bytes := [0; 255; 6; 6; 84; 101; 120; 116; 32; 65].
Definition low_note : bytes := [0; 144; 0; 64].
Definition signature19 : bytes := [0; 255; 88; 4; 4; 2; 24; 19].
Definition signature0 : bytes := [0; 255; 88; 4; 4; 2; 24; 0].
Definition signature_exponent : bytes := [0; 255; 88; 4; 4; 8; 24; 8].
Definition unlisted : bytes := [0; 240; 4; 96; 1; 2; 247].

Definition first_event (events : bytes) : event :=
  match decode default_env (file_of events) with
  | Ok (SMF _ [t]) => hd (Event 0 0 [] 0 0 EndOfTrack) (t_events t)
  | _ => Event 0 0 [] 0 0 EndOfTrack
  end.

(** The line of the event, without its line feed. *)
Definition first_line (events : bytes) : bytes :=
  match event_line (first_event events) with Ok l => removelast l | _ => [] end.

Definition reads_as (events : bytes) (o : outcome body) : Prop :=
  exists s t r, decode default_env (file_of events) = Ok s /\ f_tracks s = [t] /\ t_events t = first_event events :: r /\
    event_line (first_event events) = Ok (first_line events ++ [10]) /\
    (do e <- unmarshal_text manufacturers (first_line events); Ok (e_body e)) = o.

Lemma clean_text : forall b, existsb (contains (free_text b)) tag_order = false -> ~ misleading b.
Proof.
  intros b E (t & (i & j & L & I & J) & O). apply contains_spec in O.
  assert (existsb (contains (free_text b)) tag_order = true) by (apply existsb_exists; exists t; split; [eapply nth_error_In, I|exact O]). congruence.
Qed.

Lemma plain_const : forall s, forallb (fun c => negb (c =? 10)) s && match s with [] => true | c :: _ => negb ((c =? 9) || (c =? 10) || (c =? 12) || (c =? 13) || (c =? 32)) end = true -> plain_text s.
Proof.
  intros s E. apply andb_prop in E as [A B]. split.
  - intros I. rewrite forallb_forall in A. specialize (A 10 I). discriminate.
  - intros c r ->. unfold white_space. lia.
Qed.

Lemma well_named_const : forall k m, In (k, m) manufacturers -> forallb (fun c => negb (c =? 10) && negb (c =? 44)) (m_name m) = true ->
  match m_name m with [] => true | c :: _ => negb ((c =? 9) || (c =? 10) || (c =? 12) || (c =? 13) || (c =? 32)) end = true -> well_named manufacturers m.
Proof.
  intros k m I A B. split; [exists k; exact I|]. split; [apply builtin_distinct|]. split.
  - split; [|intros c r E; rewrite E in B; unfold white_space; lia]. intros J. rewrite forallb_forall in A. specialize (A 10 J). discriminate.
  - intros J. rewrite forallb_forall in A. specialize (A 44 J). discriminate.
Qed.

(** All events of the sample file can be read. *)
Lemma sample_readable : Forall (fun t => Forall (fun e => ~ misleading (e_body e) /\ readable manufacturers (e_body e)) (t_events t)) (f_tracks sample_smf).
Proof.
  assert (M : Forall (fun t => Forall (fun e => ~ misleading (e_body e)) (t_events t)) (f_tracks sample_smf)).
  { assert (E : forallb (fun t => forallb (fun e => negb (existsb (contains (free_text (e_body e))) tag_order)) (t_events t)) (f_tracks sample_smf) = true)
      by (vm_compute; reflexivity).
    apply Forall_forall. intros t I. apply Forall_forall. intros e J. rewrite forallb_forall in E. specialize (E t I). rewrite forallb_forall in E.
    specialize (E e J). apply clean_text. destruct (existsb _ _); [discriminate|reflexivity]. }
  assert (R : Forall (fun t => Forall (fun e => readable manufacturers (e_body e)) (t_events t)) (f_tracks sample_smf)).
  { let x := eval vm_compute in (f_tracks sample_smf) in assert (X : f_tracks sample_smf = x) by (vm_compute; reflexivity). rewrite X.
    repeat (apply Forall_cons; cbn [t_events e_body readable]); try apply Forall_nil; auto; try (cbn [n_value]; lia); try (apply plain_const; reflexivity).
    apply (well_named_const [52; 51]); [|reflexivity|reflexivity]. 
    assert (B : existsb (fun e => bytes_eqb (fst e) [52; 51]) manufacturers = true) by (vm_compute; reflexivity).
    vm_compute. repeat (first [left; reflexivity|right]). }
  rewrite Forall_forall in *. intros t I. specialize (M t I). specialize (R t I). rewrite Forall_forall in *. intros e J. split; [apply M|apply R]; exact J.
Qed.

Ltac read_sample := do 3 eexists; split; [vm_compute; reflexivity|split; [vm_compute; reflexivity|split; [vm_compute; reflexivity|split; vm_compute; reflexivity]]].

Lemma low_note_rejected : exists x, parse_note (format_note default_env false 0) = Ok x /\ n_value x = 0 /\
  exists events, reads_as events Err /\ e_body (first_event events) = NoteOn 0 (Note 0 (str "C-1") (str "C-1")) 64.
Proof. eexists. split; [vm_compute; reflexivity|]. split; [reflexivity|]. exists low_note. split; [read_sample|vm_compute; reflexivity]. Qed.

Lemma marker_read_as_text : exists events, e_body (first_event events) = TextEvent KMarker (str "Text A") /\ misleading (TextEvent KMarker (str "Text A")) /\
  reads_as events (Ok (TextEvent KText (str "A"))).
Proof.
  exists marker_text. split; [vm_compute; reflexivity|]. split; [|read_sample]. exists (str "Text"). split.
  - exists 1%nat, 6%nat. split; [lia|]. split; reflexivity.
  - exists [], (str " A"). reflexivity.
Qed.

Lemma text_lost :
  (exists events, e_body (first_event events) = TextEvent KText (str "  Hi") /\ reads_as events (Ok (TextEvent KText (str "Hi")))) /\
  (exists events, e_body (first_event events) = TextEvent KText [65; 10; 66] /\ reads_as events (Ok (TextEvent KText (str "A")))).
Proof. split; [exists indented|exists two_lines]; (split; [vm_compute; reflexivity|read_sample]). Qed.

Lemma lines_rejected :
  (exists events, e_body (first_event events) = TimeSignature 4 4 24 19 /\ reads_as events Err) /\
  (exists events, e_body (first_event events) = TimeSignature 4 4 24 0 /\ reads_as events Err) /\
  (exists events, e_body (first_event events) = TimeSignature 4 0 24 8 /\ reads_as events Err) /\
  (exists events, e_body (first_event events) = SysExMessage (Manufacturer [96] (str "<unknown>") (str "<unknown>")) [1; 2] true /\ reads_as events Err).
Proof.
  split; [exists signature19|split; [exists signature0|split; [exists signature_exponent|exists unlisted]]];
    (split; [vm_compute; reflexivity|read_sample]).
Qed.
