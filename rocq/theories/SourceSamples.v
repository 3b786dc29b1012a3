(** * SourceSamples: sources for the examples of PropSource.v. *)
From Verif Require Import Base Strings Tables Event Track File Marshal NoteProofs SpecEvent SpecTrack SpecTable SpecDecimal SpecAssemble SpecSurvive SpecRead SpecLine Regex TextEvent Assemble TextAssemble
  Json SpecJsonEvent SpecSource Samples AssembleProofs JsonReadProofs TextProofs LineProofs LineSamples JsonEventProofs SourceProofs SourceTextProofs EventProofs.

(** ** JSON *)

Lemma json_file_of : forall env v o f d js ess, object v = Ok o ->
  field (str "header") read_header (JHeader None None None) o = Ok (JHeader (Some (str "MThd")) (Some f) (Some d)) -> header_values f d ->
  field (str "tracks") (fun _ v => do l <- Json.elements v; each read_track l) [] o = Ok js ->
  Forall2 (fun j es => jt_tag j = Some (str "MTrk") /\ each (unmarshal_json env) (jt_events j) = Ok es) js ess ->
  json_file (env_manufacturers env) (middle_octave env) v f d ess.
Proof.
  intros env v o f d js ess O H HV T E. destruct (under_some (str "header") o) as [lh UH]. rewrite (field_under _ _ _ _ _ _ UH) in H. apply headers_is in H as (r & TG & F1 & F2 & F3).
  destruct (under_some (str "tracks") o) as [lt UT]. rewrite (field_under _ _ _ _ _ _ UT) in T. exists o, lh, r, lt, (map plain js). split; [apply object_is, O|]. split; [exact UH|]. split; [exact TG|].
  split; [apply tag_is, F1|]. split; [apply figure_is, F2|]. split; [apply figure_is, F3|]. split; [exact HV|]. split; [exact UT|]. split; [apply tracks_over; eauto|].
  clear - E. induction E as [|j es js ess [A B] E IH]; cbn [map]; constructor; [|exact IH]. unfold plain. cbn [fst snd]. split; [exact A|]. apply (each_is _ _ _ (json_reads env)), B.
Qed.

Definition tagged_event (tag : string) (fields : list (bytes * json)) : json := JObj [(str "event", JObj ((str "tag", JStr (str tag)) :: fields))].

(** A system exclusive message in two packets, a note, the end; the header in two parts, and an empty list of tracks before the one that counts. *)
Definition source_doc : json :=
  JObj [(str "header", JObj [(str "tag", JStr (str "MThd")); (str "format", JNum 2); (str "PPQN", JNum 96)]); (str "tracks", JArr []);
        (str "Header", JObj [(str "format", JNum 0)]);
        (str "tracks", JArr [JObj [(str "tag", JStr (str "MTrk"));
          (str "events", JArr [tagged_event "SysExMessage" [(str "manufacturer", JObj [(str "id", JArr [JNum 67])]); (str "data", JArr [JNum 16; JNum 1])];
                               tagged_event "SysExContinuation" [(str "delta", JNum 10); (str "data", JArr [JNum 2; JNum 3])];
                               tagged_event "NoteOn" [(str "delta", JNum 480); (str "channel", JNum 9); (str "note", JObj [(str "value", JNum 60)]); (str "velocity", JNum 64)];
                               tagged_event "EndOfTrack" []])]])].

Definition source_events : list event :=
  [Event 0 0 [] 240 0 (SysExMessage (Manufacturer [67] (str "Japanese") (str "Yamaha")) [16; 1] false); Event 0 10 [] 247 0 (SysExContinuation [2; 3] false);
   Event 0 480 [] 153 0 (NoteOn 9 (Note 60 (str "C4") (str "C4")) 64); Event 0 0 [] 255 47 EndOfTrack].
Definition closed_events : list event :=
  [Event 0 0 [] 240 0 (SysExMessage (Manufacturer [67] (str "Japanese") (str "Yamaha")) [16; 1] false); Event 0 10 [] 247 0 (SysExContinuation [2; 3] true);
   Event 0 480 [] 153 0 (NoteOn 9 (Note 60 (str "C4") (str "C4")) 64); Event 0 0 [] 255 47 EndOfTrack].

Lemma source_says : json_file (env_manufacturers default_env) (middle_octave default_env) source_doc 0 96 [source_events].
Proof.
  eapply json_file_of; [vm_compute; reflexivity|vm_compute; reflexivity|unfold header_values; lia|vm_compute; reflexivity|].
  constructor; [|constructor]. split; vm_compute; reflexivity.
Qed.

Lemma source_closes : closes source_events closed_events.
Proof. apply closes_spec. vm_compute. reflexivity. Qed.

Ltac legal := split; [cbn; auto|split; [cbn [e_delta]; unfold SpecVlq.vlq_max; lia|cbn [e_body legal_body m_id app n_value]]].
Ltac octets := repeat (constructor; [split; vm_compute; congruence|]); constructor.

Lemma source_legal : legal_events closed_events.
Proof.
  split; [|cbn; auto]. unfold closed_events. constructor; [|constructor; [|constructor; [|constructor; [|constructor]]]]; legal.
  - split; [octets|]. unfold zlen, SpecVlq.vlq_max. cbn [length last]. lia.
  - split; [octets|]. unfold zlen, SpecVlq.vlq_max. cbn [length last]. auto with zarith.
  - lia.
  - exact I.
Qed.

Lemma source_faithful : faithful_events default_env closed_events.
Proof. unfold faithful_events, closed_events. repeat (apply Forall_cons; [cbn|]); try constructor. apply builtin_faithful; [apply wi_one; lia|discriminate]. Qed.

(** A pitch bend, in the middle position *)
Definition bend_doc : json :=
  JObj [(str "header", JObj [(str "tag", JStr (str "MThd")); (str "format", JNum 0); (str "PPQN", JNum 480)]);
        (str "tracks", JArr [JObj [(str "tag", JStr (str "MTrk")); (str "events", JArr [tagged_event "PitchBend" [(str "bend", JNum 8192)]; tagged_event "EndOfTrack" []])]])].
Definition bend_events : list event := [Event 0 0 [] 224 0 (PitchBend 0 8192); Event 0 0 [] 255 47 EndOfTrack].

Lemma bend_says : json_file (env_manufacturers default_env) (middle_octave default_env) bend_doc 0 480 [bend_events].
Proof.
  eapply json_file_of; [vm_compute; reflexivity|vm_compute; reflexivity|unfold header_values; lia|vm_compute; reflexivity|].
  constructor; [|constructor]. split; vm_compute; reflexivity.
Qed.

Lemma bend_lost : exists bs s, json_file (env_manufacturers default_env) (middle_octave default_env) bend_doc 0 480 [bend_events] /\ map ev_view bend_events = [(0, CBend 0 8192); (0, CEndOfTrack)] /\
  assemble_json default_env bend_doc = Ok bs /\ decode default_env bs = Ok s /\ map (fun t => map ev_view (t_events t)) (f_tracks s) = [[(0, CBend 0 4096); (0, CEndOfTrack)]].
Proof.
  destruct (assemble_json default_env bend_doc) as [bs| | | |] eqn:A; vm_compute in A; try discriminate A. exists bs. apply Ok_inj in A. subst bs.
  destruct (decode default_env _) as [s| | | |] eqn:D; vm_compute in D; try discriminate D. exists s. apply Ok_inj in D. subst s.
  split; [exact bend_says|]. repeat split.
Qed.

(** ** Text *)

Lemma text_file_of : forall says text cs hs h ts f d ess, read_chunks text = Ok cs -> uncommented cs (hs ++ h :: ts) ->
  Forall (fun c => exists f' d', header_chunk c f' d') hs -> header_chunk h f d -> Forall2 (track_chunk says) ts ess -> text_file says text f d ess.
Proof.
  intros says text cs hs h ts f d ess R U H1 H2 T. apply read_chunks_ok in R as (LL & lines & before & L & D & B & HD). exists lines, before, cs, hs, h, ts. rewrite first_chunk in HD. auto 10.
Qed.

Definition line (s : string) : bytes := str s ++ [10].

(** A header that does not count, a commented track, a comment, a blank line. *)
Definition source_text : bytes :=
  line "MThd format:2, metrical time:96 ppqn" ++ line "MThd length:6, format:1, tracks:7, metrical-time:0480 ppqn" ++ line "%% MTrk 1" ++ line "delta:0 Unknown" ++
  line "MTrk 2" ++ line "%% A controller:" ++ controller_line ++ [13; 10] ++ line "  " ++ str "delta:0 EndOfTrack".

Definition end_event : event := Event 0 0 [] 255 47 EndOfTrack.
Definition end_line : bytes := str "delta:0 EndOfTrack".

Lemma end_plainly : plainly [] end_line end_event.
Proof.
  split.
  - split; [exists (str "delta:0 "), []; vm_compute; reflexivity|]. intros t (i & j & L & I & J) O.
    assert (N : nth_error tag_order 16 = Some (str "EndOfTrack")) by reflexivity.
    assert (J' : j = 16%nat) by apply (tag_position_unique j 16%nat (str "EndOfTrack") J N). subst j. apply contains_spec in O.
    assert (C : forallb (fun t => negb (contains end_line t)) (firstn 16 tag_order) = true) by (vm_compute; reflexivity).
    rewrite forallb_forall in C. specialize (C t). rewrite O in C. discriminate C.
    apply (nth_error_In _ i). revert I. clear -L. do 16 (destruct i as [|i]; [intros I; exact I|]). lia.
  - split; [repeat split; intros; try discriminate; contradiction|]. exists [], (str "delta:"), (str "0"), (str " "), (str "EndOfTrack"), []. split.
    + split; [reflexivity|]. split; [apply spelled_same|]. split; [numeral|]. split; [stop|]. split; [cbn [e_delta end_event]; lia|].
      split; [vm_compute; intros C; repeat destruct C as [C|C]; discriminate || exact C|]. split; [apply spelled_same|]. constructor.
    + split; [apply first_check; vm_compute; reflexivity|]. split; [apply first_check; vm_compute; reflexivity|exact I].
Qed.

Lemma header_checked : forall l f d, parse_mthd_line l = Ok (mthd_of 0 f d) -> header_values f d -> header_says l f d.
Proof.
  intros l f d H HV. apply header_is_read in H as (f' & d' & H & E). pose proof (proj2 (proj2 H)) as HV'.
  destruct (mthd_of_fields 0 f d HV) as (_ & _ & A1 & _ & A2). destruct (mthd_of_fields 0 f' d' HV') as (_ & _ & B1 & _ & B2). rewrite <- E in B1, B2. replace f with f' by congruence. replace d with d' by congruence. exact H.
Qed.

Lemma text_says : text_file (fun l e => forall j i : nat, plainly [] l e) source_text 1 480 [[controller_event; end_event]].
Proof.
  eapply (text_file_of _ _ _ [_] _ [_]); [vm_compute; reflexivity| | | |].
  - cbn [app]. apply uc_chunk; [intros (r & E); discriminate|]. apply uc_chunk; [intros (r & E); discriminate|]. apply uc_comment; [eexists; reflexivity|].
    apply uc_chunk; [intros (r & E); discriminate|]. constructor.
  - constructor; [|constructor]. exists 2, 96. eexists. eexists. split; [reflexivity|]. split; [apply header_spec; vm_compute; reflexivity|]. apply header_checked; [vm_compute; reflexivity|unfold header_values; lia].
  - eexists. eexists. split; [reflexivity|]. split; [apply header_spec; vm_compute; reflexivity|]. apply header_checked; [vm_compute; reflexivity|unfold header_values; lia].
  - constructor; [|constructor]. eexists. eexists. split; [reflexivity|]. split; [intros K; apply header_spec in K; vm_compute in K; discriminate|]. split; [apply track_spec; vm_compute; reflexivity|].
    assert (NB : forall l, is_bytes l -> TextAssemble.blank l = false -> ~ blank_line l) by (intros l B H K; apply blank_is in K; [congruence|exact B]).
    apply ls_comment; [eexists; reflexivity|]. apply ls_event; [intros (r & E); discriminate|apply NB; [octets|vm_compute; reflexivity]| |].
    { intros _ _. split; [exact controller_kind|]. split; [exact controller_header|]. do 6 eexists. split; [exact controller_parts|exact controller_plain]. }
    apply ls_blank; [apply blank_is; [octets|vm_compute; reflexivity]|]. apply ls_event; [intros (r & E); discriminate|apply NB; [octets|vm_compute; reflexivity]|intros _ _; exact end_plainly|]. constructor.
Qed.

Lemma text_closes : closes [controller_event; end_event] [controller_event; end_event].
Proof. apply closes_spec. vm_compute. reflexivity. Qed.

Lemma text_legal : legal_events [controller_event; end_event].
Proof.
  split; [|cbn; auto]. constructor; [|constructor; [|constructor]]; unfold controller_event, end_event; legal; [|exact I]. change (c_id (lookup_controller 1)) with 1. lia.
Qed.

Lemma text_faithful : faithful_events default_env [controller_event; end_event].
Proof. repeat (apply Forall_cons; [exact I|]). constructor. Qed.

Lemma source_text_bytes : is_bytes source_text.
Proof. apply Forall_forall. intros c H. assert (B : forallb (fun c => (0 <=? c) && (c <? 256)) source_text = true) by (vm_compute; reflexivity). rewrite forallb_forall in B. specialize (B c H). unfold is_byte. lia. Qed.

(** ** Lines that are left out *)

(** A comment within a track that mentions the track; a tempo between the header and the first track. *)
Definition commented_lines : list bytes :=
  map str ["MThd format:0, metrical time:480 ppqn"; "MTrk"; "delta:0 NoteOn channel:0 note:C4, velocity:64"; "%% second half of the MTrk chunk"; "delta:480 NoteOff channel:0 note:C4, velocity:64";
           "delta:0 EndOfTrack"]%string.
Definition early_lines : list bytes := map str ["MThd format:0, metrical time:480 ppqn"; "delta:0 Tempo tempo:250000"; "MTrk"; "delta:0 EndOfTrack"]%string.
Definition text_of (lines : list bytes) : bytes := flat_map (fun l => l ++ [10]) lines.

Definition commented_bytes : bytes := str "MThd" ++ [0; 0; 0; 6; 0; 0; 0; 1; 1; 224] ++ str "MTrk" ++ [0; 0; 0; 4; 0; 144; 60; 64].
Definition early_bytes : bytes := str "MThd" ++ [0; 0; 0; 6; 0; 0; 0; 1; 1; 224] ++ str "MTrk" ++ [0; 0; 0; 4; 0; 255; 47; 0].
Definition dropped_note : event := Event 0 480 [] 128 0 (NoteOff 0 (Note 60 (str "C4") (str "C4")) 64).
Definition dropped_tempo : event := Event 0 0 [] 255 81 (Tempo 250000).

Lemma comment_ends_track : exists bs s, assemble_text (fun _ _ => []) (text_of commented_lines) = Ok bs /\ decode default_env bs = Ok s /\
  exists l e, In l commented_lines /\ line_says [] l e /\ (exists n, e_body e = NoteOff 0 n 64) /\
  Forall (fun t => Forall (fun e => forall c n v, e_body e <> NoteOff c n v) (t_events t)) (f_tracks s).
Proof.
  exists commented_bytes. destruct (decode default_env commented_bytes) as [s| | | |] eqn:D; vm_compute in D; try discriminate D. apply Ok_inj in D. subst s. eexists.
  split; [vm_compute; reflexivity|]. split; [reflexivity|]. exists (str "delta:480 NoteOff channel:0 note:C4, velocity:64"), dropped_note. split; [do 4 right; left; reflexivity|].
  split; [apply line_sound; vm_compute; reflexivity|]. split; [eexists; reflexivity|]. repeat constructor. discriminate.
Qed.

Lemma early_dropped : exists bs s, assemble_text (fun _ _ => []) (text_of early_lines) = Ok bs /\ decode default_env bs = Ok s /\
  exists l e, In l early_lines /\ line_says [] l e /\ e_body e = Tempo 250000 /\
  Forall (fun t => Forall (fun e => forall n, e_body e <> Tempo n) (t_events t)) (f_tracks s).
Proof.
  exists early_bytes. destruct (decode default_env early_bytes) as [s| | | |] eqn:D; vm_compute in D; try discriminate D. apply Ok_inj in D. subst s. eexists.
  split; [vm_compute; reflexivity|]. split; [reflexivity|]. exists (str "delta:0 Tempo tempo:250000"), dropped_tempo. split; [right; left; reflexivity|].
  split; [apply line_sound; vm_compute; reflexivity|]. split; [reflexivity|]. repeat constructor. discriminate.
Qed.
