(** * The decoders of the single event types: C113.  Theorems only; proofs in TypedProofs.v. *)
From Verif Require Import Base Strings Tables SpecVlq Vlq Event SpecEvent SpecUnmarshal SpecTrack SpecAssemble Marshal Unmarshal Manufacturer Json TextEvent Typed SpecTyped JsonWriteProofs TypedProofs.

(** C113, bytes: the method of a kind reads a message of that kind ([addressed], SpecTyped.v) just as the decoder for all events does, and returns an error on
    every other input; it returns events of its kind only, and all that the decoder for all events returns of that kind. *)
Theorem C113_binary : forall env k f bs, In (k, f) (binary_methods env) -> is_bytes bs ->
  (forall st x, message bs st x -> addressed k st x -> k <> str "SysExEscape" -> f bs = event_unmarshal env bs) /\
  ((forall st x, message bs st x -> ~ addressed k st x) -> f bs = Err) /\
  (forall e, f bs = Ok e -> body_tag (e_body e) = k) /\
  (k <> str "SysExEscape" -> forall e, event_unmarshal env bs = Ok e /\ body_tag (e_body e) = k <-> f bs = Ok e).
Proof. exact typed_binary. Qed.
Print Assumptions C113_binary.

(** The method for escapes, which the decoder for all events never calls, reads every escape... *)
Theorem C113_escape : forall env f bs delta payload, In (str "SysExEscape", f) (binary_methods env) -> event_bytes bs delta (CEscape payload) ->
  exists e, f bs = Ok e /\ ev_view e = (delta, CEscape payload).
Proof. exact typed_escape. Qed.
Print Assumptions C113_escape.

(** ... and what MarshalBinary writes for one behind its delta time. *)
Theorem C113_escape_written : forall env f e data, In (str "SysExEscape", f) (binary_methods env) -> legal_event e -> e_body e = SysExEscape data ->
  exists w e', marshal e = Ok w /\ f (vlq_encode (e_delta e) ++ w) = Ok e' /\ ev_view e' = (e_delta e, CEscape data).
Proof. exact typed_written. Qed.
Print Assumptions C113_escape_written.

(** JSON: the method of a kind takes an object exactly if the decoder for all events takes it as an event of that kind, with the same result. *)
Theorem C113_json : forall env k f o e, In (k, f) (json_cases env) ->
  (f o = Ok e <-> unmarshal_json env (JObj [(str "event", JObj o)]) = Ok e /\ body_tag (e_body e) = k).
Proof. exact typed_json. Qed.
Print Assumptions C113_json.

(** Text: the method of a kind returns events of that kind only, and what the decoder for all lines returns comes from the method of its kind, whose name
    occurs in the line. *)
Theorem C113_text : forall table s e,
  (forall k f, In (k, f) (text_cases table) -> f s = Ok e -> body_tag (e_body e) = k) /\
  (unmarshal_text table s = Ok e -> occurs (body_tag (e_body e)) s /\ exists f, In (body_tag (e_body e), f) (text_cases table) /\ f s = Ok e).
Proof. exact typed_text. Qed.
Print Assumptions C113_text.

(** Every event has a method of each sort. *)
Theorem C113_kinds : forall env table b,
  (exists f, In (body_tag b, f) (binary_methods env)) /\ (exists f, In (body_tag b, f) (json_cases env)) /\ (exists f, In (body_tag b, f) (text_cases table)).
Proof. exact typed_kinds. Qed.
Print Assumptions C113_kinds.

(** A tempo, read as a tempo, as a key signature and as a note; the type with its top bit set; a note on. *)
Example C113_example : let tempo := [131; 96; 255; 81; 3; 7; 161; 32] in
  message tempo 255 81 /\ addressed (str "Tempo") 255 81 /\ ~ addressed (str "KeySignature") 255 81 /\ is_bytes tempo /\
  tempo_binary tempo = Ok (make_tempo 0 480 500000 tempo) /\ event_unmarshal default_env tempo = tempo_binary tempo /\
  key_signature_binary tempo = Err /\ note_on_binary default_env tempo = Err /\
  tempo_binary [0; 255; 209; 3; 7; 161; 32] = Ok (make_tempo 0 0 500000 [0; 255; 209; 3; 7; 161; 32]) /\
  note_on_binary default_env [0; 145; 60; 100] = event_unmarshal default_env [0; 145; 60; 100] /\ (exists e, note_on_binary default_env [0; 145; 60; 100] = Ok e).
Proof.
  cbv zeta. split; [exists [131; 96], [3; 7; 161; 32]; split; [apply vs_more; [lia|]; apply vs_last; lia|reflexivity]|].
  split; [apply ad_meta with (n := 81); [cbn [In meta_numbers]; tauto|lia]|].
  split; [rewrite (addressed_meta _ 89); [intros [_ A]; discriminate A|unfold is_byte; lia|cbn [In meta_numbers]; tauto]|].
  split; [apply check_bytes; vm_compute; reflexivity|]. repeat (split; [vm_compute; reflexivity|]). eexists. vm_compute. reflexivity.
Qed.

(** midi/events/sysex/escape_message_test.go:55-77 [TestSysExEscapeMessageUnmarshalBinary]; the decoder for all events takes the bytes for a continuation. *)
Example C113_escape_example : let bs := [131; 96; 247; 2; 243; 1] in
  escape_binary bs = Ok (make_escape 0 480 [243; 1] bs) /\ event_unmarshal default_env bs = Ok (make_continuation 0 480 [243; 1] false bs) /\
  event_bytes bs 480 (CEscape [243; 1]) /\ legal_event (make_escape 0 480 [243; 1] []).
Proof.
  cbv zeta. split; [vm_compute; reflexivity|]. split; [vm_compute; reflexivity|]. split.
  - apply (eb_escape [131; 96] 480 [2] [243; 1]).
    + split; [apply vs_more; [lia|]; apply vs_last; lia|]. split; [reflexivity|lia].
    + split; [apply vs_last; lia|]. split; [reflexivity|]. vm_compute. reflexivity.
  - unfold legal_event. vm_compute. repeat split; try discriminate; repeat constructor; discriminate.
Qed.

Example C113_json_example : let o := [(str "tag", JStr (str "Tempo")); (str "delta", JNum 480); (str "tempo", JNum 500000)] in
  json_tempo o = Ok (make_tempo 0 480 500000 []) /\ unmarshal_json default_env (JObj [(str "event", JObj o)]) = json_tempo o /\ json_port o = Err.
Proof. vm_compute. repeat split. Qed.

(** The converse does not hold for text: the method for lyrics takes a lyric that names another kind, the decoder for all lines does not. *)
Example C113_text_example :
  unmarshal_text manufacturers (str "delta:480 51 Tempo tempo:500000") = Ok (make_tempo 0 480 500000 []) /\ text_tempo (str "delta:480 51 Tempo tempo:500000") = Ok (make_tempo 0 480 500000 []) /\
  text_text KLyric (str "delta:0 05 Lyric Copyright") = Ok (make_text KLyric 0 0 (str "Copyright") []) /\ unmarshal_text manufacturers (str "delta:0 05 Lyric Copyright") = Err.
Proof. vm_compute. repeat split. Qed.
