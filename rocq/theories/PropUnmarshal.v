(** * Free-standing events (Event.UnmarshalBinary): C59 - C61.  Theorems only; proofs in UnmarshalProofs.v. *)
From Verif Require Import Base Strings Tables SpecVlq Vlq Event SpecEvent SpecPacket SpecCrash SpecTrack SpecUnmarshal
  Marshal Parse Track Unmarshal UnmarshalProofs.

(** C59, full statement: every complete event is read.
      forall env bs delta c, is_bytes bs -> event_bytes bs delta c -> ids_faithful env c ->
        exists e, event_unmarshal env bs = Ok e /\ ev_view e = (delta, c)
    That is false (below).  Proved: for everything but escapes and one-byte sequencer specific events, up to
    the continuation flag. *)
Theorem C59_reads_partial : forall env bs delta c, is_bytes bs -> event_bytes bs delta c -> read_alone c ->
  ids_faithful env c ->
  exists e, event_unmarshal env bs = Ok e /\ ev_view e = (delta, forget_end c) /\ e_tick e = 0 /\ e_bytes e = bs.
Proof. exact event_alone. Qed.
Print Assumptions C59_reads_partial.

(** So what [MarshalBinary] writes behind its delta time is read back. *)
Theorem C59_written_partial : forall env e, legal_event e -> read_alone (view (e_body e)) ->
  ids_faithful env (view (e_body e)) ->
  exists w e', marshal e = Ok w /\ event_unmarshal env (vlq_encode (e_delta e) ++ w) = Ok e' /\
    ev_view e' = (e_delta e, forget_end (view (e_body e))).
Proof. exact written_alone. Qed.
Print Assumptions C59_written_partial.

(** A tempo, and a note with a two-byte delta time. *)
Example C59_example :
  event_bytes [0; 255; 81; 3; 7; 161; 32] 0 (CTempo 500000) /\
  event_bytes [131; 96; 147; 64; 72] 480 (CNoteOn 3 64 72) /\
  legal_event (Event 7 480 [] 147 0 (NoteOn 3 (Note 64 [] []) 72)) /\
  exists e, event_unmarshal default_env [131; 96; 147; 64; 72] = Ok e /\ ev_view e = (480, CNoteOn 3 64 72).
Proof.
  split; [|split; [|split]].
  - apply (eb_meta [0] 0 81 [3] [7; 161; 32] (CTempo 500000)).
    + repeat split; apply vs_last; lia.
    + apply (mm_tempo 7 161 32); lia.
    + repeat split; apply vs_last; lia.
  - apply (eb_chan [131; 96] 480 147 [64; 72] (CNoteOn 3 64 72)).
    + repeat split. apply vs_more; [lia|]. apply vs_last. lia.
    + apply (cm_on 3 64 72); lia.
  - unfold legal_event, legal_header, vlq_max. cbn. lia.
  - eexists. split; [vm_compute; reflexivity|]. vm_compute. reflexivity.
Qed.

(** C59, findings: an escape comes back as a continuation, and without its final F7; the end flag of a
    continuation is lost; a sequencer specific event with a one-byte ID and no data is refused, although
    [MarshalBinary] writes it. *)
Theorem C59_escape_refuted : exists e e', marshal e = Ok [247; 2; 243; 247] /\ e_body e = SysExEscape [243; 247] /\
  event_unmarshal default_env [0; 247; 2; 243; 247] = Ok e' /\ e_body e' = SysExContinuation [243] false.
Proof.
  exists (Event 0 0 [] 247 0 (SysExEscape [243; 247])). eexists. split; [vm_compute; reflexivity|]. split; [reflexivity|].
  split; [vm_compute; reflexivity|]. reflexivity.
Qed.
Print Assumptions C59_escape_refuted.

Theorem C59_end_flag_refuted : exists e e', marshal e = Ok [247; 2; 1; 247] /\ e_body e = SysExContinuation [1] true /\
  event_unmarshal default_env [0; 247; 2; 1; 247] = Ok e' /\ e_body e' = SysExContinuation [1] false.
Proof.
  exists (Event 0 0 [] 247 0 (SysExContinuation [1] true)). eexists. split; [vm_compute; reflexivity|]. split; [reflexivity|].
  split; [vm_compute; reflexivity|]. reflexivity.
Qed.
Print Assumptions C59_end_flag_refuted.

Theorem C59_short_seqspec_refuted : exists e, legal_event e /\ marshal e = Ok [255; 127; 1; 67] /\
  event_unmarshal default_env [0; 255; 127; 1; 67] = Err /\
  exists e' c', parse default_env new_context 0 [0; 255; 127; 1; 67] = Ok (e', c', []) /\ ev_view e' = ev_view e.
Proof.
  exists (Event 0 0 [] 255 127 (SequencerSpecific (Manufacturer [67] [] []) [])).
  split; [|split; [vm_compute; reflexivity|split; [vm_compute; reflexivity|]]].
  - unfold legal_event, legal_header, vlq_max, legal_body. cbn [e_body e_status e_type e_delta m_id app].
    repeat split; try lia; [repeat constructor; lia|]. exists [67], []. split; [|reflexivity]. apply wi_one. lia.
  - eexists _, _. split; [vm_compute; reflexivity|]. vm_compute. reflexivity.
Qed.
Print Assumptions C59_short_seqspec_refuted.

(** C60, full statement: the two decoders accept the same single events and read the same from them.
      forall env bs, is_bytes bs ->
        (forall e, event_unmarshal env bs = Ok e -> exists e' c', parse env new_context 0 bs = Ok (e', c', []) /\ e_body e = e_body e')
        /\ (forall e' c', parse env new_context 0 bs = Ok (e', c', []) -> exists e, event_unmarshal env bs = Ok e)
    Both halves are false (below).  Proved: what both accept they read alike, F7 packets apart; and which of
    the messages that the track decoder accepts the other one refuses. *)
Theorem C60_agree_partial : forall env bs e e' c' rest, is_bytes bs ->
  event_unmarshal env bs = Ok e -> parse env new_context 0 bs = Ok (e', c', rest) ->
  e_delta e = e_delta e' /\ e_status e = e_status e' /\ e_type e = e_type e' /\
  (e_body e = e_body e' \/
   exists data d, e_status e = 247 /\ e_body e' = SysExEscape data /\ e_body e = SysExContinuation d false /\
     without_f7 data d).
Proof. exact decoders_agree. Qed.
Print Assumptions C60_agree_partial.

(** [crashes], [rejects] (SpecCrash.v): the track decoder does not take the message (C20). *)
Theorem C60_accepts_partial : forall env p delta k, is_bytes p -> shape 0 p delta k ->
  crashes false k = false -> rejects false k = false ->
  ((exists e, event_unmarshal env p = Ok e) <-> only_in_tracks k = false).
Proof. exact accepted_alone. Qed.
Print Assumptions C60_accepts_partial.

(** A bank select message: both take it and agree. *)
Example C60_example : shape 0 [0; 176; 0; 1] 0 (PChan 176 [0; 1]) /\ only_in_tracks (PChan 176 [0; 1]) = false /\
  exists e e' c', event_unmarshal default_env [0; 176; 0; 1] = Ok e /\
    parse default_env new_context 0 [0; 176; 0; 1] = Ok (e', c', []) /\ e_body e = e_body e'.
Proof.
  split; [|split; [reflexivity|]].
  - apply (sh_status 0 [0] 0 176 [0; 1]); [repeat split; apply vs_last; lia|lia|lia|lia|lia|reflexivity].
  - eexists _, _, _. split; [vm_compute; reflexivity|]. split; [vm_compute; reflexivity|]. vm_compute. reflexivity.
Qed.

(** C60, finding: an end of track without its length byte and a channel prefix with two data bytes are taken
    alone and not in a track. *)
Theorem C60_only_alone_refuted : exists b1 b2, b1 = [0; 255; 47] /\ b2 = [0; 255; 32; 2; 5; 9] /\
  (exists e, event_unmarshal default_env b1 = Ok e /\ e_body e = EndOfTrack) /\
  parse default_env new_context 0 b1 = Eof /\
  (exists e, event_unmarshal default_env b2 = Ok e /\ e_body e = MIDIChannelPrefix 5) /\
  parse default_env new_context 0 b2 = Panic.
Proof.
  eexists _, _. split; [reflexivity|]. split; [reflexivity|].
  split; [eexists; split; [vm_compute; reflexivity|]; reflexivity|]. split; [vm_compute; reflexivity|].
  split; [eexists; split; [vm_compute; reflexivity|]; reflexivity|]. vm_compute. reflexivity.
Qed.
Print Assumptions C60_only_alone_refuted.

(** C60, finding: a pitch bend whose first data byte is 200 is taken in a track and refused alone. *)
Theorem C60_only_in_tracks_refuted : exists bs, bs = [0; 224; 200; 0] /\ event_unmarshal default_env bs = Err /\
  exists e' c', parse default_env new_context 0 bs = Ok (e', c', []) /\ view (e_body e') = CBend 0 25600.
Proof.
  eexists. split; [reflexivity|]. split; [vm_compute; reflexivity|]. eexists _, _.
  split; [vm_compute; reflexivity|]. vm_compute. reflexivity.
Qed.
Print Assumptions C60_only_in_tracks_refuted.

(** C61, full statement: reading a free-standing event never panics.
      forall env bs, is_bytes bs -> event_unmarshal env bs <> Panic
    That is false (below).  Proved: exactly when it does ([crash_alone], SpecUnmarshal.v), and that it ends
    with an event or an error otherwise. *)
Theorem C61_crash_partial : forall env bs, is_bytes bs ->
  (event_unmarshal env bs = Panic <-> crash_alone bs) /\
  ((exists e, event_unmarshal env bs = Ok e) \/ event_unmarshal env bs = Err \/ event_unmarshal env bs = Panic).
Proof. exact crash_alone_iff. Qed.
Print Assumptions C61_crash_partial.

(** A text that announces five bytes and has one. *)
Example C61_example : is_bytes [0; 255; 1; 5; 65] /\ crash_alone [0; 255; 1; 5; 65].
Proof.
  split; [repeat constructor; lia|]. apply (ca_meta_short [0] 0 1 [5] 5 [65]);
    [repeat split; apply vs_last; lia|repeat split; apply vs_last; lia|unfold zlen; cbn; lia|reflexivity].
Qed.

(** C61, finding: that text, a sequence number of one byte, an empty F0 message, a sequencer specific event
    that ends inside a three-byte ID. *)
Theorem C61_never_panics_refuted : exists bss,
  bss = [[0; 255; 1; 5; 65]; [0; 255; 0; 1; 5]; [0; 240; 0]; [0; 255; 127; 2; 0; 1]] /\
  Forall (fun bs => is_bytes bs /\ event_unmarshal default_env bs = Panic) bss.
Proof.
  eexists. split; [reflexivity|].
  repeat (constructor; [split; [repeat constructor; lia|vm_compute; reflexivity]|]). constructor.
Qed.
Print Assumptions C61_never_panics_refuted.
