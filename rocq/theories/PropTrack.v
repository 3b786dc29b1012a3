(** * Tracks: C14, C15, C17, C18, C19, C29, C31, C32, C54.  Theorems only; proofs in TrackProofs.v and
    HistoryProofs.v.

    [decode_events env new_context r] (Track.v) decodes the payload [r] of a track chunk; a track chunk is
    "MTrk", a length and the payload ([unmarshal_mtrk]). *)
From Verif Require Import Base Strings Tables SpecVlq Vlq Event SpecEvent SpecPacket SpecHistory SpecFramed SpecNote Marshal Parse
  Track File SpecTrack NoteProofs TrackProofs HistoryProofs EventProofs Samples SampleProofs LossSamples.

(** C14, full statement: for every track of well-formed events.
      forall t, well_formed (t_events t) -> ... map ev_view (t_events t') = map ev_view (t_events t)
    That is false for pitch bends above 127 (C09), texts above 127 bytes (C10), long sequencer specific
    events (C13) and the flag of the last packet of a multi-packet SysEx (C12).  Proved: for all other
    events ([legal_events]; [contents] forgets that flag), in any number and mix. *)
Theorem C14_track_roundtrip_partial : forall env n t w,
  t_tag t = str "MTrk" -> legal_events (t_events t) -> faithful_events env (t_events t) ->
  encode_mtrk t = Ok w ->
  exists t', unmarshal_mtrk env n new_context w = Ok t' /\ map ev_view (t_events t') = contents (t_events t) /\
    (total_delta (t_events t) < 4294967296 ->
     forall i e, nth_error (t_events t') i = Some e -> e_tick e = total_delta (firstn (S i) (t_events t))).
Proof. exact written_track. Qed.
Print Assumptions C14_track_roundtrip_partial.

(** The second track of the sample file: key signature, bank select, notes, text, system exclusive. *)
Example C14_example : exists t w, nth_error (f_tracks sample_smf) 1 = Some t /\ length (t_events t) = 11%nat /\
  t_tag t = str "MTrk" /\ legal_events (t_events t) /\ faithful_events default_env (t_events t) /\
  encode_mtrk t = Ok w.
Proof.
  destruct sample_tracks as (h & t0 & t1 & _ & E2 & _ & _ & _ & _ & _ & T1 & L1 & F1 & _ & N).
  exists t1. rewrite E2. destruct (encode_mtrk t1) eqn:E; [eexists; repeat split; eauto; apply L1|..];
  exfalso; assert (X : nth_error (f_tracks sample_smf) 1 = Some t1) by (rewrite E2; reflexivity);
  vm_compute in X; injection X as <-; vm_compute in E; discriminate E.
Qed.

(** C14, finding: a text of 256 bytes comes back as an empty text, and what it says is taken for events: here for 64 notes. *)
Theorem C14_text_refuted : exists t w t', unmarshal_mtrk default_env 0 new_context (str "MTrk" ++ [0; 0; 1; 9] ++ loud_body) = Ok t /\
  map ev_view (t_events t) = [(0, CText KText loud_text); (0, CEndOfTrack)] /\ encode_mtrk t = Ok w /\ unmarshal_mtrk default_env 0 new_context w = Ok t' /\
  map ev_view (t_events t') = (0, CText KText []) :: repeat (0, CNoteOn 0 60 64) 64 ++ [(0, CEndOfTrack)].
Proof. witness. Qed.
Print Assumptions C14_text_refuted.

(** C15, full statement: for all event lists.
      forall t, encode_mtrk t = Ok (tag ++ length ++ body) -> decoding body = decoding the body with
      every status byte written out
    That is false when an event is itself written with a wrong length (C10, C13; below).  Proved: for all
    event lists whose events are written as one message each ([plain_track], SpecFramed.v), including
    pitch bends and all other events that do not survive for other reasons. *)
Theorem C15_running_status_partial : forall env t plain, plain_track (t_events t) plain ->
  exists body, encode_mtrk t = Ok (t_tag t ++ be32 (zlen body mod 4294967296) ++ body) /\
    without_bytes (decode_events env new_context body) = without_bytes (decode_events env new_context plain).
Proof. exact compression_transparent. Qed.
Print Assumptions C15_running_status_partial.

(** Every legal track satisfies the hypothesis. *)
Theorem C15_legal_tracks : forall es, Forall legal_event es -> exists plain, plain_track es plain.
Proof. exact legal_plain. Qed.
Print Assumptions C15_legal_tracks.

Example C15_example : exists body,
  encode_mtrk (MTrk (str "MTrk") 0 0 []
     [Event 0 0 [] 144 0 (NoteOn 0 (Note 60 [] []) 64); Event 0 1 [] 144 0 (NoteOn 0 (Note 64 [] []) 64);
      Event 0 2 [] 144 0 (NoteOn 0 (Note 67 [] []) 64)] None) = Ok (str "MTrk" ++ be32 (zlen body) ++ body) /\
  body = [0; 144; 60; 64; 1; 64; 64; 2; 144; 67; 64].
Proof. exists [0; 144; 60; 64; 1; 64; 64; 2; 144; 67; 64]. split; reflexivity. Qed.

(** C15, finding: after a text of 129 bytes the omitted status byte matters. *)
Theorem C15_running_status_refuted : exists es cs body es' c',
  marshal_events es = Ok cs /\
  encode_mtrk (MTrk (str "MTrk") 0 0 [] es None) = Ok (str "MTrk" ++ be32 (zlen body) ++ body) /\
  decode_events default_env new_context (concat (map (fun c => fst c ++ snd c) cs)) = Ok (es', c') /\
  decode_events default_env new_context body = Err.
Proof.
  exists [Event 0 0 [] 255 1 (TextEvent KText (4 :: repeat 65 128)); Event 0 0 [] 144 0 (NoteOn 0 (Note 60 [] []) 64);
          Event 0 0 [] 144 0 (NoteOn 0 (Note 64 [] []) 64)].
  eexists. exists ([0; 255; 1; 129; 4] ++ repeat 65 128 ++ [0; 144; 60; 64; 0; 64; 64]). do 2 eexists.
  witness.
Qed.
Print Assumptions C15_running_status_refuted.

(** C17.  [p] is any decodable prefix of complete events; [running_after] (SpecHistory.v) is the status of
    the last event if it is a channel event, else 0. *)
Theorem C17_running_status : forall env p es c', is_bytes p ->
  decode_events env new_context p = Ok (es, c') -> concat (map e_bytes es) = p ->
  forall d delta b x, reads d delta -> 0 <= b < 128 ->
  (running_after es = 0 -> decode_events env new_context (p ++ d ++ b :: x) = Err) /\
  (forall st, running_after es = st -> st <> 0 ->
     without_bytes (decode_events env new_context (p ++ d ++ b :: x)) =
     without_bytes (decode_events env new_context (p ++ d ++ st :: b :: x))).
Proof. exact running_status. Qed.
Print Assumptions C17_running_status.

(** A note, then a meta event. *)
Example C17_example : exists p es c' p2 es2 c2,
  p = [0; 144; 60; 64] /\ decode_events default_env new_context p = Ok (es, c') /\ concat (map e_bytes es) = p /\
  running_after es = 144 /\ reads [131; 96] 480 /\
  p2 = [0; 144; 60; 64; 0; 255; 1; 1; 65] /\ decode_events default_env new_context p2 = Ok (es2, c2) /\
  concat (map e_bytes es2) = p2 /\ running_after es2 = 0.
Proof.
  witness.
  split; [apply vs_more; [lia|apply vs_last; lia]|reflexivity].
Qed.

(** C18. *)
Theorem C18_ticks : forall env r es c', is_bytes r -> decode_events env new_context r = Ok (es, c') ->
  total_delta es < 4294967296 ->
  (forall i e, nth_error es i = Some e -> e_tick e = total_delta (firstn (S i) es)) /\
  (forall i j e f, (i <= j)%nat -> nth_error es i = Some e -> nth_error es j = Some f -> e_tick e <= e_tick f).
Proof. exact ticks_sum. Qed.
Print Assumptions C18_ticks.

(** Without the bound: the sum before the event is taken modulo 2^32. *)
Theorem C18_ticks_wrapped : forall env r es c', is_bytes r -> decode_events env new_context r = Ok (es, c') ->
  forall i e, nth_error es i = Some e ->
    e_tick e = total_delta (firstn i es) mod 4294967296 + e_delta e /\ 0 <= e_delta e.
Proof. exact ticks. Qed.
Print Assumptions C18_ticks_wrapped.

Example C18_example : exists es c', decode_events default_env new_context sample_body1 = Ok (es, c') /\
  total_delta es < 4294967296 /\ map e_tick es = [0; 0; 0; 0; 0; 240; 336; 336; 816; 816; 816].
Proof. witness. Qed.

(** C19.  What is left over is not, and does not start with, a complete message. *)
Theorem C19_bytes_accounted : forall env r es c', is_bytes r -> decode_events env new_context r = Ok (es, c') ->
  exists rest, r = concat (map e_bytes es) ++ rest /\
    (forall p x delta k, rest = p ++ x -> ~ shape (running_after es) p delta k).
Proof. exact bytes_accounted. Qed.
Print Assumptions C19_bytes_accounted.

Example C19_example : exists es c', decode_events default_env new_context (sample_body1 ++ [0; 144; 60]) = Ok (es, c') /\
  concat (map e_bytes es) = sample_body1 /\ length es = 11%nat.
Proof. witness. Qed.

(** C29.  [note_name] (SpecNote.v), [flats_in_force] and [latest] (SpecHistory.v). *)
Theorem C29_note_names : forall env r es c', is_bytes r -> decode_events env new_context r = Ok (es, c') ->
  (forall i e ch n v, nth_error es i = Some e -> e_body e = NoteOn ch n v ->
     note_name (middle_octave env) (flats_in_force (firstn i es)) (n_value n) (n_name n)) /\
  (forall i e ch n v, nth_error es i = Some e -> e_body e = NoteOff ch n v ->
     match latest (note_on_name ch (n_value n)) (firstn i es) with
     | Some s => n_name n = s
     | None => note_name (middle_octave env) (flats_in_force (firstn i es)) (n_value n) (n_name n)
     end).
Proof. exact note_names. Qed.
Print Assumptions C29_note_names.

(** NoteOn 61 without key signature, key signature with flats, NoteOff 61, NoteOff 61 on another channel. *)
Example C29_example : exists es c',
  decode_events default_env new_context [0; 144; 61; 64; 0; 255; 89; 2; 254; 0; 0; 128; 61; 0; 0; 129; 61; 0] = Ok (es, c') /\
  map (fun e => match e_body e with NoteOff _ n _ | NoteOn _ n _ => n_name n | _ => [] end) es =
  [str "C♯4"; []; str "C♯4"; str "D♭4"].
Proof. witness. Qed.

(** C31, full statement: bank = 128 * MSB + LSB.
      bank = 128 * latest_or_0 (select_msb ch) before + latest_or_0 (select_lsb ch) before
    That is false for values of 64 and more (below).  Proved: what is shown for all values, which agrees
    with the full statement for values below 64. *)
Theorem C31_bank_partial : forall env r es c', is_bytes r -> decode_events env new_context r = Ok (es, c') ->
  forall i e ch bank p, nth_error es i = Some e -> e_body e = ProgramChange ch bank p ->
    bank = 128 * (latest_or_0 (select_msb ch) (firstn i es) mod 64) + latest_or_0 (select_lsb ch) (firstn i es) mod 64.
Proof. exact bank_history. Qed.
Print Assumptions C31_bank_partial.

Example C31_example : exists es c', decode_events default_env new_context
    [0; 176; 0; 3; 0; 177; 0; 9; 0; 176; 32; 5; 0; 192; 1] = Ok (es, c') /\
  map (fun e => match e_body e with ProgramChange _ b _ => b | _ => -1 end) es = [-1; -1; -1; 389].
Proof. witness. Qed.

(** C31, finding: Bank Select LSB 64 is shown as bank 0. *)
Theorem C31_bank_refuted : exists r es c' i e ch bank p, is_bytes r /\ decode_events default_env new_context r = Ok (es, c') /\
  nth_error es i = Some e /\ e_body e = ProgramChange ch bank p /\
  latest_or_0 (select_msb ch) (firstn i es) = 0 /\ latest_or_0 (select_lsb ch) (firstn i es) = 64 /\ bank = 0.
Proof.
  exists [0; 176; 32; 64; 0; 192; 1]. eexists. eexists. exists 1%nat. witness.
  repeat constructor; discriminate.
Qed.
Print Assumptions C31_bank_refuted.

(** C32.  [sysex_open] (SpecHistory.v). *)
Theorem C32_sysex_packets : forall env r es c', is_bytes r -> decode_events env new_context r = Ok (es, c') ->
  forall i e, nth_error es i = Some e ->
  (e_status e = 247 ->
     if sysex_open (firstn i es) then exists d fin, e_body e = SysExContinuation d fin else exists d, e_body e = SysExEscape d) /\
  (e_status e = 240 -> sysex_open (firstn i es) = false /\ exists m d, e_body e = SysExMessage m d (last (e_bytes e) 0 =? 247)).
Proof. exact sysex_history. Qed.
Print Assumptions C32_sysex_packets.

Theorem C32_sysex_interrupted : forall env p es c', is_bytes p -> decode_events env new_context p = Ok (es, c') ->
  concat (map e_bytes es) = p -> sysex_open es = true ->
  forall d delta l data rest, reads d delta -> reads_len l data ->
    decode_events env new_context (p ++ d ++ 240 :: l ++ data ++ rest) = Err.
Proof. exact sysex_interrupted. Qed.
Print Assumptions C32_sysex_interrupted.

(** Open packet, meta event, continuation, last continuation, escape. *)
Example C32_example : exists es c' p es1 c1, decode_events default_env new_context
    [0; 240; 3; 67; 1; 2; 0; 255; 1; 1; 65; 0; 247; 2; 3; 4; 0; 247; 2; 5; 247; 0; 247; 2; 250; 1] = Ok (es, c') /\
  map (fun e => view (e_body e)) es = [CSysEx [67; 1; 2] false; CText KText [65]; CSysExCont [3; 4] false;
     CSysExCont [5] false; CEscape [250; 1]] /\
  map sysex_open [firstn 1 es; firstn 2 es; firstn 3 es; firstn 4 es] = [true; true; true; false] /\
  p = [0; 240; 3; 67; 1; 2; 0; 255; 1; 1; 65] /\ decode_events default_env new_context p = Ok (es1, c1) /\
  concat (map e_bytes es1) = p /\ sysex_open es1 = true.
Proof. witness. Qed.

(** C54.  [c'] and the tick are the state after the first part. *)
Theorem C54_prefix_compositional : forall env p q es c', is_bytes p ->
  decode_events env new_context p = Ok (es, c') -> concat (map e_bytes es) = p ->
  decode_events env new_context (p ++ q) =
  do (es2, c2) <- events_loop (S (length q)) env c' (total_delta es mod 4294967296) q; Ok (es ++ es2, c2).
Proof. exact prefix_compositional. Qed.
Print Assumptions C54_prefix_compositional.

Example C54_example : exists es c', decode_events default_env new_context (firstn 25 sample_body1) = Ok (es, c') /\
  concat (map e_bytes es) = firstn 25 sample_body1 /\ length es = 6%nat.
Proof. witness. Qed.
