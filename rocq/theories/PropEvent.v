(** * Single events: C08 - C13, C47 - C49.  Theorems only; proofs in EventProofs.v.

    [survives env e] (SpecSurvive.v): written with its delta time, [e] is read back from the front
    of any stream and in any reader state with the same delta time and content, and exactly its
    bytes are consumed. *)
From Coq Require Import Permutation.
From Verif Require Import Base Strings Tables Vlq SpecVlq Event SpecEvent Marshal Parse Track SpecTrack
  SpecSurvive Manufacturer EventProofs.

(** C08. *)
Theorem C08_channel_events : forall env tick delta ch raw, 0 <= delta <= 268435455 -> 0 <= ch < 16 ->
  (forall n v, 0 <= n_value n < 128 -> 0 <= v < 128 ->
     exists e, make_note_on tick delta ch n v raw = Ok e /\ view (e_body e) = CNoteOn ch (n_value n) v /\ survives env e) /\
  (forall n v, 0 <= n_value n < 128 -> 0 <= v < 128 ->
     exists e, make_note_off tick delta ch n v raw = Ok e /\ view (e_body e) = CNoteOff ch (n_value n) v /\ survives env e) /\
  (forall p, 0 <= p < 128 ->
     exists e, make_polyphonic_pressure tick delta ch p raw = Ok e /\ view (e_body e) = CPoly ch p /\ survives env e) /\
  (forall c v, 0 <= c_id c < 128 -> 0 <= v < 128 ->
     exists e, make_controller tick delta ch c v raw = Ok e /\ view (e_body e) = CControl ch (c_id c) v /\ survives env e) /\
  (forall bank p, 0 <= p < 128 ->
     exists e, make_program_change tick delta ch bank p raw = Ok e /\ view (e_body e) = CProgram ch p /\ survives env e) /\
  (forall p, 0 <= p < 128 ->
     exists e, make_channel_pressure tick delta ch p raw = Ok e /\ view (e_body e) = CChanPressure ch p /\ survives env e).
Proof. exact channel_roundtrip. Qed.
Print Assumptions C08_channel_events.

Example C08_example : exists e w, make_note_on 0 480 3 (Note 64 [] []) 72 [] = Ok e /\ marshal e = Ok w /\
  vlq_encode 480 ++ w = [131; 96; 147; 64; 72] /\
  exists e' c', parse default_env new_context 0 [131; 96; 147; 64; 72] = Ok (e', c', []) /\
    ev_view e' = (480, CNoteOn 3 64 72).
Proof. repeat eexists. Qed.

(** C09, full statement: every 14-bit bend value survives.
      forall bend, 0 <= bend < 16384 -> ... survives env e
    This is false.  Proved: it survives exactly for bend < 128. *)
Theorem C09_pitch_bend_partial : forall env tick delta ch bend raw,
  0 <= delta <= 268435455 -> 0 <= ch < 16 -> 0 <= bend < 16384 ->
  exists e, make_pitch_bend tick delta ch bend raw = Ok e /\ view (e_body e) = CBend ch bend /\
    (survives env e <-> bend < 128).
Proof. exact bend_survives_iff. Qed.
Print Assumptions C09_pitch_bend_partial.

(** What is read back instead. *)
Theorem C09_pitch_bend_value : forall env tick delta ch bend raw c tick' rest,
  0 <= delta <= 268435455 -> 0 <= ch < 16 -> 0 <= bend < 16384 ->
  exists e w e' c', make_pitch_bend tick delta ch bend raw = Ok e /\ marshal e = Ok w /\
    parse env c tick' (vlq_encode delta ++ w ++ rest) = Ok (e', c', rest) /\
    ev_view e' = (delta, CBend ch ((bend / 256) * 128 + bend mod 128)).
Proof. exact bend_roundtrip. Qed.
Print Assumptions C09_pitch_bend_value.

(** C09, finding: the centre position 8192 comes back as 4096 after one read/write cycle. *)
Theorem C09_pitch_bend_refuted : exists bs e c w e' c',
  parse default_env new_context 0 bs = Ok (e, c, []) /\ view (e_body e) = CBend 0 8192 /\
  marshal e = Ok w /\ parse default_env new_context 0 (vlq_encode (e_delta e) ++ w) = Ok (e', c', []) /\
  view (e_body e') = CBend 0 4096.
Proof. exists [0; 224; 64; 0]. repeat eexists. Qed.
Print Assumptions C09_pitch_bend_refuted.

(** C10, full statement: for all nine kinds and every text.
      forall k s, is_bytes s -> survives env (make_text k tick delta s raw)
    This is false.  Proved: texts below 128 bytes, and track names of any length. *)
Theorem C10_textual_meta_partial : forall env tick delta k s raw, 0 <= delta <= 268435455 -> is_bytes s ->
  zlen s < 128 \/ (k = KTrackName /\ zlen s < 268435456) ->
  view (e_body (make_text k tick delta s raw)) = CText k s /\ survives env (make_text k tick delta s raw).
Proof. exact text_roundtrip. Qed.
Print Assumptions C10_textual_meta_partial.

Example C10_example : is_bytes (str "Hello") /\ zlen (str "Hello") < 128 /\
  exists w e' c', marshal (make_text KLyric 0 10 (str "Hello") []) = Ok w /\
    parse default_env new_context 7 (vlq_encode 10 ++ w ++ [1; 2]) = Ok (e', c', [1; 2]) /\
    ev_view e' = (10, CText KLyric (str "Hello")).
Proof. split; [repeat constructor; discriminate|]. split; [reflexivity|]. repeat eexists. Qed.

(** C10, finding: outside of track names no text of 128 bytes or more survives. *)
Theorem C10_long_texts_lost : forall env tick delta k s raw, 0 <= delta <= 268435455 -> is_bytes s ->
  k <> KTrackName -> 128 <= zlen s -> ~ survives env (make_text k tick delta s raw).
Proof. exact long_text_lost. Qed.
Print Assumptions C10_long_texts_lost.

Theorem C10_textual_meta_refuted : exists k s, is_bytes s /\ zlen s = 128 /\
  ~ survives default_env (make_text k 0 0 s []).
Proof.
  exists KLyric, (repeat 97 128). assert (B : is_bytes (repeat 97 128)).
  { apply Forall_forall. intros x Hx. apply repeat_spec in Hx. subst. split; [discriminate|reflexivity]. }
  repeat split; try assumption. apply long_text_lost; [|assumption|discriminate|discriminate].
  split; discriminate.
Qed.
Print Assumptions C10_textual_meta_refuted.

(** C11, full statement: all values the standard allows, including time signatures whose
    denominator is 2^8 or more; those do not fit the program's uint8 and are read wrongly (below).
    Proved: everything else. *)
Theorem C11_numeric_meta_partial : forall env tick delta raw, 0 <= delta <= 268435455 ->
  (forall n, 0 <= n < 65536 -> view (e_body (make_sequence_number tick delta n raw)) = CSeqNo n
      /\ survives env (make_sequence_number tick delta n raw)) /\
  (forall ch, 0 <= ch < 16 -> exists e, make_channel_prefix tick delta ch raw = Ok e /\ view (e_body e) = CChannelPrefix ch /\ survives env e) /\
  (forall p, 0 <= p < 128 -> exists e, make_port tick delta p raw = Ok e /\ view (e_body e) = CPort p /\ survives env e) /\
  (view (e_body (make_end_of_track tick delta raw)) = CEndOfTrack /\ survives env (make_end_of_track tick delta raw)) /\
  (forall t, 0 <= t < 16777216 -> view (e_body (make_tempo tick delta t raw)) = CTempo t
      /\ survives env (make_tempo tick delta t raw)) /\
  (forall h m s rate f ff, In rate [24; 25; 29; 30] -> 0 <= h <= 24 -> 0 <= m < 60 -> 0 <= s < 60 -> 0 <= f < rate -> 0 <= ff <= 100 ->
      exists e, make_smpte_offset tick delta h m s rate f ff raw = Ok e /\ view (e_body e) = CSMPTE h m s rate f ff /\ survives env e) /\
  (forall n d t q, 0 <= n < 256 -> In d [1; 2; 4; 8; 16; 32; 64; 128] -> 0 <= t < 256 -> 0 <= q < 256 ->
      exists e, make_time_signature tick delta n d t q raw = Ok e /\ view (e_body e) = CTimeSig n d t q /\ survives env e) /\
  (forall acc kt, -7 <= acc <= 7 -> kt = 0 \/ kt = 1 ->
      exists e, make_key_signature tick delta acc kt raw = Ok e /\ view (e_body e) = CKeySig acc kt /\ survives env e).
Proof. exact numeric_roundtrip. Qed.
Print Assumptions C11_numeric_meta_partial.

Example C11_example : exists e w e' c', make_key_signature 0 96 (-3) 1 [] = Ok e /\
  marshal e = Ok w /\ w = [255; 89; 2; 253; 1] /\
  parse default_env new_context 0 (vlq_encode 96 ++ w) = Ok (e', c', []) /\ ev_view e' = (96, CKeySig (-3) 1).
Proof. repeat eexists. Qed.

(** C11, finding: a time signature with exponent 8 (x/256) is read as denominator 0 and written
    back as x/1. *)
Theorem C11_time_signature_refuted : exists bs e c w,
  bs = [0; 255; 88; 4; 3; 8; 24; 8] /\ parse default_env new_context 0 bs = Ok (e, c, []) /\
  view (e_body e) = CTimeSig 3 0 24 8 /\ marshal e = Ok w /\ w = [255; 88; 4; 3; 0; 24; 8].
Proof. repeat eexists. Qed.
Print Assumptions C11_time_signature_refuted.

(** C12, full statement: every SysEx message, continuation and escape packet survives.
    This is false: the universal real time ID 7F turns into 7E, the end of a multi-packet message
    is forgotten.  Proved: all other messages (payload [p] = manufacturer ID and data; terminated
    or not; table with any user supplied manufacturers [conf]), all packets that do not end a
    message, all escape packets. *)
Theorem C12_sysex_partial : forall c4 conf l tick delta p raw m d,
  Forall (fun x => wire_id (fst (fst x))) conf ->
  load_manufacturers conf = Ok l -> 0 <= delta <= 268435455 -> is_bytes p -> zlen p < 268435455 ->
  p = m_id m ++ d -> hd 0 p <> 127 ->
  (p <> [] -> survives (add_manufacturers (Env c4 manufacturers) l) (make_sysex tick delta m d true raw)) /\
  (2 <= zlen p -> last p 0 <> 247 ->
    survives (add_manufacturers (Env c4 manufacturers) l) (make_sysex tick delta m d false raw)).
Proof. exact sysex_roundtrip. Qed.
Print Assumptions C12_sysex_partial.

Theorem C12_packets_partial : forall env tick delta d raw, 0 <= delta <= 268435455 -> is_bytes d -> zlen d < 268435455 ->
  (last d 0 <> 247 -> survives env (make_continuation tick delta d false raw)) /\
  survives env (make_escape tick delta d raw).
Proof. exact packet_roundtrip. Qed.
Print Assumptions C12_packets_partial.

Example C12_example :
  let m := Manufacturer [67] [] [] in let d := [18; 0; 7] in
  is_bytes (m_id m ++ d) /\ hd 0 (m_id m ++ d) <> 127 /\ load_manufacturers [] = Ok [] /\
  exists w e' c', marshal (make_sysex 0 5 m d true []) = Ok w /\ w = [240; 5; 67; 18; 0; 7; 247] /\
    parse default_env new_context 0 (vlq_encode 5 ++ w) = Ok (e', c', []) /\
    ev_view e' = (5, CSysEx [67; 18; 0; 7] true).
Proof.
  cbn zeta. split; [repeat constructor; discriminate|]. split; [discriminate|]. split; [reflexivity|]. repeat eexists.
Qed.

(** C12, finding: F0 7F ... (universal real time, e.g. master volume) is written back as F0 7E .... *)
Theorem C12_realtime_refuted : exists bs e c w,
  bs = [0; 240; 7; 127; 127; 4; 1; 0; 64; 247] /\ parse default_env new_context 0 bs = Ok (e, c, []) /\
  marshal e = Ok w /\ w = [240; 7; 126; 127; 4; 1; 0; 64; 247].
Proof. repeat eexists. Qed.
Print Assumptions C12_realtime_refuted.

(** C12, finding: the last packet of a multi-packet message loses its F7 when read and written. *)
Theorem C12_last_packet_refuted : exists bs e c w,
  bs = [10; 247; 3; 1; 2; 247] /\ parse default_env (set_casio true new_context) 0 bs = Ok (e, c, []) /\
  marshal e = Ok w /\ w = [247; 2; 1; 2].
Proof. repeat eexists. Qed.
Print Assumptions C12_last_packet_refuted.

(** C13, full statement: every manufacturer ID and data.  This is false: the ID 7F turns into 7E
    (C47) and the length is written as a single byte.  Proved: all other IDs, total length < 128. *)
Theorem C13_sequencer_specific_partial : forall c4 conf l tick delta m d raw,
  Forall (fun x => wire_id (fst (fst x))) conf -> load_manufacturers conf = Ok l ->
  0 <= delta <= 268435455 -> wire_id (m_id m) -> m_id m <> [127] ->
  is_bytes d -> zlen (m_id m ++ d) < 128 ->
  survives (add_manufacturers (Env c4 manufacturers) l) (make_sequencer_specific tick delta m d raw).
Proof. exact seqspec_roundtrip. Qed.
Print Assumptions C13_sequencer_specific_partial.

Example C13_example : let m := Manufacturer [0; 0; 59] (str "American") (str "Mark Of The Unicorn (MOTU)") in
  wire_id (m_id m) /\ m_id m <> [127] /\ is_bytes [58; 76; 94] /\
  exists w e' c', marshal (make_sequencer_specific 0 5 m [58; 76; 94] []) = Ok w /\
    w = [255; 127; 6; 0; 0; 59; 58; 76; 94] /\
    parse default_env new_context 0 (vlq_encode 5 ++ w) = Ok (e', c', []) /\
    ev_view e' = (5, CSeqSpec [0; 0; 59; 58; 76; 94]).
Proof.
  cbn zeta. split; [apply wi_three; split; try discriminate; reflexivity|]. split; [discriminate|].
  split; [repeat constructor; discriminate|]. repeat eexists.
Qed.

(** C13, finding: no event of 128 bytes or more survives. *)
Theorem C13_long_events_lost : forall c4 tick delta m d raw, 0 <= delta <= 268435455 -> is_bytes (m_id m ++ d) ->
  128 <= zlen (m_id m ++ d) ->
  ~ survives (Env c4 manufacturers) (make_sequencer_specific tick delta m d raw).
Proof. exact long_seqspec_lost. Qed.
Print Assumptions C13_long_events_lost.

Theorem C13_sequencer_specific_refuted : exists m d, wire_id (m_id m) /\ is_bytes (m_id m ++ d) /\
  ~ survives default_env (make_sequencer_specific 0 0 m d []).
Proof.
  exists (Manufacturer [67] [] []), (repeat 1 127). cbn [m_id].
  assert (B : is_bytes ([67] ++ repeat 1 127)).
  { apply Forall_app. split; [repeat constructor; discriminate|]. apply Forall_forall. intros x Hx.
    apply repeat_spec in Hx. subst. split; [discriminate|reflexivity]. }
  split; [apply wi_one; split; reflexivity|]. split; [assumption|].
  apply long_seqspec_lost; [split; discriminate|assumption|discriminate].
Qed.
Print Assumptions C13_sequencer_specific_refuted.

(** C47, full statement: every manufacturer ID and controller number keeps its ID.  False for the
    one-byte ID 7F, whose table entry has the ID 7E.  Proved: all other IDs, for the built-in
    table extended by any user supplied manufacturers; all controller numbers. *)
Theorem C47_lookup_keeps_id_partial : forall c4 conf l, Forall (fun x => wire_id (fst (fst x))) conf ->
  load_manufacturers conf = Ok l ->
  (forall id, wire_id id -> id <> [127] -> m_id (lookup_manufacturer (add_manufacturers (Env c4 manufacturers) l) id) = id) /\
  (forall id, 0 <= id < 256 -> c_id (lookup_controller id) = id).
Proof. exact lookup_keeps_id. Qed.
Print Assumptions C47_lookup_keeps_id_partial.

Example C47_example : let conf := [([0; 1; 2], str "Here", str "Me")] in
  Forall (fun x => wire_id (fst (fst x))) conf /\
  exists l, load_manufacturers conf = Ok l /\
    lookup_manufacturer (add_manufacturers default_env l) [0; 1; 2] = Manufacturer [0; 1; 2] (str "Here") (str "Me").
Proof.
  cbn zeta. split; [repeat constructor; discriminate|]. eexists. split; reflexivity.
Qed.

Theorem C47_lookup_keeps_id_refuted : exists id, wire_id id /\ m_id (lookup_manufacturer default_env id) <> id.
Proof. exists [127]. split; [apply wi_one; split; reflexivity|]. discriminate. Qed.
Print Assumptions C47_lookup_keeps_id_refuted.

(** C48, full statement: for every table.  False if two manufacturers of a configuration file are unknown
    (PropConf.v).  Proved: independence of the iteration order [it] holds exactly when no two
    manufacturers share a name, and the built-in table has that property. *)
Theorem C48_find_manufacturer_partial :
  (forall table,
    (forall k m it, In (k, m) table -> Permutation table it -> find_manufacturer it (m_name m) = Ok m)
    <-> distinct_names table) /\
  (forall k m it, In (k, m) manufacturers -> Permutation manufacturers it ->
    find_manufacturer it (m_name m) = Ok m) /\
  (forall table it s, Permutation table it -> find_manufacturer table s = Err -> find_manufacturer it s = Err).
Proof.
  exact (conj find_order_iff (conj (proj2 (find_order_iff _) builtin_distinct) find_absent)).
Qed.
Print Assumptions C48_find_manufacturer_partial.

Example C48_example : (length manufacturers > 50)%nat /\
  find_manufacturer (rev manufacturers) (str "Yamaha") = find_manufacturer manufacturers (str "Yamaha") /\
  exists m, find_manufacturer manufacturers (str "Yamaha") = Ok m /\ m_id m = [67].
Proof. split; [vm_compute; lia|]. split; [reflexivity|]. eexists. split; reflexivity. Qed.

(** C49, full statement: creating and writing a time signature terminates for every denominator
    and writes the exponent of the denominator.  False above 128: the loop that computes the
    exponent (of [MakeTimeSignature] and [MarshalBinary]) is not done after any number [fuel] of
    rounds.  Proved: up to 128 the exponent [k] of the next power of two is written. *)
Theorem C49_time_signature_partial : forall tick delta n d t q raw, 0 <= d < 256 ->
  (d <= 128 -> exists e k, make_time_signature tick delta n d t q raw = Ok e /\
     view (e_body e) = CTimeSig n d t q /\ marshal e = Ok [255; 88; 4; n; k; t; q] /\
     0 <= k <= 7 /\ d <= 2 ^ k /\ (d <= 1 \/ 2 ^ (k - 1) < d)) /\
  (128 < d -> forall fuel, log2_loop fuel 1 d 0 = Loop).
Proof. exact time_signature_written. Qed.
Print Assumptions C49_time_signature_partial.

Example C49_example : exists e, make_time_signature 0 0 6 8 24 8 [] = Ok e /\
  marshal e = Ok [255; 88; 4; 6; 3; 24; 8].
Proof. eexists. split; reflexivity. Qed.

Theorem C49_time_signature_refuted : exists d, 0 <= d < 256 /\
  make_time_signature 0 0 4 d 24 8 [] = Loop /\ forall fuel, log2_loop fuel 1 d 0 = Loop.
Proof.
  exists 255. split; [split; [discriminate|reflexivity]|]. split; [reflexivity|].
  exact (proj2 (time_signature_written 0 0 4 255 24 8 [] ltac:(split; [discriminate|reflexivity])) eq_refl).
Qed.
Print Assumptions C49_time_signature_refuted.
