(** * SpecEvent: the content of events and the byte grammar of a track.

    This file is the specification against which the decoder and the encoder are proved.  It
    uses only the data types of the model, none of its functions.

    [content] is what an event means musically: delta times and message parameters, without the
    display names, the derived bank number, the raw bytes and the absolute tick.

    [track_bytes] is the grammar of a track body in a Standard MIDI File, with running status
    as the standard describes it: a channel message may leave out its status byte when it equals
    the previous channel message's; meta and system exclusive events cancel running status.
    Two productions describe this program's reading rather than the standard's and are marked. *)
From Verif Require Import Base SpecVlq Tables Event.

Inductive content :=
| CNoteOff (ch n v : Z)
| CNoteOn (ch n v : Z)
| CPoly (ch p : Z)
| CControl (ch id v : Z)
| CProgram (ch p : Z)
| CChanPressure (ch p : Z)
| CBend (ch b : Z)
| CSeqNo (n : Z)
| CText (k : textkind) (s : bytes)
| CChannelPrefix (ch : Z)
| CPort (p : Z)
| CEndOfTrack
| CTempo (t : Z)
| CSMPTE (h m s rate f ff : Z)
| CTimeSig (n d t q : Z)
| CKeySig (acc kt : Z)
| CSeqSpec (payload : bytes)
| CSysEx (payload : bytes) (terminated : bool)   (* payload without the final F7 *)
| CSysExCont (payload : bytes) (terminated : bool)
| CEscape (payload : bytes).

(** The content of an event body. *)
Definition view (b : body) : content :=
  match b with
  | NoteOff ch n v => CNoteOff ch (n_value n) v
  | NoteOn ch n v => CNoteOn ch (n_value n) v
  | PolyphonicPressure ch p => CPoly ch p
  | Controller ch c v => CControl ch (c_id c) v
  | ProgramChange ch _ p => CProgram ch p
  | ChannelPressure ch p => CChanPressure ch p
  | PitchBend ch b => CBend ch b
  | SequenceNumber n => CSeqNo n
  | TextEvent k s => CText k s
  | MIDIChannelPrefix ch => CChannelPrefix ch
  | MIDIPort p => CPort p
  | EndOfTrack => CEndOfTrack
  | Tempo t => CTempo t
  | SMPTEOffset h m s r f ff => CSMPTE h m s r f ff
  | TimeSignature n d t q => CTimeSig n d t q
  | KeySignature acc kt _ => CKeySig acc kt
  | SequencerSpecific m d => CSeqSpec (m_id m ++ d)
  | SysExMessage m d single => CSysEx (m_id m ++ d) single
  | SysExContinuation d fin => CSysExCont d fin
  | SysExEscape d => CEscape d
  end.

(** Delta and content of an event. *)
Definition ev_view (e : event) : Z * content := (e_delta e, view (e_body e)).

(** ** Channel messages: status byte, data bytes, content. *)
Inductive chan_msg : Z -> bytes -> content -> Prop :=
| cm_off : forall ch n v, 0 <= ch < 16 -> 0 <= n < 128 -> 0 <= v < 128 ->
    chan_msg (128 + ch) [n; v] (CNoteOff ch n v)
| cm_on : forall ch n v, 0 <= ch < 16 -> 0 <= n < 128 -> 0 <= v < 128 ->
    chan_msg (144 + ch) [n; v] (CNoteOn ch n v)
  (* This program's reading: one data byte.  The standard has two (key, pressure). *)
| cm_poly : forall ch p, 0 <= ch < 16 -> 0 <= p < 128 ->
    chan_msg (160 + ch) [p] (CPoly ch p)
| cm_control : forall ch id v, 0 <= ch < 16 -> 0 <= id < 128 -> 0 <= v < 128 ->
    chan_msg (176 + ch) [id; v] (CControl ch id v)
| cm_program : forall ch p, 0 <= ch < 16 -> 0 <= p < 128 ->
    chan_msg (192 + ch) [p] (CProgram ch p)
| cm_pressure : forall ch p, 0 <= ch < 16 -> 0 <= p < 128 ->
    chan_msg (208 + ch) [p] (CChanPressure ch p)
  (* This program's reading: most significant seven bits first.  The standard has them last. *)
| cm_bend : forall ch a b, 0 <= ch < 16 -> 0 <= a < 128 -> 0 <= b < 128 ->
    chan_msg (224 + ch) [a; b] (CBend ch (a * 128 + b)).

(** Meta event type numbers of the textual events (SMF standard). *)
Definition smf_text_type (k : textkind) : Z :=
  match k with
  | KText => 1 | KCopyright => 2 | KTrackName => 3 | KInstrumentName => 4 | KLyric => 5
  | KMarker => 6 | KCuePoint => 7 | KProgramName => 8 | KDeviceName => 9
  end.

(** SMPTE rates and their two-bit codes (SMF standard). *)
Inductive smpte_code : Z -> Z -> Prop :=
| sc24 : smpte_code 0 24 | sc25 : smpte_code 1 25 | sc29 : smpte_code 2 29 | sc30 : smpte_code 3 30.

(** A manufacturer ID as it appears on the wire: one byte, or 00 followed by two bytes. *)
Inductive wire_id : bytes -> Prop :=
| wi_one : forall a, 0 < a < 256 -> wire_id [a]
| wi_three : forall b c, 0 <= b < 256 -> 0 <= c < 256 -> wire_id [0; b; c].

(** ** Meta events: type byte, data, content. *)
Inductive meta_msg : Z -> bytes -> content -> Prop :=
| mm_seqno : forall a b, 0 <= a < 256 -> 0 <= b < 256 -> meta_msg 0 [a; b] (CSeqNo (a * 256 + b))
| mm_text : forall k s, meta_msg (smf_text_type k) s (CText k s)
| mm_prefix : forall ch, 0 <= ch < 16 -> meta_msg 32 [ch] (CChannelPrefix ch)
| mm_port : forall p, 0 <= p < 128 -> meta_msg 33 [p] (CPort p)
| mm_eot : meta_msg 47 [] CEndOfTrack
| mm_tempo : forall a b c, 0 <= a < 256 -> 0 <= b < 256 -> 0 <= c < 256 ->
    meta_msg 81 [a; b; c] (CTempo (a * 65536 + b * 256 + c))
| mm_smpte : forall rr rate h m s f ff, smpte_code rr rate ->
    0 <= h <= 24 -> 0 <= m < 60 -> 0 <= s < 60 -> 0 <= f < rate -> 0 <= ff <= 100 ->
    meta_msg 84 [rr * 32 + h; m; s; f; ff] (CSMPTE h m s rate f ff)
| mm_timesig : forall n d t q, 0 <= d < 8 ->
    meta_msg 88 [n; d; t; q] (CTimeSig n (2 ^ d) t q)
| mm_keysig : forall a acc kt, -7 <= acc <= 7 -> a = acc mod 256 -> kt = 0 \/ kt = 1 ->
    meta_msg 89 [a; kt] (CKeySig acc kt)
| mm_seqspec : forall id d, wire_id id -> meta_msg 127 (id ++ d) (CSeqSpec (id ++ d)).

(** ** Track body grammar *)

(** A delta time field: a VLQ and its (uint32) value. *)
Definition delta_field (d : bytes) (delta : Z) : Prop :=
  vlq_string d /\ vlq_denotes d = delta /\ delta < 4294967296.

(** A length field for [data]. *)
Definition length_field (l : bytes) (data : bytes) : Prop :=
  vlq_string l /\ vlq_denotes l = zlen data /\ zlen data < 4294967296.

(** [track_bytes rs open evs bs]: [bs] spells the events [evs], when the running status is [rs]
    (0: none) and [open] says whether a system exclusive message is unfinished. *)
Inductive track_bytes : Z -> bool -> list (Z * content) -> bytes -> Prop :=
| tb_end : forall rs op, track_bytes rs op [] []
| tb_status : forall rs op d delta st data c evs bs,
    delta_field d delta -> chan_msg st data c -> track_bytes st op evs bs ->
    track_bytes rs op ((delta, c) :: evs) (d ++ st :: data ++ bs)
| tb_running : forall op d delta st data c evs bs,
    delta_field d delta -> chan_msg st data c -> track_bytes st op evs bs ->
    track_bytes st op ((delta, c) :: evs) (d ++ data ++ bs)
| tb_meta : forall rs op d delta ty l data c evs bs,
    delta_field d delta -> meta_msg ty data c -> length_field l data -> track_bytes 0 op evs bs ->
    track_bytes rs op ((delta, c) :: evs) (d ++ 255 :: ty :: l ++ data ++ bs)
| tb_sysex_single : forall rs d delta l payload evs bs,
    delta_field d delta -> payload <> [] ->
    length_field l (payload ++ [247]) -> track_bytes 0 false evs bs ->
    track_bytes rs false ((delta, CSysEx payload true) :: evs)
      (d ++ 240 :: l ++ (payload ++ [247]) ++ bs)
| tb_sysex_first : forall rs d delta l payload x evs bs,
    delta_field d delta -> payload <> [] -> x <> 247 ->
    length_field l (payload ++ [x]) -> track_bytes 0 true evs bs ->
    track_bytes rs false ((delta, CSysEx (payload ++ [x]) false) :: evs)
      (d ++ 240 :: l ++ (payload ++ [x]) ++ bs)
| tb_cont : forall rs d delta l payload evs bs,
    delta_field d delta -> last payload 0 <> 247 ->
    length_field l payload -> track_bytes 0 true evs bs ->
    track_bytes rs true ((delta, CSysExCont payload false) :: evs)
      (d ++ 247 :: l ++ payload ++ bs)
| tb_cont_last : forall rs d delta l payload evs bs,
    delta_field d delta ->
    length_field l (payload ++ [247]) -> track_bytes 0 false evs bs ->
    track_bytes rs true ((delta, CSysExCont payload true) :: evs)
      (d ++ 247 :: l ++ (payload ++ [247]) ++ bs)
| tb_escape : forall rs d delta l payload evs bs,
    delta_field d delta -> length_field l payload -> track_bytes 0 false evs bs ->
    track_bytes rs false ((delta, CEscape payload) :: evs)
      (d ++ 247 :: l ++ payload ++ bs).

(** What the decoder is known to lose (see C12): the flag saying that a continuation message was
    the last one. *)
Definition forget_end (c : content) : content :=
  match c with CSysExCont p _ => CSysExCont p false | _ => c end.

(** The manufacturer ID at the front of a payload. *)
Definition payload_id (p : bytes) : bytes := firstn 1 p.
Definition seqspec_id (p : bytes) : bytes :=
  match p with 0 :: b :: c :: _ => [0; b; c] | _ => firstn 1 p end.

(** Upper case hexadecimal digits. *)
Definition hex_chars : bytes := str "0123456789ABCDEF".
Definition hex_byte (b : Z) : bytes :=
  [nth (Z.to_nat (b / 16)) hex_chars 0; nth (Z.to_nat (b mod 16)) hex_chars 0].

(** The key under which a manufacturer ID is filed: its last one or two bytes in hexadecimal. *)
Definition id_key (id : bytes) : bytes :=
  match id with
  | [a] => hex_byte a
  | [_; b; c] => hex_byte b ++ hex_byte c
  | _ => []
  end.

(** Every entry filed under the key of [id] carries [id]. *)
Definition id_faithful (e : env) (id : bytes) : Prop :=
  forall m, In (id_key id, m) (env_manufacturers e) -> m_id m = id.

(** Contents whose manufacturer is filed faithfully (no condition on the other events). *)
Definition ids_faithful (e : env) (c : content) : Prop :=
  match c with
  | CSeqSpec p => id_faithful e (seqspec_id p)
  | CSysEx p _ => id_faithful e (payload_id p)
  | _ => True
  end.
