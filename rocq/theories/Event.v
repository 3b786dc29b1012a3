(** * Event: event values, the decoding context, lookups and constructors. *)
From Verif Require Import Base Strings Tables Vlq.

(** midi/events/midi/midievent.go:28-32 [Note] (package midievent): value, name and alias.
    [n_alias] is only ever displayed. *)
Record note := Note { n_value : Z; n_name : bytes; n_alias : bytes }.

(** The nine meta events that carry one string: midi/events/meta/{text,copyright,track_name,
    instrument_name,lyric,marker,cue_point,program_name,device_name}.go. *)
Inductive textkind :=
| KText | KCopyright | KTrackName | KInstrumentName | KLyric | KMarker | KCuePoint
| KProgramName | KDeviceName.

(** The event structs.  One constructor per Go type of midi/events/{midi,meta,sysex}; the nine
    textual meta events share [TextEvent].  The embedded [event] struct is in [event] below. *)
Inductive body :=
| NoteOff (ch : Z) (n : note) (velocity : Z)          (* midi/events/midi/note_off.go:13-17 *)
| NoteOn (ch : Z) (n : note) (velocity : Z)           (* midi/events/midi/note_on.go:13-17 *)
| PolyphonicPressure (ch : Z) (pressure : Z)          (* midi/events/midi/polyphonic_pressure.go:12-15 *)
| Controller (ch : Z) (c : controller) (value : Z)    (* midi/events/midi/controller.go:12-16 *)
| ProgramChange (ch : Z) (bank : Z) (program : Z)     (* midi/events/midi/program_change.go:12-16 *)
| ChannelPressure (ch : Z) (pressure : Z)             (* midi/events/midi/channel_pressure.go:12-15 *)
| PitchBend (ch : Z) (bend : Z)                       (* midi/events/midi/pitch_bend.go:12-15 *)
| SequenceNumber (n : Z)                              (* midi/events/meta/sequence_number.go:13-16 *)
| TextEvent (k : textkind) (s : bytes)                (* see [textkind] *)
| MIDIChannelPrefix (ch : Z)                          (* midi/events/meta/midi_channel_prefix.go:12-15 *)
| MIDIPort (port : Z)                                 (* midi/events/meta/midi_port.go:12-15 *)
| EndOfTrack                                          (* midi/events/meta/end_of_track.go:11-13 *)
| Tempo (tempo : Z)                                   (* midi/events/meta/tempo.go:13-16 *)
| SMPTEOffset (hour minute second rate frames fractions : Z)  (* midi/events/meta/smpte_offset.go:12-20 *)
| TimeSignature (numerator denominator ticks thirtyseconds : Z) (* midi/events/meta/time_signature.go:12-18 *)
| KeySignature (accidentals keytype : Z) (key : bytes)         (* midi/events/meta/key_signature.go:13-18 *)
| SequencerSpecific (m : manufacturer) (data : bytes) (* midi/events/meta/sequencer_specific.go:12-16 *)
| SysExMessage (m : manufacturer) (data : bytes) (single : bool)  (* midi/events/sysex/message.go:11-16 *)
| SysExContinuation (data : bytes) (fin : bool)       (* midi/events/sysex/continuation_message.go:11-15 *)
| SysExEscape (data : bytes).                         (* midi/events/sysex/escape_message.go:11-14 *)

(** The embedded [event] struct (midi/events/midi/midievent.go:18-26,
    midi/events/meta/metaevent.go:34-41, midi/events/sysex/sysex.go:17-24) together with the rest.
    [tag] is not kept: every constructor sets it from the Go type, so the constructor of [body]
    determines it (see [body_tag]).  [e_type] is the meta event type (0 for the others). *)
Record event := Event {
  e_tick : Z;      (* uint64 *)
  e_delta : Z;     (* uint32 *)
  e_bytes : bytes;
  e_status : Z;    (* byte *)
  e_type : Z;      (* byte, meta events *)
  e_body : body
}.

(** midi/lib/event.go:15-34: meta event types of the textual events. *)
Definition text_type (k : textkind) : Z :=
  match k with
  | KText => 1 | KCopyright => 2 | KTrackName => 3 | KInstrumentName => 4 | KLyric => 5
  | KMarker => 6 | KCuePoint => 7 | KProgramName => 8 | KDeviceName => 9
  end.

(** midi/lib/tag.go:76-108 [Tag.String] of the tag set by the constructors. *)
Definition text_tag (k : textkind) : bytes :=
  match k with
  | KText => str "Text" | KCopyright => str "Copyright" | KTrackName => str "TrackName"
  | KInstrumentName => str "InstrumentName" | KLyric => str "Lyric" | KMarker => str "Marker"
  | KCuePoint => str "CuePoint" | KProgramName => str "ProgramName" | KDeviceName => str "DeviceName"
  end.

(** midi/lib/tag.go:76-108 [Tag.String]; the tag each [Make…] function sets. *)
Definition body_tag (b : body) : bytes :=
  match b with
  | NoteOff _ _ _ => str "NoteOff"
  | NoteOn _ _ _ => str "NoteOn"
  | PolyphonicPressure _ _ => str "PolyphonicPressure"
  | Controller _ _ _ => str "Controller"
  | ProgramChange _ _ _ => str "ProgramChange"
  | ChannelPressure _ _ => str "ChannelPressure"
  | PitchBend _ _ => str "PitchBend"
  | SequenceNumber _ => str "SequenceNumber"
  | TextEvent k _ => text_tag k
  | MIDIChannelPrefix _ => str "MIDIChannelPrefix"
  | MIDIPort _ => str "MIDIPort"
  | EndOfTrack => str "EndOfTrack"
  | Tempo _ => str "Tempo"
  | SMPTEOffset _ _ _ _ _ _ => str "SMPTEOffset"
  | TimeSignature _ _ _ _ => str "TimeSignature"
  | KeySignature _ _ _ => str "KeySignature"
  | SequencerSpecific _ _ => str "SequencerSpecificEvent"
  | SysExMessage _ _ _ => str "SysExMessage"
  | SysExContinuation _ _ => str "SysExContinuation"
  | SysExEscape _ => str "SysExEscape"
  end.

(** Global settings: [context.MiddleC == lib.C4] (midi/context/context.go:47-52) and the
    manufacturers map, which [AddManufacturers] (midi/lib/manufacturer.go:55-59) may extend:
    later additions come first in the association list. *)
Record env := Env { env_c4 : bool; env_manufacturers : list (bytes * manufacturer) }.

(** midi/context/context.go:52 [var MiddleC = lib.C3], midi/lib/manufacturer.go:152 *)
Definition default_env : env := Env false manufacturers.

(** midi/lib/manufacturer.go:55-59 [AddManufacturers] *)
Definition add_manufacturers (env : env) (l : list (bytes * manufacturer)) : Event.env :=
  Env (env_c4 env) (l ++ env_manufacturers env).

(** midi/lib/controller.go:8-16 [LookupController] *)
Definition lookup_controller (id : Z) : controller :=
  match assoc id controllers with
  | Some c => c
  | None => MkController id (str "<unknown>")
  end.

(** midi/lib/manufacturer.go:61-83 [LookupManufacturer] *)
Definition lookup_manufacturer (env : env) (id : bytes) : manufacturer :=
  let unknown := Manufacturer id (str "<unknown>") (str "<unknown>") in
  match id with
  | [a] =>
      match assocb (hex2 a) (env_manufacturers env) with Some m => m | None => unknown end
  | [_; b; c] =>
      match assocb (hex2 b ++ hex2 c) (env_manufacturers env) with Some m => m | None => unknown end
  | _ => unknown
  end.

(** midi/lib/scales.go:139-147 [MajorScale], 149-157 [MinorScale]: first scale with that number
    of accidentals; [None] is [ok = false]. *)
Definition major_scale (acc : Z) : option scale := find (fun s => s_acc s =? acc) MAJOR_SCALES.
Definition minor_scale (acc : Z) : option scale := find (fun s => s_acc s =? acc) MINOR_SCALES.

(** ** Context *)

(** midi/context/context.go:39-45 [Context].  [c_flats]: the scale map is [Flats] (else [Sharps]);
    [c_bank] and [c_notes] are the maps, most recent assignment first. *)
Record ctx := Ctx {
  c_flats : bool;
  c_running : Z;
  c_casio : bool;
  c_bank : list (Z * Z);
  c_notes : list (Z * bytes)
}.

(** midi/context/context.go:54-62 [NewContext] *)
Definition new_context : ctx := Ctx false 0 false [] [].

(** midi/context/context.go:100-117 [FormatNote] (also midi/events/midi/midievent.go:159-175);
    [flats] selects the scale; a nil context uses [Sharps]. *)
Definition format_note (env : env) (flats : bool) (n : Z) : bytes :=
  nth (Z.to_nat (n mod 12)) (if flats then Flats else Sharps) []
    ++ dec (n / 12 - (if env_c4 env then 2 else 1)).

(** midi/context/context.go:81-83 and 93-95: map key [uint16(ch)<<8 | uint16(n)]. *)
Definition note_key (ch n : Z) : Z := Z.lor (ch * 256) n.

(** midi/context/context.go:80-90 [GetNoteOff] *)
Definition get_note_off (env : env) (c : ctx) (ch n : Z) : bytes :=
  match assoc (note_key ch n) (c_notes c) with
  | Some s => s
  | None => format_note env (c_flats c) n
  end.

(** midi/context/context.go:92-98 [PutNoteOn] *)
Definition put_note_on (env : env) (c : ctx) (ch n : Z) : ctx :=
  Ctx (c_flats c) (c_running c) (c_casio c) (c_bank c)
      ((note_key ch n, format_note env (c_flats c) n) :: c_notes c).

(** midi/context/context.go:68-78 [UseSharps], [UseFlats] *)
Definition use_scale (flats : bool) (c : ctx) : ctx :=
  Ctx flats (c_running c) (c_casio c) (c_bank c) (c_notes c).

(** Assignments to ctx.RunningStatus and ctx.Casio (midi/MTrk.go:130,145,158-162,188). *)
Definition set_running (s : Z) (c : ctx) : ctx :=
  Ctx (c_flats c) s (c_casio c) (c_bank c) (c_notes c).
Definition set_casio (b : bool) (c : ctx) : ctx :=
  Ctx (c_flats c) (c_running c) b (c_bank c) (c_notes c).

(** Map read and write of ctx.ProgramBank (a missing key reads 0). *)
Definition get_bank (c : ctx) (ch : Z) : Z :=
  match assoc ch (c_bank c) with Some v => v | None => 0 end.
Definition set_bank (ch v : Z) (c : ctx) : ctx :=
  Ctx (c_flats c) (c_running c) (c_casio c) ((ch, v) :: c_bank c) (c_notes c).

(** ** Constructors ([Make…]).  [bs] is the raw event. *)

(** midi/events/midi/note_off.go:19-40 [MakeNoteOff] *)
Definition make_note_off (tick delta ch : Z) (n : note) (v : Z) (bs : bytes) : outcome event :=
  if 15 <? ch then Panic else
  if 127 <? v then Panic else
  Ok (Event tick delta bs (Z.lor 128 ch) 0 (NoteOff ch n v)).

(** midi/events/midi/note_on.go:19-41 [MakeNoteOn] *)
Definition make_note_on (tick delta ch : Z) (n : note) (v : Z) (bs : bytes) : outcome event :=
  if 15 <? ch then Panic else
  if 127 <? v then Panic else
  Ok (Event tick delta bs (Z.lor 144 ch) 0 (NoteOn ch n v)).

(** midi/events/midi/midievent.go:155-157 [or] *)
Definition or_status (status ch : Z) : Z := Z.lor (Z.land status 240) (Z.land ch 15).

(** midi/events/midi/polyphonic_pressure.go:17-37 *)
Definition make_polyphonic_pressure (tick delta ch p : Z) (bs : bytes) : outcome event :=
  if 15 <? ch then Panic else
  if 127 <? p then Panic else
  Ok (Event tick delta bs (or_status 160 ch) 0 (PolyphonicPressure ch p)).

(** midi/events/midi/controller.go:18-35 *)
Definition make_controller (tick delta ch : Z) (c : controller) (v : Z) (bs : bytes) : outcome event :=
  if 15 <? ch then Panic else
  Ok (Event tick delta bs (or_status 176 ch) 0 (Controller ch c v)).

(** midi/events/midi/program_change.go:18-35 *)
Definition make_program_change (tick delta ch bank p : Z) (bs : bytes) : outcome event :=
  if 15 <? ch then Panic else
  Ok (Event tick delta bs (or_status 192 ch) 0 (ProgramChange ch bank p)).

(** midi/events/midi/channel_pressure.go:17-37 *)
Definition make_channel_pressure (tick delta ch p : Z) (bs : bytes) : outcome event :=
  if 15 <? ch then Panic else
  if 127 <? p then Panic else
  Ok (Event tick delta bs (or_status 208 ch) 0 (ChannelPressure ch p)).

(** midi/events/midi/pitch_bend.go:17-33 *)
Definition make_pitch_bend (tick delta ch bend : Z) (bs : bytes) : outcome event :=
  if 15 <? ch then Panic else
  Ok (Event tick delta bs (Z.lor 224 ch) 0 (PitchBend ch bend)).

(** midi/events/meta/sequence_number.go:18-30 *)
Definition make_sequence_number (tick delta n : Z) (bs : bytes) : event :=
  Event tick delta bs 255 0 (SequenceNumber n).

(** midi/events/meta/{text,…}.go:16-28 (track_name.go:17-29) *)
Definition make_text (k : textkind) (tick delta : Z) (s bs : bytes) : event :=
  Event tick delta bs 255 (text_type k) (TextEvent k s).

(** midi/events/meta/midi_channel_prefix.go:17-33 *)
Definition make_channel_prefix (tick delta ch : Z) (bs : bytes) : outcome event :=
  if 15 <? ch then Panic else Ok (Event tick delta bs 255 32 (MIDIChannelPrefix ch)).

(** midi/events/meta/midi_port.go:17-33 *)
Definition make_port (tick delta p : Z) (bs : bytes) : outcome event :=
  if 127 <? p then Panic else Ok (Event tick delta bs 255 33 (MIDIPort p)).

(** midi/events/meta/end_of_track.go:15-26 *)
Definition make_end_of_track (tick delta : Z) (bs : bytes) : event :=
  Event tick delta bs 255 47 EndOfTrack.

(** midi/events/meta/tempo.go:18-30 *)
Definition make_tempo (tick delta t : Z) (bs : bytes) : event :=
  Event tick delta bs 255 81 (Tempo t).

(** midi/events/meta/smpte_offset.go:22-63 *)
Definition make_smpte_offset (tick delta h m s rate f ff : Z) (bs : bytes) : outcome event :=
  if 24 <? h then Panic else
  if 59 <? m then Panic else
  if 59 <? s then Panic else
  if negb ((rate =? 24) || (rate =? 25) || (rate =? 29) || (rate =? 30)) then Panic else
  if rate <=? f then Panic else
  if 100 <? ff then Panic else
  Ok (Event tick delta bs 255 84 (SMPTEOffset h m s rate f ff)).

(** midi/events/meta/time_signature.go:21-26 and 68-73: the loop
    [for dd < denominator { dd *= 2; d += 1 }] over uint8.  After eight doublings dd is 0 and stays
    0, so nine steps decide: with [fuel = 9], running out means the Go loop never ends. *)
Fixpoint log2_loop (fuel : nat) (dd denominator d : Z) : outcome Z :=
  if dd <? denominator then
    match fuel with
    | O => Loop
    | S f => log2_loop f ((dd * 2) mod 256) denominator (d + 1)
    end
  else Ok d.

(** midi/events/meta/time_signature.go:20-42 *)
Definition make_time_signature (tick delta n d t q : Z) (bs : bytes) : outcome event :=
  do _ <- log2_loop 9 1 d 0;
  Ok (Event tick delta bs 255 88 (TimeSignature n d t q)).

(** midi/events/meta/key_signature.go:20-55 *)
Definition make_key_signature (tick delta acc kt : Z) (bs : bytes) : outcome event :=
  if kt =? 0 then
    match major_scale acc with
    | None => Panic
    | Some s => Ok (Event tick delta bs 255 89 (KeySignature acc kt (s_name s)))
    end
  else if kt =? 1 then
    match minor_scale acc with
    | None => Panic
    | Some s => Ok (Event tick delta bs 255 89 (KeySignature acc kt (s_name s)))
    end
  else Panic.

(** midi/events/meta/sequencer_specific.go:18-31 *)
Definition make_sequencer_specific (tick delta : Z) (m : manufacturer) (data bs : bytes) : event :=
  Event tick delta bs 255 127 (SequencerSpecific m data).

(** midi/events/sysex/message.go:18-31 [MakeSysExMessage] and 33-46 [MakeSysExSingleMessage] *)
Definition make_sysex (tick delta : Z) (m : manufacturer) (data : bytes) (single : bool) (bs : bytes) : event :=
  Event tick delta bs 240 0 (SysExMessage m data single).

(** midi/events/sysex/continuation_message.go:17-29 and 31-43 *)
Definition make_continuation (tick delta : Z) (data : bytes) (fin : bool) (bs : bytes) : event :=
  Event tick delta bs 247 0 (SysExContinuation data fin).

(** midi/events/sysex/escape_message.go:16-27 *)
Definition make_escape (tick delta : Z) (data bs : bytes) : event :=
  Event tick delta bs 247 0 (SysExEscape data).
