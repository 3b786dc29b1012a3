(** * Marshal: MarshalBinary of every event type. *)
From Verif Require Import Base Strings Tables Vlq Event.

(** midi/events/meta/time_signature.go:67-86 *)
Definition marshal_time_signature (status type n d t q : Z) : outcome bytes :=
  do k <- log2_loop 9 1 d 0;
  Ok [status; type; 4; n; k mod 256; t; q].

(** midi/events/meta/smpte_offset.go:119-129: the rate bits (an unknown rate gives 0). *)
Definition smpte_rate_bits (rate : Z) : Z :=
  if rate =? 24 then 0 else if rate =? 25 then 32 else if rate =? 29 then 64
  else if rate =? 30 then 96 else 0.

(** MarshalBinary of each event type (without the delta); cited line by line.  All of them return a nil error. *)
Definition marshal (e : event) : outcome bytes :=
  let st := e_status e in
  let ty := e_type e in
  match e_body e with
  (* midi/events/midi/note_off.go:121-129 *)
  | NoteOff ch n v => Ok [Z.lor 128 ch; n_value n; v]
  (* midi/events/midi/note_on.go:71-79 *)
  | NoteOn ch n v => Ok [Z.lor 144 ch; n_value n; v]
  (* midi/events/midi/polyphonic_pressure.go:56-63 *)
  | PolyphonicPressure ch p => Ok [Z.lor 160 ch; p]
  (* midi/events/midi/controller.go:59-67 *)
  | Controller ch c v => Ok [Z.lor 176 ch; c_id c; v]
  (* midi/events/midi/program_change.go:54-61 *)
  | ProgramChange ch _ p => Ok [Z.lor 192 ch; p]
  (* midi/events/midi/channel_pressure.go:64-71 *)
  | ChannelPressure ch p => Ok [Z.lor 208 ch; p]
  (* midi/events/midi/pitch_bend.go:58-66 *)
  | PitchBend ch b => Ok [Z.lor 224 ch; Z.land (Z.shiftr b 8) 255; Z.land b 255]
  (* midi/events/meta/sequence_number.go:45-53 *)
  | SequenceNumber n => Ok ([st; ty; 2] ++ be16 n)
  (* midi/events/meta/track_name.go:40-62 *)
  | TextEvent KTrackName s => Ok ([st; ty] ++ vlf_encode s)
  (* midi/events/meta/text.go:39-46, copyright.go:37-44, instrument_name.go, lyric.go, marker.go,
     cue_point.go, program_name.go, device_name.go:38-45: one length byte *)
  | TextEvent _ s => Ok ([st; ty; zlen s mod 256] ++ s)
  (* midi/events/meta/midi_channel_prefix.go:49-56 *)
  | MIDIChannelPrefix ch => Ok [st; ty; 1; ch]
  (* midi/events/meta/midi_port.go:51-58 *)
  | MIDIPort p => Ok [st; ty; 1; p]
  (* midi/events/meta/end_of_track.go:34-40 *)
  | EndOfTrack => Ok [st; ty; 0]
  (* midi/events/meta/tempo.go:54-65 *)
  | Tempo t => Ok [st; ty; 3; Z.land (Z.shiftr t 16) 255; Z.land (Z.shiftr t 8) 255; Z.land t 255]
  (* midi/events/meta/smpte_offset.go:118-143 *)
  | SMPTEOffset h m s rate f ff => Ok [st; ty; 5; Z.lor (smpte_rate_bits rate) (Z.land h 31); m; s; f; ff]
  | TimeSignature n d t q => marshal_time_signature st ty n d t q
  (* midi/events/meta/key_signature.go:95-105; byte(int8) *)
  | KeySignature acc kt _ => Ok [st; ty; 2; acc mod 256; kt]
  (* midi/events/meta/sequencer_specific.go:48-58 *)
  | SequencerSpecific m data => Ok ([st; ty; (zlen (m_id m) + zlen data) mod 256] ++ m_id m ++ data)
  (* midi/events/sysex/message.go:70-90 *)
  | SysExMessage m data single => Ok (st :: vlf_encode (m_id m ++ data ++ (if single then [247] else [])))
  (* midi/events/sysex/continuation_message.go:63-82 *)
  | SysExContinuation data fin => Ok (st :: vlf_encode (data ++ (if fin then [247] else [])))
  (* midi/events/sysex/escape_message.go:39-54 *)
  | SysExEscape data => Ok (st :: vlf_encode data)
  end.
