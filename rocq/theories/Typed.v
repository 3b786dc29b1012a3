(** * Typed: the UnmarshalBinary methods of the single event types, called directly (midi/events/{meta,midi,sysex}/*.go).

    [Unmarshal.v] models the dispatcher above them, where their tests of status and type cannot fail; here these tests are included.  The body behind
    the tests is written again, or is that of Unmarshal.v where that is a function of its own. *)
From Verif Require Import Base Strings Tables Vlq Event Parse Unmarshal.

(** midi/events/meta/*.go, the common start, e.g. copyright.go:46-56: delta time, at least two bytes, FF, and the type ([equals],
    metaevent.go:162-164, without the top bit) *)
Definition meta_method (ty : Z) (f : Z -> bytes -> bytes -> outcome event) (bs : bytes) : outcome event :=
  do (delta, remaining) <- slice_vlq bs;
  match remaining with
  | st :: t :: r => if negb (st =? 255) then Err else if negb (Z.land t 127 =? ty) then Err else f delta r bs
  | _ => Err
  end.

(** midi/events/midi/*.go, the common start, e.g. note_on.go:81-88: delta time, exact length, and the upper half of the status
    (MidiEventType.Equals, midi/lib/event.go:60-62); the tests [channel > 15] and
    [len(data) < n] behind these cannot fail and are left out.  [f] gets the delta time, the channel, the data and all
    bytes. *)
Definition midi_method (ty : Z) (size : nat) (f : Z -> Z -> bytes -> bytes -> outcome event) (bs : bytes) : outcome event :=
  do (delta, remaining) <- slice_vlq bs;
  if negb (Nat.eqb (length remaining) size) then Err
  else match remaining with
       | st :: data => if negb (Z.land st 240 =? ty) then Err else f delta (Z.land st 15) data bs
       | [] => Err
       end.

(** midi/events/sysex/*.go, the common start, e.g. escape_message.go:56-63 (SysExEventType.Equals, midi/lib/event.go:75-77) *)
Definition sysex_method (ty : Z) (f : Z -> bytes -> bytes -> outcome event) (bs : bytes) : outcome event :=
  do (delta, remaining) <- slice_vlq bs;
  match remaining with
  | st :: t :: r => if negb (st =? ty) then Err else do data <- slice_vlf (t :: r); f delta data bs
  | _ => Err
  end.

(** midi/events/meta/sequence_number.go:55-71 *)
Definition sequence_number_binary : bytes -> outcome event :=
  meta_method 0 (fun delta r bs => do v <- slice_vlf r; match v with a :: b :: _ => Ok (make_sequence_number 0 delta (of_be16 a b) bs) | _ => Panic end).

(** midi/events/meta/text.go:48-64, copyright.go:46-62, cue_point.go:47-63, device_name.go:47-63, instrument_name.go:47-63, lyric.go:47-63, marker.go:47-63,
    program_name.go:47-63, track_name.go:64-80 *)
Definition text_binary (k : textkind) : bytes -> outcome event :=
  meta_method (text_type k) (fun delta r bs => do s <- slice_vlf r; Ok (make_text k 0 delta s bs)).

(** midi/events/meta/midi_channel_prefix.go:58-78 *)
Definition channel_prefix_binary : bytes -> outcome event :=
  meta_method 32 (fun delta r bs => do data <- slice_vlf r; match data with c :: _ => if 15 <? c then Err else make_channel_prefix 0 delta c bs | [] => Err end).

(** midi/events/meta/midi_port.go:60-80 *)
Definition port_binary : bytes -> outcome event :=
  meta_method 33 (fun delta r bs => do data <- slice_vlf r; match data with p :: _ => if 127 <? p then Err else make_port 0 delta p bs | [] => Err end).

(** midi/events/meta/end_of_track.go:42-56 *)
Definition end_of_track_binary : bytes -> outcome event := meta_method 47 (fun delta _ bs => Ok (make_end_of_track 0 delta bs)).

(** midi/events/meta/tempo.go:67-91 *)
Definition tempo_binary : bytes -> outcome event :=
  meta_method 81 (fun delta r bs => do data <- slice_vlf r; match data with a :: b :: c :: _ => Ok (make_tempo 0 delta (be_fold [a; b; c]) bs) | _ => Err end).

(** midi/events/meta/smpte_offset.go:145-206 *)
Definition smpte_offset_binary : bytes -> outcome event := meta_method 84 (fun delta r bs => do data <- slice_vlf r; binary_smpte delta data bs).

(** midi/events/meta/time_signature.go:88-115 *)
Definition time_signature_binary : bytes -> outcome event :=
  meta_method 88 (fun delta r bs => do data <- slice_vlf r;
    match data with n :: d :: tc :: q :: _ => make_time_signature 0 delta n (double_loop (Z.to_nat d) 1) tc q bs | _ => Err end).

(** midi/events/meta/key_signature.go:107-145 *)
Definition key_signature_binary : bytes -> outcome event := meta_method 89 (fun delta r bs => do data <- slice_vlf r; binary_key delta data bs).

(** midi/events/meta/sequencer_specific.go:60-88 *)
Definition sequencer_specific_binary (env : env) : bytes -> outcome event := meta_method 127 (fun delta r bs => do data <- slice_vlf r; binary_seqspec env delta data bs).

(** midi/events/midi/note_off.go:131-155 *)
Definition note_off_binary (env : env) : bytes -> outcome event :=
  midi_method 128 3 (fun delta ch data bs => match data with n :: v :: _ => if 127 <? v then Err else make_note_off 0 delta ch (plain_note env n) v bs | _ => Err end).

(** midi/events/midi/note_on.go:81-105 *)
Definition note_on_binary (env : env) : bytes -> outcome event :=
  midi_method 144 3 (fun delta ch data bs => match data with n :: v :: _ => if 127 <? v then Err else make_note_on 0 delta ch (plain_note env n) v bs | _ => Err end).

(** midi/events/midi/polyphonic_pressure.go:65-83 *)
Definition polyphonic_pressure_binary : bytes -> outcome event :=
  midi_method 160 2 (fun delta ch data bs => match data with p :: _ => if 127 <? p then Err else make_polyphonic_pressure 0 delta ch p bs | [] => Err end).

(** midi/events/midi/controller.go:69-87 *)
Definition controller_binary : bytes -> outcome event :=
  midi_method 176 3 (fun delta ch data bs => match data with c :: v :: _ => make_controller 0 delta ch (lookup_controller c) v bs | _ => Err end).

(** midi/events/midi/program_change.go:63-82 *)
Definition program_change_binary : bytes -> outcome event :=
  midi_method 192 2 (fun delta ch data bs => match data with p :: _ => make_program_change 0 delta ch 0 p bs | [] => Err end).

(** midi/events/midi/channel_pressure.go:73-91 *)
Definition channel_pressure_binary : bytes -> outcome event :=
  midi_method 208 2 (fun delta ch data bs => match data with p :: _ => if 127 <? p then Err else make_channel_pressure 0 delta ch p bs | [] => Err end).

(** midi/events/midi/pitch_bend.go:68-90 *)
Definition pitch_bend_binary : bytes -> outcome event :=
  midi_method 224 3 (fun delta ch data bs =>
    match data with a :: b :: _ => if 127 <? a then Err else make_pitch_bend 0 delta ch (Z.lor (Z.shiftl a 7 mod 65536) (Z.land b 127)) bs | _ => Err end).

(** midi/events/sysex/message.go:92-116 *)
Definition message_binary (env : env) : bytes -> outcome event := sysex_method 240 (fun delta data bs => binary_sysex env delta data bs).

(** midi/events/sysex/continuation_message.go:84-107 *)
Definition continuation_binary : bytes -> outcome event := sysex_method 247 (fun delta data bs => binary_continuation delta data bs).

(** midi/events/sysex/escape_message.go:56-70 *)
Definition escape_binary : bytes -> outcome event := sysex_method 247 (fun delta data bs => Ok (make_escape 0 delta data bs)).

(** The types of midi/events/event.go:14-22 [TEvent], by the names of their tags, with their methods *)
Definition binary_methods (env : env) : list (bytes * (bytes -> outcome event)) :=
  [(str "SequenceNumber", sequence_number_binary);
   (str "Text", text_binary KText); (str "Copyright", text_binary KCopyright); (str "TrackName", text_binary KTrackName);
   (str "InstrumentName", text_binary KInstrumentName); (str "Lyric", text_binary KLyric); (str "Marker", text_binary KMarker);
   (str "CuePoint", text_binary KCuePoint); (str "ProgramName", text_binary KProgramName); (str "DeviceName", text_binary KDeviceName);
   (str "MIDIChannelPrefix", channel_prefix_binary); (str "MIDIPort", port_binary); (str "Tempo", tempo_binary);
   (str "TimeSignature", time_signature_binary); (str "KeySignature", key_signature_binary); (str "SMPTEOffset", smpte_offset_binary);
   (str "EndOfTrack", end_of_track_binary); (str "SequencerSpecificEvent", sequencer_specific_binary env);
   (str "NoteOff", note_off_binary env); (str "NoteOn", note_on_binary env); (str "PolyphonicPressure", polyphonic_pressure_binary);
   (str "Controller", controller_binary); (str "ProgramChange", program_change_binary); (str "ChannelPressure", channel_pressure_binary);
   (str "PitchBend", pitch_bend_binary); (str "SysExMessage", message_binary env); (str "SysExContinuation", continuation_binary);
   (str "SysExEscape", escape_binary)].
