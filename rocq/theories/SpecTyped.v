(** * SpecTyped: which messages belong to which kind of event. *)
From Verif Require Import Base Strings SpecVlq.

(** The types of the meta events *)
Definition meta_numbers : list (bytes * Z) :=
  [(str "SequenceNumber", 0); (str "Text", 1); (str "Copyright", 2); (str "TrackName", 3); (str "InstrumentName", 4); (str "Lyric", 5); (str "Marker", 6);
   (str "CuePoint", 7); (str "ProgramName", 8); (str "DeviceName", 9); (str "MIDIChannelPrefix", 32); (str "MIDIPort", 33); (str "EndOfTrack", 47);
   (str "Tempo", 81); (str "SMPTEOffset", 84); (str "TimeSignature", 88); (str "KeySignature", 89); (str "SequencerSpecificEvent", 127)].

(** The statuses of the channel events, for channel 0 *)
Definition channel_statuses : list (bytes * Z) :=
  [(str "NoteOff", 128); (str "NoteOn", 144); (str "PolyphonicPressure", 160); (str "Controller", 176); (str "ProgramChange", 192);
   (str "ChannelPressure", 208); (str "PitchBend", 224)].

(** [addressed kind st x]: a message of status [st] with [x] behind it belongs to [kind].  The top bit of the type of a meta event does not matter;
    continuations and escapes look the same. *)
Inductive addressed : bytes -> Z -> Z -> Prop :=
| ad_meta : forall kind n x, In (kind, n) meta_numbers -> x = n \/ x = n + 128 -> addressed kind 255 x
| ad_channel : forall kind s st x, In (kind, s) channel_statuses -> s <= st < s + 16 -> addressed kind st x
| ad_sysex : forall x, addressed (str "SysExMessage") 240 x
| ad_continuation : forall x, addressed (str "SysExContinuation") 247 x
| ad_escape : forall x, addressed (str "SysExEscape") 247 x.

(** [message bs st x]: behind the delta time come the status and at least one more byte. *)
Definition message (bs : bytes) (st x : Z) : Prop := exists d r, vlq_string d /\ bs = d ++ st :: x :: r.
