(** * SpecDecoded: the ranges of the fields of decoded events. *)
From Verif Require Import Base Tables Event SpecEvent SpecKey.

(** [env] is used for the manufacturer table only. *)
Definition decoded_body (env : env) (b : body) : Prop :=
  match b with
  | NoteOff ch n v | NoteOn ch n v => 0 <= ch < 16 /\ 0 <= n_value n < 256 /\ 0 <= v < 128
  | PolyphonicPressure ch p | ChannelPressure ch p => 0 <= ch < 16 /\ 0 <= p < 128
  | Controller ch c v => 0 <= ch < 16 /\ (exists id, 0 <= id < 256 /\ c = lookup_controller id) /\ 0 <= v < 256
  | ProgramChange ch bank p => 0 <= ch < 16 /\ 0 <= bank < 16384 /\ 0 <= p < 256
  | PitchBend ch b => 0 <= ch < 16 /\ 0 <= b < 32768
  | SequenceNumber n => 0 <= n < 65536
  | TextEvent _ s => is_bytes s
  | MIDIChannelPrefix ch => 0 <= ch < 16
  | MIDIPort p => 0 <= p < 128
  | EndOfTrack => True
  | Tempo t => 0 <= t < 16777216
  | SMPTEOffset h m s rate f ff =>
      0 <= h <= 24 /\ 0 <= m < 60 /\ 0 <= s < 60 /\ (rate = 24 \/ rate = 25 \/ rate = 29 \/ rate = 30) /\ 0 <= f < rate /\ 0 <= ff <= 100
  | TimeSignature n d t q => is_byte n /\ (d = 0 \/ exists k, 0 <= k < 8 /\ d = 2 ^ k) /\ is_byte t /\ is_byte q
  | KeySignature acc kt key => key_range acc /\ exists minor : bool, kt = (if minor then 1 else 0) /\ key = key_name minor acc
  | SequencerSpecific m d => is_bytes d /\ exists id, is_bytes id /\ wire_id id /\ m = lookup_manufacturer env id
  | SysExMessage m d _ => is_bytes d /\ exists id, is_byte id /\ m = lookup_manufacturer env [id]
  | SysExContinuation d fin => is_bytes d /\ fin = false
  | SysExEscape d => is_bytes d
  end.
