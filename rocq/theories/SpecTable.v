(** * SpecTable: what the TSV table shows. *)
From Verif Require Import Base Tables Event Track SpecDecimal SpecText.

(** The cell in row [r] and column [c]. *)
Definition cell (t : list (list bytes)) (r c : nat) : bytes := nth c (nth r t []) [].

Definition titles : list bytes :=
  [str "Tick"; str "Delta"; str "Tag"; str "Channel"; str "Note"; str "Velocity"; str "Details"].

(** The name of the kind of event. *)
Definition kind_name (b : body) : bytes :=
  match b with
  | NoteOff _ _ _ => str "NoteOff" | NoteOn _ _ _ => str "NoteOn"
  | PolyphonicPressure _ _ => str "PolyphonicPressure" | Controller _ _ _ => str "Controller"
  | ProgramChange _ _ _ => str "ProgramChange" | ChannelPressure _ _ => str "ChannelPressure" | PitchBend _ _ => str "PitchBend"
  | SequenceNumber _ => str "SequenceNumber"
  | TextEvent KText _ => str "Text" | TextEvent KCopyright _ => str "Copyright" | TextEvent KTrackName _ => str "TrackName"
  | TextEvent KInstrumentName _ => str "InstrumentName" | TextEvent KLyric _ => str "Lyric" | TextEvent KMarker _ => str "Marker"
  | TextEvent KCuePoint _ => str "CuePoint" | TextEvent KProgramName _ => str "ProgramName" | TextEvent KDeviceName _ => str "DeviceName"
  | MIDIChannelPrefix _ => str "MIDIChannelPrefix" | MIDIPort _ => str "MIDIPort" | EndOfTrack => str "EndOfTrack"
  | Tempo _ => str "Tempo" | SMPTEOffset _ _ _ _ _ _ => str "SMPTEOffset" | TimeSignature _ _ _ _ => str "TimeSignature"
  | KeySignature _ _ _ => str "KeySignature" | SequencerSpecific _ _ => str "SequencerSpecificEvent"
  | SysExMessage _ _ _ => str "SysExMessage" | SysExContinuation _ _ => str "SysExContinuation" | SysExEscape _ => str "SysExEscape"
  end.

(** The channel of a channel message, note and velocity of a note message. *)
Definition message_channel (b : body) : option Z :=
  match b with
  | NoteOff c _ _ | NoteOn c _ _ | PolyphonicPressure c _ | Controller c _ _ | ProgramChange c _ _ | ChannelPressure c _ | PitchBend c _ => Some c
  | _ => None
  end.
Definition message_note (b : body) : option (Z * Z) :=
  match b with NoteOff _ n v | NoteOn _ n v => Some (n_value n, v) | _ => None end.

(** A number in decimal, or an empty cell. *)
Definition number_cell (n : option Z) (s : bytes) : Prop :=
  match n with Some n => decimal n s | None => s = [] end.

(** A pattern of numbers and text. *)
Inductive part := Num (n : Z) | Lit (s : bytes) | HexOf (s : bytes).
Inductive reads_as : list part -> bytes -> Prop :=
| ra_nil : reads_as [] []
| ra_num : forall n d ps s, decimal n d -> reads_as ps s -> reads_as (Num n :: ps) (d ++ s)
| ra_lit : forall l ps s, reads_as ps s -> reads_as (Lit l :: ps) (l ++ s)
| ra_hex : forall b h ps s, hex_form b h -> reads_as ps s -> reads_as (HexOf b :: ps) (h ++ s).

(** A number with at least two digits. *)
Definition two_digits (n : Z) : list part := if n <? 10 then [Lit [48]; Num n] else [Num n].

(** The numbers in brackets with spaces between them. *)
Fixpoint spaced_numbers (l : bytes) : list part :=
  match l with [] => [] | [n] => [Num n] | n :: r => Num n :: Lit [32] :: spaced_numbers r end.

(** What the last column says. *)
Definition details (b : body) : list part :=
  match b with
  | SequenceNumber n | MIDIChannelPrefix n | MIDIPort n | Tempo n | PolyphonicPressure _ n | ChannelPressure _ n | PitchBend _ n => [Num n]
  | TextEvent _ s => [Lit s]
  | EndOfTrack => []
  | SMPTEOffset h m s r f ff => [Lit (str "offset ")] ++ two_digits h ++ [Lit (str ":")] ++ two_digits m ++ [Lit (str ":")] ++ two_digits s ++
      [Lit (str "  frame rate "); Num r; Lit (str ":"); Num f; Lit (str ":"); Num ff]
  | KeySignature _ _ key => [Lit key]
  | TimeSignature n d t q => [Num n; Lit (str "/"); Num d; Lit (str ", "); Num t; Lit (str " ticks/click, "); Num q; Lit (str " 32nds/quarter")]
  | SequencerSpecific m d => [Lit (m_name m); Lit (str " ["); HexOf d; Lit (str "]")]
  | NoteOff _ n _ | NoteOn _ n _ => [Lit (n_name n)]
  | Controller _ c v => [Num (c_id c); Lit (str ":"); Lit (c_name c); Lit (str ", "); Num v]
  | ProgramChange _ b p => [Num b; Lit (str ", "); Num p]
  | SysExMessage m d _ => [Lit (str "[")] ++ spaced_numbers (m_id m) ++ [Lit (str "]:"); Lit (m_region m); Lit (str ":"); Lit (m_name m); Lit (str ", "); HexOf d]
  | SysExContinuation d _ | SysExEscape d => [HexOf d]
  end.

(** The data bytes of the event are bytes and SMPTE times are not negative. *)
Definition printable (b : body) : Prop :=
  match b with
  | SequencerSpecific _ d | SysExMessage _ d _ | SysExContinuation d _ | SysExEscape d => is_bytes d
  | SMPTEOffset h m s _ _ _ => 0 <= h /\ 0 <= m /\ 0 <= s
  | _ => True
  end.

(** The seven cells of an event. *)
Definition shows (e : event) (l : list bytes) : Prop :=
  exists tick delta channel note velocity text,
    l = [tick; delta; kind_name (e_body e); channel; note; velocity; text] /\
    decimal (e_tick e) tick /\ decimal (e_delta e) delta /\ number_cell (message_channel (e_body e)) channel /\
    number_cell (option_map fst (message_note (e_body e))) note /\ number_cell (option_map snd (message_note (e_body e))) velocity /\
    reads_as (details (e_body e)) text.

(** The number of rows for events: that of the longest track. *)
Definition longest (ts : list mtrk) (n : nat) : Prop :=
  Forall (fun t => (length (t_events t) <= n)%nat) ts /\ (n = 0%nat \/ exists t, In t ts /\ length (t_events t) = n).

(** Separated by [sep]. *)
Inductive separated (sep : bytes) : list bytes -> bytes -> Prop :=
| sep_nil : separated sep [] []
| sep_one : forall x, separated sep [x] x
| sep_more : forall x y r s, separated sep (y :: r) s -> separated sep (x :: y :: r) (x ++ sep ++ s).
