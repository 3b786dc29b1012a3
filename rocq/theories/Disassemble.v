(** * Disassemble: ops/disassemble/disassemble.go and ops/disassemble/template. *)
From Verif Require Import Base Strings Tables Event Track File Utf8 Hex.

(** ops/disassemble/disassemble.go:74-85 [ellipsize] of a string *)
Definition ellipsize (s : bytes) (len : Z) : bytes :=
  if len <=? 0 then []
  else let rs := runes s in
       if zlen rs <=? len then concat rs else concat (firstn (Z.to_nat (len - 1)) rs) ++ [226; 128; 166].

(** disassemble.go:87-94 [pad] of a string *)
Definition pad (width : Z) (s : bytes) : bytes :=
  if width <? zlen (runes s) then s else s ++ repeat 32 (Z.to_nat (width - zlen (runes s))).

(** disassemble.go:97-106: the number of bytes up to and including the first one without the top bit; past the end
    [bytes[ix]] panics (text/template turns the panic into an error of Execute). *)
Fixpoint vlq_width (bs : bytes) : outcome Z :=
  match bs with
  | [] => Err
  | b :: r => if Z.land b 128 =? 0 then Ok 1 else do n <- vlq_width r; Ok (n + 1)
  end.

(** disassemble.go:96-119 [valign] with one width argument *)
Definition valign (bs : bytes) (width : Z) : outcome bytes :=
  do ix <- vlq_width bs;
  Ok ((if ix <? width then concat (repeat (str "   ") (Z.to_nat (width - ix))) else []) ++ hex_string bs).

(** template, "hex" *)
Definition hex_column (bs : bytes) : outcome bytes :=
  do s <- valign bs 3; Ok (pad 42 (ellipsize s 42)).

(** template, "sequenceno" to "sysexescape": what follows type or status and tag.  {{.Tempo}} etc. print numbers in decimal,
    {{.Data}} is Hex.String. *)
Definition event_details (b : body) : bytes :=
  let ch c := str "channel:" ++ pad 2 (dec c) in
  match b with
  | SequenceNumber n => dec n
  | TextEvent _ s => s
  | MIDIChannelPrefix c => dec c
  | MIDIPort p => dec p
  | EndOfTrack => []
  | Tempo t => str "tempo:" ++ dec t
  | SMPTEOffset h m s rate f ff =>
      dec h ++ [32] ++ dec m ++ [32] ++ dec s ++ [32] ++ dec rate ++ [32] ++ dec f ++ [32] ++ dec ff
  | TimeSignature n d t q =>
      dec n ++ str "/" ++ dec d ++ str ", " ++ dec t ++ str " ticks per click, " ++ dec q ++ str "/32 per quarter"
  | KeySignature _ _ key => key
  | SequencerSpecific m data => m_name m ++ str ", " ++ hex_string data
  | NoteOff c n v | NoteOn c n v => ch c ++ str " note:" ++ n_name n ++ str ", velocity:" ++ dec v
  | PolyphonicPressure c p | ChannelPressure c p => ch c ++ str " pressure:" ++ dec p
  | Controller c ct v => ch c ++ str " " ++ dec (c_id ct) ++ str "/" ++ c_name ct ++ str ", value:" ++ dec v
  | ProgramChange c bank p => ch c ++ str " bank:" ++ dec bank ++ str ", program:" ++ dec p
  | PitchBend c b => ch c ++ str " bend:" ++ dec b
  | SysExMessage m data _ => m_name m ++ str ", " ++ hex_string data
  | SysExContinuation data _ => hex_string data
  | SysExEscape data => hex_string data
  end.

(** The event structs with a meta event type (template: {{.Type}}, the others {{.Status}}). *)
Definition is_meta (b : body) : bool :=
  match b with
  | SequenceNumber _ | TextEvent _ _ | MIDIChannelPrefix _ | MIDIPort _ | EndOfTrack | Tempo _ | SMPTEOffset _ _ _ _ _ _
  | TimeSignature _ _ _ _ | KeySignature _ _ _ | SequencerSpecific _ _ => true
  | _ => false
  end.

(** template, "events" and the templates it calls: type or status (%02X), tag padded to 22 characters, a space and the details;
    "endoftrack" has neither padding nor details. *)
Definition event_text (e : event) : bytes :=
  hex2 (if is_meta (e_body e) then e_type e else e_status e) ++ [32] ++
  match e_body e with
  | EndOfTrack => body_tag (e_body e)
  | b => pad 22 (body_tag b) ++ [32] ++ event_details b
  end.

(** template, "event"; the line feed is the one before the last {{end}} of "events". *)
Definition event_line (e : event) : outcome bytes :=
  do hex <- hex_column (e_bytes e);
  Ok (hex ++ str "  tick:" ++ pad 9 (dec (e_tick e)) ++ str "  delta:" ++ pad 9 (dec (e_delta e)) ++ str "  " ++ event_text e ++ [10]).

(** template, "MThd" *)
Definition mthd_line (h : mthd) : bytes :=
  pad 42 (ellipsize (hex_string (h_bytes h)) 42) ++ str "  " ++ h_tag h ++ str " length:" ++ dec (h_length h) ++
  str ", format:" ++ dec (h_format h) ++ str ", tracks:" ++ dec (h_tracks h) ++ str ", " ++
  (if h_smpte h then str "SMPTE:" ++ dec (h_fps h) ++ str " fps," ++ dec (h_subframes h) ++ str " sub-frames"
   else str "metrical time:" ++ dec (h_ppqn h) ++ str " ppqn") ++ [10].

(** template, "MTrk": the lines of the events *)
Fixpoint event_lines (es : list event) : outcome bytes :=
  match es with
  | [] => Ok []
  | e :: r => do l <- event_line e; do ls <- event_lines r; Ok (l ++ ls)
  end.

(** template, "MTrk"; {{.TrackNumber}} is printed with %-2d (midi/lib/track_number.go:9-11). *)
Definition mtrk_text (t : mtrk) : outcome bytes :=
  do ls <- event_lines (t_events t);
  Ok ([10] ++ pad 42 (ellipsize (hex_string (t_bytes t)) 24) ++ str "  " ++ t_tag t ++ str " " ++ pad 2 (dec (t_number t)) ++
      str " length:" ++ dec (t_length t) ++ [10] ++ ls).

(** template, "document": the tracks *)
Fixpoint mtrks_text (ts : list mtrk) : outcome bytes :=
  match ts with
  | [] => Ok []
  | t :: r => do a <- mtrk_text t; do b <- mtrks_text r; Ok (a ++ b)
  end.

(** template, "document", as printed by commands/disassemble.go:94-109 [write].  A nil MThd is an error of Execute (a nil
    pointer evaluating .Bytes). *)
Definition disassemble (s : smf) : outcome bytes :=
  match f_mthd s with
  | None => Err
  | Some h => do ts <- mtrks_text (f_tracks s); Ok (mthd_line h ++ ts)
  end.
