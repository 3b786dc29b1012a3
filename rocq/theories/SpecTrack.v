(** * SpecTrack: which in-memory events, tracks and files are legal, i.e. representable.

    Uses only the model's data types.  Where the program itself narrows the range, the place is
    marked with the property that records it as a finding. *)
From Verif Require Import Base SpecVlq Tables Event SpecEvent Track File SpecFile.

(** Values a body may carry. *)
Definition legal_body (b : body) : Prop :=
  match b with
  | NoteOff ch n v | NoteOn ch n v => 0 <= ch < 16 /\ 0 <= n_value n < 128 /\ 0 <= v < 128
  | PolyphonicPressure ch p | ChannelPressure ch p | ProgramChange ch _ p =>
      0 <= ch < 16 /\ 0 <= p < 128
  | Controller ch c v => 0 <= ch < 16 /\ 0 <= c_id c < 128 /\ 0 <= v < 128
  | PitchBend ch b => 0 <= ch < 16 /\ 0 <= b < 128            (* narrowed: C09, 16384 in the standard *)
  | SequenceNumber n => 0 <= n < 65536
  | TextEvent KTrackName s => is_bytes s /\ zlen s <= vlq_max
  | TextEvent _ s => is_bytes s /\ zlen s < 128               (* narrowed: C10 *)
  | MIDIChannelPrefix ch => 0 <= ch < 16
  | MIDIPort p => 0 <= p < 128
  | EndOfTrack => True
  | Tempo t => 0 <= t < 16777216
  | SMPTEOffset h m s rate f ff =>
      (exists rr, smpte_code rr rate) /\ 0 <= h <= 24 /\ 0 <= m < 60 /\ 0 <= s < 60
      /\ 0 <= f < rate /\ 0 <= ff <= 100
  | TimeSignature n d t q =>
      is_byte n /\ (exists k, 0 <= k < 8 /\ d = 2 ^ k) /\ is_byte t /\ is_byte q
  | KeySignature acc kt _ => -7 <= acc <= 7 /\ (kt = 0 \/ kt = 1)
  | SequencerSpecific m d =>
      is_bytes (m_id m ++ d) /\ zlen (m_id m ++ d) < 128      (* narrowed: C13 *)
      /\ exists id r, wire_id id /\ m_id m ++ d = id ++ r
  | SysExMessage m d single =>
      is_bytes (m_id m ++ d) /\ zlen (m_id m ++ d) < vlq_max /\
      (if single then m_id m ++ d <> []
       else 2 <= zlen (m_id m ++ d) /\ last (m_id m ++ d) 0 <> 247)
  | SysExContinuation d fin => is_bytes d /\ zlen d < vlq_max /\ (fin = true \/ last d 0 <> 247)
  | SysExEscape d => is_bytes d /\ zlen d <= vlq_max
  end.

(** Status and type bytes agree with the kind of event, as every constructor function sets them. *)
Definition legal_header (e : event) : Prop :=
  match e_body e with
  | NoteOff _ _ _ | NoteOn _ _ _ | PolyphonicPressure _ _ | Controller _ _ _ | ProgramChange _ _ _
  | ChannelPressure _ _ | PitchBend _ _ => True
  | SequenceNumber _ => e_status e = 255 /\ e_type e = 0
  | TextEvent k _ => e_status e = 255 /\ e_type e = smf_text_type k
  | MIDIChannelPrefix _ => e_status e = 255 /\ e_type e = 32
  | MIDIPort _ => e_status e = 255 /\ e_type e = 33
  | EndOfTrack => e_status e = 255 /\ e_type e = 47
  | Tempo _ => e_status e = 255 /\ e_type e = 81
  | SMPTEOffset _ _ _ _ _ _ => e_status e = 255 /\ e_type e = 84
  | TimeSignature _ _ _ _ => e_status e = 255 /\ e_type e = 88
  | KeySignature _ _ _ => e_status e = 255 /\ e_type e = 89
  | SequencerSpecific _ _ => e_status e = 255 /\ e_type e = 127
  | SysExMessage _ _ _ => e_status e = 240
  | SysExContinuation _ _ | SysExEscape _ => e_status e = 247
  end.

Definition legal_event (e : event) : Prop :=
  legal_header e /\ 0 <= e_delta e <= vlq_max /\ legal_body (e_body e).

(** System exclusive packets follow each other properly: continuations only after an unfinished
    message, everything else of that kind only when none is unfinished. *)
Fixpoint sysex_sequence (op : bool) (bs : list body) : Prop :=
  match bs with
  | [] => True
  | SysExMessage _ _ single :: r => op = false /\ sysex_sequence (negb single) r
  | SysExContinuation _ fin :: r => op = true /\ sysex_sequence (negb fin) r
  | SysExEscape _ :: r => op = false /\ sysex_sequence op r
  | _ :: r => sysex_sequence op r
  end.

Definition legal_events (es : list event) : Prop :=
  Forall legal_event es /\ sysex_sequence false (map e_body es).

(** Manufacturers of the events are filed faithfully in the manufacturer table (see C47). *)
Definition faithful_events (env : env) (es : list event) : Prop :=
  Forall (fun e => ids_faithful env (view (e_body e))) es.

(** Contents of a track, up to the continuation flag. *)
Definition contents (es : list event) : list (Z * content) :=
  map (fun e => (e_delta e, forget_end (view (e_body e)))) es.

(** A header that MakeMThd or the decoder can produce. *)
Definition legal_mthd (h : mthd) : Prop :=
  h_tag h = str "MThd" /\ h_length h = 6 /\ (h_format h = 0 \/ h_format h = 1 \/ h_format h = 2)
  /\ 0 <= h_tracks h < 65536
  /\ (0 <= h_division h < 32768
      \/ exists hi lo, In hi [232; 231; 227; 226] /\ 0 <= lo < 256 /\ h_division h = hi * 256 + lo).

(** A file that can be written: legal header, right track count, legal tracks whose encoded size
    fits the 32-bit chunk length. *)
Definition legal_smf (s : smf) : Prop :=
  match f_mthd s with
  | None => False
  | Some h => legal_mthd h /\ h_tracks h = zlen (f_tracks s)
  end /\
  Forall (fun t => t_tag t = str "MTrk" /\ legal_events (t_events t)) (f_tracks s).

(** Two headers with the same fields (the derived timing fields and the raw bytes follow from them). *)
Definition same_header (h h' : mthd) : Prop :=
  h_tag h' = h_tag h /\ h_length h' = h_length h /\ h_format h' = h_format h
  /\ h_tracks h' = h_tracks h /\ h_division h' = h_division h.

(** Two tracks that differ at most in their number. *)
Definition same_track (t t' : mtrk) : Prop :=
  t_tag t = t_tag t' /\ t_length t = t_length t' /\ t_bytes t = t_bytes t' /\ t_events t = t_events t'
  /\ t_ctx t = t_ctx t'.

(** The fields of a decoded header. *)
Definition fields_of (h : mthd) : header_fields :=
  HF (h_format h) (h_tracks h) (h_division h) (h_ppqn h)
     (if h_smpte h then Some (h_fps h, h_drop h, h_subframes h) else None).
