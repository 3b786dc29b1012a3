(** * SpecTemplate: what the listing of a file consists of, and which template is for which event, in terms of the template file's documentation
    (the comment of each definition names the lines of ops/disassemble/template it restates). *)
From Verif Require Import Base Strings Tables Event Track File Hex Disassemble Template.

(** The names of the templates for the kinds of events (ops/disassemble/template:23-50) *)
Definition kind_template (b : body) : bytes :=
  match b with
  | SequenceNumber _ => str "sequenceno"
  | TextEvent k _ =>
      match k with
      | KText => str "text" | KCopyright => str "copyright" | KTrackName => str "trackname" | KInstrumentName => str "instrumentname"
      | KLyric => str "lyric" | KMarker => str "marker" | KCuePoint => str "cuepoint" | KProgramName => str "programname"
      | KDeviceName => str "devicename"
      end
  | MIDIChannelPrefix _ => str "midichannelprefix"
  | MIDIPort _ => str "midiport"
  | EndOfTrack => str "endoftrack"
  | Tempo _ => str "tempo"
  | SMPTEOffset _ _ _ _ _ _ => str "smpteoffset"
  | TimeSignature _ _ _ _ => str "timesignature"
  | KeySignature _ _ _ => str "keysignature"
  | SequencerSpecific _ _ => str "sequencerspecificevent"
  | NoteOff _ _ _ => str "noteoff"
  | NoteOn _ _ _ => str "noteon"
  | PolyphonicPressure _ _ => str "polyphonicpressure"
  | Controller _ _ _ => str "controller"
  | ProgramChange _ _ _ => str "programchange"
  | ChannelPressure _ _ => str "channelpressure"
  | PitchBend _ _ => str "pitchbend"
  | SysExMessage _ _ _ => str "sysexmessage"
  | SysExContinuation _ _ => str "sysexcontinuation"
  | SysExEscape _ => str "sysexescape"
  end.

(** The templates that lay out the listing (ops/disassemble/template:1-52,88); all others are for one kind of event, or are not used. *)
Definition layout_names : list bytes := map str ["document"; "MThd"; "MTrk"; "event"; "events"; "hex"]%string.

(** Something that is written without fail, and something that may fail before anything is written *)
Definition writes (s : bytes) : written := (s, Done).
Definition may_fail (x : outcome bytes) : written := match x with Ok s => (s, Done) | _ => ([], Failed) end.

(** What has been written against the text that should have been: all of it; where there is none, an error has ended the execution, maybe after some output. *)
Definition agrees (w : written) (o : outcome bytes) : Prop := match o with Ok s => w = (s, Done) | _ => snd w = Failed end.

(** ops/disassemble/template:19: the line of an event, given what comes after tick and delta *)
Definition event_written (own : event -> written) (e : event) : written :=
  sequence [may_fail (hex_column (e_bytes e));
            writes (str "  tick:" ++ pad 9 (dec (e_tick e)) ++ str "  delta:" ++ pad 9 (dec (e_delta e)) ++ str "  ");
            own e; writes [10]].

(** ops/disassemble/template:14-17: a track *)
Definition track_line (t : mtrk) : bytes :=
  [10] ++ pad 42 (ellipsize (hex_string (t_bytes t)) 24) ++ str "  " ++ t_tag t ++ str " " ++ pad 2 (dec (t_number t)) ++
  str " length:" ++ dec (t_length t) ++ [10].
Definition track_written (own : event -> written) (t : mtrk) : written :=
  andthen (writes (track_line t)) (sequence (map (event_written own) (t_events t))).

(** ops/disassemble/template:1-6: a file *)
Definition header_written (h : option mthd) : written := match h with Some h => writes (mthd_line h) | None => ([], Failed) end.
Definition file_written (own : event -> written) (s : smf) : written :=
  andthen (header_written (f_mthd s)) (sequence (map (track_written own) (f_tracks s))).

(** What the template for its kind writes for an event, when up to [depth] templates may be entered *)
Definition own_text (ts : trees) (depth : nat) (e : event) : written :=
  match assocb (kind_template (e_body e)) ts with
  | Some body => exec ts depth (inner_data e) body
  | None => ([], Failed)
  end.

(** A template file that leaves the layout alone and defines nothing but what its names say *)
Definition plain_templates (us : list (bytes * bytes)) : Prop :=
  forall name text, In (name, text) us -> contains text (str "define") = false /\ ~ In name layout_names.

(** What the listing shows for an event: what the user's template for its kind writes; if there is none, or an empty one, the built-in text.
    The listing, track, "event" and "events" templates around it count among the 100000 that may be entered. *)
Definition shown_for (us : list (bytes * bytes)) (ts : trees) (e : event) : written :=
  match assocb (kind_template (e_body e)) us with
  | None => writes (event_text e)
  | Some text =>
      match parse_template (kind_template (e_body e)) text with
      | Some [(_, ns)] => if empty_tree ns then writes (event_text e) else exec ts (Z.to_nat 99996) (inner_data e) ns
      | _ => ([], Failed)
      end
  end.

(** A template file none of whose texts defines further templates *)
Definition no_defines (us : list (bytes * bytes)) : Prop := forall name text, In (name, text) us -> contains text (str "define") = false.
