(** * Parse: decoding one event (midi/MTrk.go [parse] and the packages it calls). *)
From Verif Require Import Base Strings Tables Vlq Event.

(** ** Channel events: midi/events/midi *)

(** midi/events/midi/midievent.go:159-175 [FormatNote(nil, n)]: note of a freshly decoded event. *)
Definition plain_note (env : env) (n : Z) : note :=
  Note n (format_note env false n) (format_note env false n).

(** [unmarshal] of note_off.go:42-68, note_on.go:43-69, polyphonic_pressure.go:39-54,
    controller.go:37-57, program_change.go:37-52, channel_pressure.go:39-62, pitch_bend.go:35-56,
    selected by midi/events/midi/midievent.go:81-103 (the status tests inside the [unmarshal]
    functions repeat the selection and cannot fail). *)
Definition unmarshal_midi (env : env) (tick delta status : Z) (data bs : bytes) : outcome event :=
  let ch := Z.land status 15 in
  let kind := Z.land status 240 in
  if kind =? 128 then
    match data with
    | n :: v :: _ => if 127 <? v then Err else make_note_off tick delta ch (plain_note env n) v bs
    | _ => Err
    end
  else if kind =? 144 then
    match data with
    | n :: v :: _ => if 127 <? v then Err else make_note_on tick delta ch (plain_note env n) v bs
    | _ => Err
    end
  else if kind =? 160 then
    match data with
    | p :: _ => make_polyphonic_pressure tick delta ch p bs
    | _ => Err
    end
  else if kind =? 176 then
    match data with
    | c :: v :: _ => make_controller tick delta ch (lookup_controller c) v bs
    | _ => Err
    end
  else if kind =? 192 then
    match data with
    | p :: _ => make_program_change tick delta ch 0 p bs
    | _ => Err
    end
  else if kind =? 208 then
    match data with
    | p :: _ => if 127 <? p then Err else make_channel_pressure tick delta ch p bs
    | _ => Err
    end
  else if kind =? 224 then
    match data with
    | a :: b :: _ =>
        (* bend := uint16(a); bend <<= 7; bend |= uint16(b) & 0x7f *)
        make_pitch_bend tick delta ch (Z.lor (Z.shiftl a 7 mod 65536) (Z.land b 127)) bs
    | _ => Err
    end
  else Err.

(** midi/events/midi/midievent.go:61-104 [Parse] *)
Definition midi_parse (env : env) (tick running : Z) (bs : bytes) : outcome event :=
  do (delta, remaining) <- slice_vlq bs;
  match remaining with
  | [] => Err
  | b :: r =>
      if b <? 128 then unmarshal_midi env tick delta running remaining bs
      else unmarshal_midi env tick delta b r bs
  end.

(** ** Meta events: midi/events/meta *)

(** midi/events/meta/tempo.go:37-41 (uint32 accumulator) *)
Definition be_fold (data : bytes) : Z :=
  fold_left (fun acc b => (Z.shiftl acc 8 mod 4294967296 + b) mod 4294967296) data 0.

(** midi/events/meta/time_signature.go:53-56: [for i := 0; i < data[1]; i++ { denominator *= 2 }] (uint8). *)
Fixpoint double_loop (k : nat) (d : Z) : Z :=
  match k with O => d | S j => double_loop j ((d * 2) mod 256) end.

(** Go conversion int8(b) of a byte. *)
Definition int8 (b : Z) : Z := if b <? 128 then b else b - 256.

(** midi/events/meta/smpte_offset.go:92-102 *)
Definition smpte_rate (rr : Z) : Z :=
  if rr =? 0 then 24 else if rr =? 1 then 25 else if rr =? 2 then 29 else 30.

(** midi/events/meta/smpte_offset.go:65-116 [unmarshal] (the test at 87 cannot fail) *)
Definition unmarshal_smpte (tick delta : Z) (data bs : bytes) : outcome event :=
  match data with
  | [d0; m; s; f; ff] =>
      let rr := Z.land (Z.shiftr d0 5) 3 in
      let h := Z.land d0 31 in
      if 24 <? h then Err else
      if 59 <? m then Err else
      if 59 <? s then Err else
      let rate := smpte_rate rr in
      if rate <=? f then Err else
      if 100 <? ff then Err else
      make_smpte_offset tick delta h m s rate f ff bs
  | _ => Err
  end.

(** midi/events/meta/key_signature.go:57-93 [unmarshal] *)
Definition unmarshal_key (tick delta : Z) (data bs : bytes) : outcome event :=
  match data with
  | [a; kt] =>
      let acc := int8 a in
      if kt =? 0 then
        match major_scale acc with None => Err | Some _ => make_key_signature tick delta acc 0 bs end
      else if kt =? 1 then
        match minor_scale acc with None => Err | Some _ => make_key_signature tick delta acc 1 bs end
      else Err
  | _ => Err
  end.

(** midi/events/meta/sequencer_specific.go:33-45 [unmarshal]: data[0:1] / data[1:] panics on an
    empty slice, data[3:] on a leading 00 with fewer than three bytes. *)
Definition unmarshal_seqspec (env : env) (tick delta : Z) (data bs : bytes) : outcome event :=
  match data with
  | [] => Panic
  | a :: d =>
      if a =? 0 then
        match d with
        | b :: c :: d' => Ok (make_sequencer_specific tick delta (lookup_manufacturer env [a; b; c]) d' bs)
        | _ => Panic
        end
      else Ok (make_sequencer_specific tick delta (lookup_manufacturer env [a]) d bs)
  end.

(** midi/lib/event.go:17-25: the textual type of a meta event type byte. *)
Definition text_kind (t : Z) : option textkind :=
  if t =? 1 then Some KText else if t =? 2 then Some KCopyright
  else if t =? 3 then Some KTrackName else if t =? 4 then Some KInstrumentName
  else if t =? 5 then Some KLyric else if t =? 6 then Some KMarker
  else if t =? 7 then Some KCuePoint else if t =? 8 then Some KProgramName
  else if t =? 9 then Some KDeviceName else None.

(** [unmarshal] of the meta event types, selected by midi/events/meta/metaevent.go:82-139. *)
Definition unmarshal_meta (env : env) (tick delta type : Z) (data bs : bytes) : outcome event :=
  match text_kind type with
  | Some k => Ok (make_text k tick delta data bs)   (* text.go:30-37 and likewise *)
  | None =>
  if type =? 0 then
    (* sequence_number.go:32-43 *)
    match data with
    | [a; b] => Ok (make_sequence_number tick delta (of_be16 a b) bs)
    | _ => Err
    end
  else if type =? 32 then
    (* midi_channel_prefix.go:35-47 *)
    match data with
    | [c] => if 15 <? c then Err else make_channel_prefix tick delta c bs
    | _ => Err
    end
  else if type =? 33 then
    (* midi_port.go:35-49 *)
    match data with
    | [p] => if 127 <? p then Err else make_port tick delta p bs
    | _ => Err
    end
  else if type =? 47 then
    (* end_of_track.go:28-32: the data is ignored *)
    Ok (make_end_of_track tick delta bs)
  else if type =? 81 then
    (* tempo.go:32-46 *)
    match data with
    | [_; _; _] => Ok (make_tempo tick delta (be_fold data) bs)
    | _ => Err
    end
  else if type =? 84 then unmarshal_smpte tick delta data bs
  else if type =? 88 then
    (* time_signature.go:44-61 *)
    match data with
    | [n; d; t; q] => make_time_signature tick delta n (double_loop (Z.to_nat d) 1) t q bs
    | _ => Err
    end
  else if type =? 89 then unmarshal_key tick delta data bs
  else if type =? 127 then unmarshal_seqspec env tick delta data bs
  else Err
  end.

(** midi/events/meta/metaevent.go:59-140 [Parse] *)
Definition meta_parse (env : env) (tick : Z) (bs : bytes) : outcome event :=
  do (delta, remaining) <- slice_vlq bs;
  match remaining with
  | [] => Err
  | st :: r =>
      if negb (st =? 255) then Err else
      match r with
      | [] => Err
      | ty :: r' =>
          do data <- slice_vlf r';
          unmarshal_meta env tick delta (Z.land ty 127) data bs
      end
  end.

(** ** SysEx events: midi/events/sysex *)

(** Does the byte string end in F7? *)
Definition ends_f7 (d : bytes) : bool := last d 0 =? 247.

(** midi/events/sysex/message.go:48-68 [unmarshal]: d[len(d)-1] panics if only the manufacturer
    byte is there. *)
Definition unmarshal_sysex (env : env) (tick delta : Z) (data bs : bytes) : outcome event :=
  match data with
  | [] => Err
  | [_] => Panic
  | id :: d =>
      let m := lookup_manufacturer env [id] in
      if ends_f7 d then Ok (make_sysex tick delta m (removelast d) true bs)
      else Ok (make_sysex tick delta m d false bs)
  end.

(** midi/events/sysex/continuation_message.go:45-61 [unmarshal]: a final F7 is dropped, and
    the result is built with MakeSysExContinuationMessage (End = false) either way. *)
Definition unmarshal_continuation (tick delta : Z) (data bs : bytes) : outcome event :=
  match data with
  | [] => Ok (make_continuation tick delta [] false bs)
  | _ => Ok (make_continuation tick delta (if ends_f7 data then removelast data else data) false bs)
  end.

(** midi/events/sysex/sysex.go:52-88 [Parse]; escape_message.go:29-37 [unmarshal] *)
Definition sysex_parse (env : env) (tick : Z) (casio : bool) (bs : bytes) : outcome event :=
  do (delta, remaining) <- slice_vlq bs;
  match remaining with
  | [] => Err
  | st :: r =>
      if negb ((st =? 240) || (st =? 247)) then Err else
      do data <- slice_vlf r;
      if st =? 240 then unmarshal_sysex env tick delta data bs
      else if casio then unmarshal_continuation tick delta data bs
      else Ok (make_escape tick delta data bs)
  end.

(** ** One event of a track: midi/MTrk.go *)

(** The bytes read so far: reader.buffer (midi/reader.go:13-20, 41-43), i.e. what was consumed of
    the stream [r] when [rest] remains. *)
Definition consumed (r rest : bytes) : bytes := firstn (length r - length rest) r.

(** midi/MTrk.go:170-178: number of data bytes by status. *)
Definition data_length (status : Z) : nat :=
  let k := Z.land status 240 in
  if k =? 128 then 2%nat else if k =? 144 then 2%nat else if k =? 160 then 1%nat
  else if k =? 176 then 2%nat else if k =? 192 then 1%nat else if k =? 208 then 1%nat
  else if k =? 224 then 2%nat else 0%nat.

(** midi/events/event.go:37-45 [NewEvent]: the event returned with a non-nil error is nil, on which
    NewEvent panics before the error is looked at (midi/MTrk.go:140 and 190). *)
Definition new_event (x : outcome event) : outcome event :=
  match x with
  | Ok e => Ok e
  | Loop => Loop
  | _ => Panic
  end.

(** midi/MTrk.go:105-191 [parse]: result is the event, the updated context and the rest of the
    stream.  (The context after an error is not modelled: the decoder stops.) *)
Definition parse (env : env) (c : ctx) (tick : Z) (r : bytes) : outcome (event * ctx * bytes) :=
  do (delta, r1) <- stream_vlq r;
  match r1 with
  | [] => Eof                                        (* 118-119: peek *)
  | b :: r1' =>
      if (b <? 128) && (c_running c <? 128) then Err   (* 120-121 *)
      else
      let status := if b <? 128 then c_running c else b in
      let r2 := if b <? 128 then r1 else r1' in
      if status =? 255 then
        (* 129-141: meta event *)
        match r2 with
        | [] => Eof
        | _ :: r3 =>
            do (_, rest) <- stream_vlf r3;
            do e <- new_event (meta_parse env (tick + delta) (consumed r rest));
            Ok (e, set_running 0 c, rest)
        end
      else if (status =? 240) || (status =? 247) then
        (* 144-167: SysEx event *)
        do (_, rest) <- stream_vlf r2;
        if (status =? 240) && c_casio c then Err
        else
          let bs := consumed r rest in
          do e <- sysex_parse env (tick + delta) (c_casio c) bs;
          let casio :=
            if status =? 240 then negb (ends_f7 bs)
            else if c_casio c && ends_f7 bs then false else c_casio c in
          Ok (e, set_casio casio (set_running 0 c), rest)
      else
        (* 170-190: MIDI event *)
        let n := data_length status in
        if (length r2 <? n)%nat then Eof
        else
          let rest := skipn n r2 in
          do e <- new_event (midi_parse env (tick + delta) (c_running c) (consumed r rest));
          Ok (e, set_running status c, rest)
  end.
