(** * Unmarshal: decoding one free-standing event (midi/events/binary.go).

    [Event.UnmarshalBinary] is a second decoder beside the one in midi/MTrk.go: it looks at the delta time,
    the status byte and the meta event type and hands the same bytes to the [UnmarshalBinary] method of the
    event type, which reads delta time, status and type again.  Those repeated tests
    ([remaining[0] != 0xff], [!equals(...)], [channel > 15]) cannot fail after the selection and are left out. *)
From Verif Require Import Base Strings Tables Vlq Event Parse.

(** midi/events/meta/smpte_offset.go:156-203, behind [vlf]: at least five bytes, further ones are ignored. *)
Definition binary_smpte (delta : Z) (data bs : bytes) : outcome event :=
  match data with
  | d0 :: m :: s :: f :: ff :: _ =>
      let rr := Z.land (Z.shiftr d0 5) 3 in
      let h := Z.land d0 31 in
      if 24 <? h then Err else
      if 59 <? m then Err else
      if 59 <? s then Err else
      let rate := smpte_rate rr in
      if rate <=? f then Err else
      if 100 <? ff then Err else
      make_smpte_offset 0 delta h m s rate f ff bs
  | _ => Err
  end.

(** midi/events/meta/key_signature.go:118-142, behind [vlf] *)
Definition binary_key (delta : Z) (data bs : bytes) : outcome event :=
  match data with
  | a :: kt :: _ =>
      let acc := int8 a in
      if kt =? 0 then
        match major_scale acc with None => Err | Some _ => make_key_signature 0 delta acc 0 bs end
      else if kt =? 1 then
        match minor_scale acc with None => Err | Some _ => make_key_signature 0 delta acc 1 bs end
      else Err
  | _ => Err
  end.

(** midi/events/meta/sequencer_specific.go:71-84, behind [vlf]: fewer than two bytes are an error, [data[0:3]]
    panics on two bytes of which the first is 00 (capacity taken as length, see [slice_vlf]). *)
Definition binary_seqspec (env : env) (delta : Z) (data bs : bytes) : outcome event :=
  match data with
  | a :: b :: d =>
      if a =? 0 then
        match d with
        | c :: d' => Ok (make_sequencer_specific 0 delta (lookup_manufacturer env [a; b; c]) d' bs)
        | [] => Panic
        end
      else Ok (make_sequencer_specific 0 delta (lookup_manufacturer env [a]) (b :: d) bs)
  | _ => Err
  end.

(** The meta events: midi/events/binary.go:23-75 and the [UnmarshalBinary] methods of midi/events/meta.
    [ty] is the type byte (its top bit is ignored by [equals]), [r] what follows it. *)
Definition binary_meta (env : env) (delta ty : Z) (r bs : bytes) : outcome event :=
  let t := Z.land ty 127 in
  match text_kind t with
  | Some k => do s <- slice_vlf r; Ok (make_text k 0 delta s bs)   (* text.go:48-64 and likewise *)
  | None =>
  if t =? 0 then
    (* sequence_number.go:64-68: binary.BigEndian.Uint16 panics on fewer than two bytes *)
    do v <- slice_vlf r;
    match v with
    | a :: b :: _ => Ok (make_sequence_number 0 delta (of_be16 a b) bs)
    | _ => Panic
    end
  else if t =? 32 then
    (* midi_channel_prefix.go:67-75 *)
    do data <- slice_vlf r;
    match data with
    | c :: _ => if 15 <? c then Err else make_channel_prefix 0 delta c bs
    | [] => Err
    end
  else if t =? 33 then
    (* midi_port.go:69-77 *)
    do data <- slice_vlf r;
    match data with
    | p :: _ => if 127 <? p then Err else make_port 0 delta p bs
    | [] => Err
    end
  else if t =? 81 then
    (* tempo.go:76-88 *)
    do data <- slice_vlf r;
    match data with
    | a :: b :: c :: _ => Ok (make_tempo 0 delta (be_fold [a; b; c]) bs)
    | _ => Err
    end
  else if t =? 88 then
    (* time_signature.go:97-112 *)
    do data <- slice_vlf r;
    match data with
    | n :: d :: tc :: q :: _ => make_time_signature 0 delta n (double_loop (Z.to_nat d) 1) tc q bs
    | _ => Err
    end
  else if t =? 89 then do data <- slice_vlf r; binary_key delta data bs
  else if t =? 84 then do data <- slice_vlf r; binary_smpte delta data bs
  else if t =? 47 then
    (* end_of_track.go:42-56: the length is not even looked at *)
    Ok (make_end_of_track 0 delta bs)
  else if t =? 127 then do data <- slice_vlf r; binary_seqspec env delta data bs
  else Err                        (* binary.go:108-109; no other case matches the status FF *)
  end.

(** The channel events: midi/events/binary.go:77-96 and the [UnmarshalBinary] methods of midi/events/midi:
    note_off.go:131-155, note_on.go:81-105, polyphonic_pressure.go:65-83, controller.go:69-87,
    program_change.go:63-82, channel_pressure.go:73-91, pitch_bend.go:68-90.  [data] is what follows the
    status byte; its length must be exact. *)
Definition binary_chan (env : env) (delta st : Z) (data bs : bytes) : outcome event :=
  let ch := Z.land st 15 in
  let kind := Z.land st 240 in
  if kind =? 128 then
    match data with
    | [n; v] => if 127 <? v then Err else make_note_off 0 delta ch (plain_note env n) v bs
    | _ => Err
    end
  else if kind =? 144 then
    match data with
    | [n; v] => if 127 <? v then Err else make_note_on 0 delta ch (plain_note env n) v bs
    | _ => Err
    end
  else if kind =? 160 then
    match data with
    | [p] => if 127 <? p then Err else make_polyphonic_pressure 0 delta ch p bs
    | _ => Err
    end
  else if kind =? 176 then
    match data with
    | [c; v] => make_controller 0 delta ch (lookup_controller c) v bs
    | _ => Err
    end
  else if kind =? 192 then
    match data with
    | [p] => make_program_change 0 delta ch 0 p bs
    | _ => Err
    end
  else if kind =? 208 then
    match data with
    | [p] => if 127 <? p then Err else make_channel_pressure 0 delta ch p bs
    | _ => Err
    end
  else
    match data with
    | [a; b] =>
        if 127 <? a then Err
        else make_pitch_bend 0 delta ch (Z.lor (Z.shiftl a 7 mod 65536) (Z.land b 127)) bs
    | _ => Err
    end.

(** midi/events/sysex/message.go:99-113, behind [vlf]: [data[0:1]] panics on an empty payload and
    [d[len(d)-1]] on one byte. *)
Definition binary_sysex (env : env) (delta : Z) (data bs : bytes) : outcome event :=
  match data with
  | [] => Panic
  | [_] => Panic
  | id :: d =>
      let m := lookup_manufacturer env [id] in
      if ends_f7 d then Ok (make_sysex 0 delta m (removelast d) true bs)
      else Ok (make_sysex 0 delta m d false bs)
  end.

(** midi/events/sysex/continuation_message.go:91-104, behind [vlf]: built with MakeSysExContinuationMessage
    (End = false) with or without a final F7. *)
Definition binary_continuation (delta : Z) (data bs : bytes) : outcome event :=
  match data with
  | [] => Ok (make_continuation 0 delta [] false bs)
  | _ => Ok (make_continuation 0 delta (if ends_f7 data then removelast data else data) false bs)
  end.

(** midi/events/binary.go:13-112 [Event.UnmarshalBinary].  The [case]s in the order of the code; [equals]
    compares the upper four bits of the status with the seven channel message types (midi/lib/event.go:60-62)
    and the whole status byte with the system exclusive types (midi/lib/event.go:75-77). *)
Definition event_unmarshal (env : env) (bs : bytes) : outcome event :=
  do (delta, remaining) <- slice_vlq bs;
  match remaining with
  | st :: ty :: r =>
      if st =? 255 then binary_meta env delta ty r bs
      else
      let kind := Z.land st 240 in
      if (128 <=? kind) && (kind <=? 224) then binary_chan env delta st (ty :: r) bs
      else if st =? 240 then do data <- slice_vlf (ty :: r); binary_sysex env delta data bs
      else if st =? 247 then do data <- slice_vlf (ty :: r); binary_continuation delta data bs
      else Err
  | _ => Err
  end.
