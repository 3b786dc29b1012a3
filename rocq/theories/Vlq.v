(** * Vlq: variable length quantities and length-prefixed fields. *)
From Verif Require Import Base.

(** midi/lib/delta.go:47-52 (and midi/lib/types.go:18-23): the loop
    [for i := 4; i > 0; i--], with [i] as a nat, the 5-byte buffer and the value. *)
Fixpoint vlq_loop (i : nat) (buffer : bytes) (b : Z) : bytes :=
  match i with
  | O =>
      (* midi/lib/delta.go:54-57: buffer[1] |= 0x80; buffer[0] = byte(b & 0x7f) *)
      let buffer := upd 1 (Z.lor (nth 1 buffer 0) 128) buffer in
      upd 0 (Z.land b 127) buffer
  | S j =>
      let buffer := upd i (Z.lor (nth i buffer 0) (Z.land b 127)) buffer in
      let b := Z.shiftr b 7 in
      if b =? 0 then skipn i buffer else vlq_loop j buffer b
  end.

(** midi/lib/delta.go:43-58 [Delta.MarshalBinary] and midi/lib/types.go:15-29 [vlq2bin]
    (identical algorithms; the argument is a uint32). *)
Definition vlq_encode (v : Z) : bytes := vlq_loop 4 [0; 128; 128; 128; 0] v.

(** midi/lib/types.go:31-35 [vlf2bin]: uint32(len(v)) as VLQ followed by the data. *)
Definition vlf_encode (data : bytes) : bytes :=
  vlq_encode (zlen data mod 4294967296) ++ data.

(** midi/events/event.go:144-162 [VLQ] (also midi/lib/delta.go:23-41 [DecodeDelta]):
    read from the stream [r]; the uint32 accumulator wraps.
    [None] is io.EOF from the reader. *)
Fixpoint vlq_read (acc : Z) (r : bytes) : option (Z * bytes) :=
  match r with
  | [] => None
  | b :: r' =>
      let acc := (Z.shiftl acc 7 mod 4294967296 + Z.land b 127) mod 4294967296 in
      if Z.land b 128 =? 0 then Some (acc, r') else vlq_read acc r'
  end.

(** midi/events/event.go:144-162 [VLQ]. *)
Definition stream_vlq (r : bytes) : outcome (Z * bytes) :=
  match vlq_read 0 r with Some p => Ok p | None => Eof end.

(** midi/events/event.go:125-142 [VLF]: a VLQ length followed by that many bytes.
    (Allocation failure of make([]byte, N) is not modelled.) *)
Definition stream_vlf (r : bytes) : outcome (bytes * bytes) :=
  do (n, r) <- stream_vlq r;
  if zlen r <? n then Eof else Ok (firstn (Z.to_nat n) r, skipn (Z.to_nat n) r).

(** midi/events/binary.go:129-142, midi/events/meta/metaevent.go:166-179,
    midi/events/midi/midievent.go:122-135, midi/events/sysex/sysex.go:110-123 [vlq]:
    the same loop over a slice; running out of bytes is a plain error. *)
Definition slice_vlq (bs : bytes) : outcome (Z * bytes) :=
  match vlq_read 0 bs with Some p => Ok p | None => Err end.

(** midi/events/meta/metaevent.go:181-187, midi/events/midi/midievent.go:137-143,
    midi/events/sysex/sysex.go:125-131 [vlf]: [remaining[:N]].
    Go allows N up to cap(remaining); the model takes cap = len, i.e. it panics as soon
    as N > len.  Inside the decoder N = len(remaining) always (the event's bytes were read
    by [stream_vlf]), so the difference is not visible there. *)
Definition slice_vlf (bs : bytes) : outcome bytes :=
  do (n, rest) <- slice_vlq bs;
  if zlen rest <? n then Panic else Ok (firstn (Z.to_nat n) rest).

(** The same slice reader written with the index arithmetic of the Go code
    (midi/events/binary.go:129-142 and its three copies): [i] is the range index,
    [whole] the slice being ranged over, the rest is [bytes[i+1:]]. *)
Fixpoint range_vlq (whole : bytes) (i : nat) (acc : Z) (r : bytes) : outcome (Z * bytes) :=
  match r with
  | [] => Err
  | b :: r' =>
      let acc := (Z.shiftl acc 7 mod 4294967296 + Z.land b 127) mod 4294967296 in
      if Z.land b 128 =? 0 then Ok (acc, skipn (S i) whole) else range_vlq whole (S i) acc r'
  end.
