(** * File: header chunk, chunk splitting, decoder and encoder of whole files. *)
From Verif Require Import Base Strings Tables Vlq Event Marshal Parse Track.

(** midi/MThd.go:12-24 [MThd] *)
Record mthd := MThd {
  h_tag : bytes;
  h_length : Z;      (* uint32 *)
  h_format : Z;      (* uint16 *)
  h_tracks : Z;      (* uint16 *)
  h_division : Z;    (* uint16 *)
  h_ppqn : Z;
  h_smpte : bool;
  h_subframes : Z;
  h_fps : Z;
  h_drop : bool;
  h_bytes : bytes
}.

(** midi/smf.go:11-14 [SMF]; a nil MThd is [None]. *)
Record smf := SMF { f_mthd : option mthd; f_tracks : list mtrk }.

(** midi/MThd.go:55-68 and 100-112: frame rate (and drop frame flag) for the upper division byte. *)
Definition smpte_fps (b : Z) : option (Z * bool) :=
  if b =? 232 then Some (24, false)
  else if b =? 231 then Some (25, false)
  else if b =? 227 then Some (29, true)
  else if b =? 226 then Some (30, false)
  else None.

(** midi/MThd.go:26-72 [MakeMThd] ([division & 0xff00 >> 8] is [(division & 0xff00) >> 8] in Go). *)
Definition make_mthd (format tracks division : Z) (bs : bytes) : outcome mthd :=
  if negb ((format =? 0) || (format =? 1) || (format =? 2)) then Panic
  else if Z.land division 32768 =? 0 then
    Ok (MThd (str "MThd") 6 format tracks division (Z.land division 32767) false 0 0 false bs)
  else
    match smpte_fps (Z.shiftr (Z.land division 65280) 8) with
    | None => Panic
    | Some (fps, drop) =>
        Ok (MThd (str "MThd") 6 format tracks division 0 true (Z.land division 127) fps drop bs)
    end.

(** midi/MThd.go:74-120 [MThd.UnmarshalBinary] on a zero MThd (encoding/midi/decoder.go:45-47).
    Slicing past the end panics (cap = len assumed). *)
Definition unmarshal_mthd (chunk : bytes) : outcome mthd :=
  match chunk with
  | a :: b :: c :: d :: r =>
      if negb (bytes_eqb [a; b; c; d] (str "MThd")) then Err else
      match r with
      | l0 :: l1 :: l2 :: l3 :: r' =>
          if negb (of_be32 l0 l1 l2 l3 =? 6) then Err else
          match r' with
          | f0 :: f1 :: r'' =>
              let format := of_be16 f0 f1 in
              if negb ((format =? 0) || (format =? 1) || (format =? 2)) then Err else
              match r'' with
              | t0 :: t1 :: d0 :: d1 :: _ =>
                  let tracks := of_be16 t0 t1 in
                  let division := of_be16 d0 d1 in
                  if Z.land division 32768 =? 0 then
                    Ok (MThd (str "MThd") 6 format tracks division (Z.land division 32767)
                             false 0 0 false chunk)
                  else
                    match smpte_fps (Z.shiftr (Z.land division 65280) 8) with
                    | None => Err
                    | Some (fps, drop) =>
                        Ok (MThd (str "MThd") 6 format tracks division 0 true
                                 (Z.land division 255) fps drop chunk)
                    end
              | _ => Panic
              end
          | _ => Panic
          end
      | _ => Panic
      end
  | _ => Panic
  end.

(** midi/MThd.go:122-148 [MThd.MarshalBinary] *)
Definition marshal_mthd (h : mthd) : bytes :=
  h_tag h ++ be32 (h_length h) ++ be16 (h_format h) ++ be16 (h_tracks h) ++ be16 (h_division h).

(** ** Decoder *)

(** encoding/midi/decoder.go:83-98 [chunker.next].  io.ReadFull returns io.EOF when it could read
    nothing at all and io.ErrUnexpectedEOF (an [Err]) on a short read. *)
Definition next_chunk (r : bytes) : outcome (bytes * bytes) :=
  match r with
  | [] => Eof
  | a :: b :: c :: d :: l0 :: l1 :: l2 :: l3 :: r' =>
      let n := of_be32 l0 l1 l2 l3 in
      if n <=? zlen r' then
        Ok ([a; b; c; d; l0; l1; l2; l3] ++ firstn (Z.to_nat n) r', skipn (Z.to_nat n) r')
      else match r' with [] => Eof | _ => Err end
  | _ => Err
  end.

(** encoding/midi/decoder.go:31-39: the chunk loop; every chunk takes at least 8 bytes, so
    [fuel = length + 1] suffices. *)
Fixpoint chunks_loop (fuel : nat) (r : bytes) : outcome (list bytes) :=
  match fuel with
  | O => Loop
  | S f =>
      match next_chunk r with
      | Ok (chunk, rest) => do cs <- chunks_loop f rest; Ok (chunk :: cs)
      | Eof => Ok []
      | Err => Err
      | Panic => Panic
      | Loop => Loop
      end
  end.

(** encoding/midi/decoder.go:27-39 *)
Definition chunks (r : bytes) : outcome (list bytes) := chunks_loop (S (length r)) r.

(** encoding/midi/decoder.go:55-70: chunks other than MTrk are skipped; [n] = len(smf.Tracks). *)
Fixpoint decode_tracks (env : env) (n : Z) (cs : list bytes) : outcome (list mtrk) :=
  match cs with
  | [] => Ok []
  | c :: cs' =>
      if bytes_eqb (firstn 4 c) (str "MTrk") then
        do t <- unmarshal_mtrk env n new_context c;
        do ts <- decode_tracks env (n + 1) cs';
        Ok (t :: ts)
      else decode_tracks env n cs'
  end.

(** encoding/midi/decoder.go:25-77 [Decode] *)
Definition decode (env : env) (r : bytes) : outcome smf :=
  do cs <- chunks r;
  match cs with
  | [] => Err
  | c :: cs' =>
      do h <- unmarshal_mthd c;
      do ts <- decode_tracks env 0 cs';
      if zlen ts =? h_tracks h then Ok (SMF (Some h) ts) else Err
  end.

(** ** Encoder *)

(** encoding/midi/encoder.go:55-83: the (delta, event) chunks of the events. *)
Fixpoint marshal_events (es : list event) : outcome (list (bytes * bytes)) :=
  match es with
  | [] => Ok []
  | e :: es' =>
      do b <- marshal e;
      do cs <- marshal_events es';
      Ok ((vlq_encode (e_delta e), b) :: cs)
  end.

(** encoding/midi/encoder.go:85-100: running status fixup.  [last] is the first byte of the
    previous event as written (possibly already stripped), [None] for the nil pointer.
    Every event has at least one byte, so event[0] does not panic. *)
Fixpoint running_status_fixup (last : option Z) (cs : list (bytes * bytes)) : list (bytes * bytes) :=
  match cs with
  | [] => []
  | (delta, event) :: cs' =>
      let status := hd 0 event in
      let event' :=
        match last with
        | Some l =>
            if ((Z.land status 240 =? 128) || (Z.land status 240 =? 144)) && (status =? l)
            then tl event else event
        | None => event
        end in
      (delta, event') :: running_status_fixup (Some (hd 0 event')) cs'
  end.

(** encoding/midi/encoder.go:120-128: delta and event of each chunk in order. *)
Definition flatten (cs : list (bytes * bytes)) : bytes := concat (map (fun c => fst c ++ snd c) cs).

(** encoding/midi/encoder.go:54-133 [EncodeMTrk] (length is a uint32 sum, lines 102-107). *)
Definition encode_mtrk (t : mtrk) : outcome bytes :=
  do cs <- marshal_events (t_events t);
  let body := flatten (running_status_fixup None cs) in
  Ok (t_tag t ++ be32 (zlen body mod 4294967296) ++ body).

(** encoding/midi/encoder.go:43-49: all the tracks. *)
Fixpoint encode_tracks (ts : list mtrk) : outcome bytes :=
  match ts with
  | [] => Ok []
  | t :: ts' => do b <- encode_mtrk t; do bs <- encode_tracks ts'; Ok (b ++ bs)
  end.

(** encoding/midi/encoder.go:28-52 [Encode] (the io.Writer is the returned byte string; errors of
    the writer are not modelled). *)
Definition encode (s : smf) : outcome bytes :=
  match f_mthd s with
  | None => Err
  | Some h =>
      if negb (h_tracks h =? zlen (f_tracks s)) then Err
      else do bs <- encode_tracks (f_tracks s); Ok (marshal_mthd h ++ bs)
  end.
