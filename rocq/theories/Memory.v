(** * Memory: the sizes of the buffers that decoding a file asks for.

    Only the buffers whose size is a number read from the file are counted, in the order of the requests;
    whether the memory is there is not modelled. *)
From Verif Require Import Base Strings Tables Vlq Event Parse Track File.

(** midi/events/event.go:125-131 [VLF]: make([]byte, N). *)
Definition field_request (r : bytes) : list Z :=
  match stream_vlq r with Ok (n, _) => [n] | _ => [] end.

(** midi/MTrk.go:105-167 [parse]: the calls of VLF at 134 and 148. *)
Definition event_request (c : ctx) (r : bytes) : list Z :=
  match stream_vlq r with
  | Ok (_, []) => []
  | Ok (_, b :: r1) =>
      if (b <? 128) && (c_running c <? 128) then [] else
      let status := if b <? 128 then c_running c else b in
      let r2 := if b <? 128 then b :: r1 else r1 in
      if status =? 255 then match r2 with [] => [] | _ :: r3 => field_request r3 end
      else if (status =? 240) || (status =? 247) then field_request r2
      else []
  | _ => []
  end.

(** midi/MTrk.go:52-95: the event loop ([events_loop]). *)
Fixpoint track_requests (fuel : nat) (env : env) (c : ctx) (tick : Z) (r : bytes) : list Z :=
  match fuel with
  | O => []
  | S f =>
      event_request c r ++
      match parse env c tick r with
      | Ok (e, c1, rest) =>
          let (_, c2) := post_process env c1 e in track_requests f env c2 ((tick + e_delta e) mod 4294967296) rest
      | _ => []
      end
  end.

(** encoding/midi/decoder.go:83-98 [chunker.next] (make([]byte, N) at 91) in the loop at 31-39. *)
Fixpoint chunk_requests (fuel : nat) (r : bytes) : list Z :=
  match fuel with
  | O => []
  | S f =>
      match r with
      | _ :: _ :: _ :: _ :: l0 :: l1 :: l2 :: l3 :: r' =>
          of_be32 l0 l1 l2 l3 ::
          match next_chunk r with Ok (_, rest) => chunk_requests f rest | _ => [] end
      | _ => []
      end
  end.

(** encoding/midi/decoder.go:55-70: the tracks until one fails ([decode_tracks]). *)
Fixpoint tracks_requests (env : env) (n : Z) (cs : list bytes) : list Z :=
  match cs with
  | [] => []
  | c :: cs' =>
      if bytes_eqb (firstn 4 c) (str "MTrk") then
        track_requests (S (length c)) env new_context 0 (skipn 8 c) ++
        match unmarshal_mtrk env n new_context c with Ok _ => tracks_requests env (n + 1) cs' | _ => [] end
      else tracks_requests env n cs'
  end.

(** encoding/midi/decoder.go:25-77 [Decode] *)
Definition decode_requests (env : env) (r : bytes) : list Z :=
  chunk_requests (S (length r)) r ++
  match chunks r with
  | Ok (c :: cs) => match unmarshal_mthd c with Ok _ => tracks_requests env 0 cs | _ => [] end
  | _ => []
  end.
