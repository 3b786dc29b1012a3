(** * Track: decoding a track chunk (midi/MTrk.go). *)
From Verif Require Import Base Strings Tables Vlq Event Parse.

(** midi/MTrk.go:18-25 [MTrk]; [t_ctx = None] is a nil Context. *)
Record mtrk := MTrk {
  t_tag : bytes;
  t_number : Z;
  t_length : Z;
  t_bytes : bytes;
  t_events : list event;
  t_ctx : option ctx
}.

(** midi/events/event.go: replacing the body of an event ([Format] and [SetBank] copy
    everything else: note_on.go:208-225, note_off.go:102-119, program_change.go:144-157). *)
Definition with_body (e : event) (b : body) : event :=
  Event (e_tick e) (e_delta e) (e_bytes e) (e_status e) (e_type e) b.

(** midi/MTrk.go:66-77: bank select controllers (uint16 arithmetic). *)
Definition bank_msb (bank v : Z) : Z := Z.lor (Z.land bank 63) (Z.shiftl (Z.land v 63) 7).
Definition bank_lsb (bank v : Z) : Z := Z.lor (Z.land bank 8064) (Z.land v 63).

(** midi/MTrk.go:58-89: the switch on the decoded event.
    Note: an event with ID 0x00 is not 0x20, so at most one assignment happens. *)
Definition post_process (env : env) (c : ctx) (e : event) : event * ctx :=
  match e_body e with
  | KeySignature acc _ _ => (e, use_scale (acc <? 0) c)
  | Controller ch k v =>
      if c_id k =? 0 then (e, set_bank ch (bank_msb (get_bank c ch) v) c)
      else if c_id k =? 32 then (e, set_bank ch (bank_lsb (get_bank c ch) v) c)
      else (e, c)
  | NoteOff ch n v =>
      (with_body e (NoteOff ch (Note (n_value n) (get_note_off env c ch (n_value n))
                                     (format_note env (c_flats c) (n_value n))) v), c)
  | NoteOn ch n v =>
      let c := put_note_on env c ch (n_value n) in
      (with_body e (NoteOn ch (Note (n_value n) (format_note env (c_flats c) (n_value n))
                                    (format_note env (c_flats c) (n_value n))) v), c)
  | ProgramChange ch _ p => (with_body e (ProgramChange ch (get_bank c ch) p), c)
  | _ => (e, c)
  end.

(** midi/MTrk.go:52-95: the event loop.  io.EOF at any point ends it normally; the tick
    is a uint32.  Each iteration consumes at least one byte, so [fuel = length] suffices
    ([ParseProofs.events_loop_fuel]); running out of fuel is [Loop]. *)
Fixpoint events_loop (fuel : nat) (env : env) (c : ctx) (tick : Z) (r : bytes)
  : outcome (list event * ctx) :=
  match fuel with
  | O => Loop
  | S f =>
      match parse env c tick r with
      | Ok (e, c1, rest) =>
          let (e', c2) := post_process env c1 e in
          do (es, c3) <- events_loop f env c2 ((tick + e_delta e) mod 4294967296) rest;
          Ok (e' :: es, c3)
      | Eof => Ok ([], c)
      | Err => Err
      | Panic => Panic
      | Loop => Loop
      end
  end.

(** The events of a track body, given the context it starts with. *)
Definition decode_events (env : env) (c : ctx) (r : bytes) : outcome (list event * ctx) :=
  events_loop (S (length r)) env c 0 r.

(** midi/MTrk.go:38-103 [MTrk.UnmarshalBinary].  data[0:4] and data[4:8] panic when fewer than 8
    bytes are given (cap = len is assumed).  The context at [Eof] inside an event is the one before
    the event (RunningStatus may differ in Go, but the context is only used for display after that). *)
Definition unmarshal_mtrk (env : env) (number : Z) (c : ctx) (data : bytes) : outcome mtrk :=
  match data with
  | a :: b :: d :: e :: l0 :: l1 :: l2 :: l3 :: r =>
      if negb (bytes_eqb [a; b; d; e] (str "MTrk")) then Err
      else
        do (es, c') <- decode_events env c r;
        Ok (MTrk (str "MTrk") number (of_be32 l0 l1 l2 l3) data es (Some c'))
  | a :: b :: d :: e :: _ =>
      if negb (bytes_eqb [a; b; d; e] (str "MTrk")) then Err else Panic
  | _ => Panic
  end.
