(** * SpecHistory: what the events before it mean for an event of a track.

    Everything is a function of the list of preceding events; no reader state. *)
From Verif Require Import Base Strings Tables Event.

(** The last event for which [f] gives a value. *)
Definition latest {A} (f : event -> option A) (es : list event) : option A :=
  fold_left (fun acc e => match f e with Some a => Some a | None => acc end) es None.

(** Running status: the status of the last event if it is a channel message, else none (0). *)
Definition is_channel_status (st : Z) : bool := (128 <=? st) && (st <? 240).
Definition running_after (es : list event) : Z :=
  fold_left (fun _ e => if is_channel_status (e_status e) then e_status e else 0) es 0.

(** Is a system exclusive message unfinished?  Opened by an F0 packet not ending in F7, closed by a
    packet ending in F7. *)
Definition sysex_open (es : list event) : bool :=
  fold_left (fun op e =>
    let unfinished := negb (last (e_bytes e) 0 =? 247) in
    if e_status e =? 240 then unfinished
    else if e_status e =? 247 then op && unfinished
    else op) es false.

(** The key signature in force has flats. *)
Definition key_flats (e : event) : option bool :=
  match e_body e with KeySignature acc _ _ => Some (acc <? 0) | _ => None end.
Definition flats_in_force (es : list event) : bool :=
  match latest key_flats es with Some b => b | None => false end.

(** Bank Select MSB (controller 0) and LSB (controller 32) sent on channel [ch]. *)
Definition select_msb (ch : Z) (e : event) : option Z :=
  match e_body e with
  | Controller ch' k v => if (ch =? ch') && (c_id k =? 0) then Some v else None
  | _ => None
  end.
Definition select_lsb (ch : Z) (e : event) : option Z :=
  match e_body e with
  | Controller ch' k v => if (ch =? ch') && (c_id k =? 32) then Some v else None
  | _ => None
  end.
Definition latest_or_0 (f : event -> option Z) (es : list event) : Z :=
  match latest f es with Some v => v | None => 0 end.

(** The name shown for a NoteOn of channel [ch] and note value [n]. *)
Definition note_on_name (ch n : Z) (e : event) : option bytes :=
  match e_body e with
  | NoteOn ch' m _ => if (ch =? ch') && (n =? n_value m) then Some (n_name m) else None
  | _ => None
  end.

(** A decoded track without the raw bytes of its events. *)
Definition no_bytes (e : event) : event :=
  Event (e_tick e) (e_delta e) [] (e_status e) (e_type e) (e_body e).
Definition without_bytes (x : outcome (list event * ctx)) : outcome (list event * ctx) :=
  match x with
  | Ok (es, c) => Ok (map no_bytes es, c)
  | Err => Err | Eof => Eof | Panic => Panic | Loop => Loop
  end.

(** Sum of delta times. *)
Definition total_delta (es : list event) : Z := fold_right (fun e acc => e_delta e + acc) 0 es.
