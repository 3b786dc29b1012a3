(** * SpecUnmarshal: free-standing events, and the byte strings on which reading one crashes. *)
From Verif Require Import Base SpecVlq Tables Event SpecEvent SpecPacket.

(** [event_bytes bs delta c]: [bs] is a delta time and one complete message with its status byte.  The
    productions are those of [track_bytes] (SpecEvent.v) without running status.  An F7 packet may be read as
    a continuation or as an escape: the bytes alone do not tell. *)
Inductive event_bytes : bytes -> Z -> content -> Prop :=
| eb_chan : forall d delta st data c, delta_field d delta -> chan_msg st data c ->
    event_bytes (d ++ st :: data) delta c
| eb_meta : forall d delta ty l data c, delta_field d delta -> meta_msg ty data c -> length_field l data ->
    event_bytes (d ++ 255 :: ty :: l ++ data) delta c
| eb_sysex_single : forall d delta l payload, delta_field d delta -> payload <> [] ->
    length_field l (payload ++ [247]) ->
    event_bytes (d ++ 240 :: l ++ payload ++ [247]) delta (CSysEx payload true)
| eb_sysex_first : forall d delta l payload x, delta_field d delta -> payload <> [] -> x <> 247 ->
    length_field l (payload ++ [x]) ->
    event_bytes (d ++ 240 :: l ++ payload ++ [x]) delta (CSysEx (payload ++ [x]) false)
| eb_cont : forall d delta l payload, delta_field d delta -> last payload 0 <> 247 -> length_field l payload ->
    event_bytes (d ++ 247 :: l ++ payload) delta (CSysExCont payload false)
| eb_cont_last : forall d delta l payload, delta_field d delta -> length_field l (payload ++ [247]) ->
    event_bytes (d ++ 247 :: l ++ payload ++ [247]) delta (CSysExCont payload true)
| eb_escape : forall d delta l payload, delta_field d delta -> length_field l payload ->
    event_bytes (d ++ 247 :: l ++ payload) delta (CEscape payload).

(** Contents that are read back: not escapes, not sequencer specific events with nothing but a one-byte
    manufacturer ID. *)
Definition read_alone (c : content) : Prop :=
  match c with
  | CEscape _ => False
  | CSeqSpec p => 2 <= zlen p
  | _ => True
  end.

(** Meta event types whose length field is looked at: all known ones but end of track. *)
Definition sized_type (ty : Z) : bool :=
  let t := ty mod 128 in
  (t <=? 9) || (t =? 32) || (t =? 33) || (t =? 81) || (t =? 84) || (t =? 88) || (t =? 89) || (t =? 127).

(** The byte strings on which reading a free-standing event crashes: a length field that announces more than
    there is, a sequence number of fewer than two bytes, a sequencer specific event that ends inside a
    three-byte manufacturer ID, a system exclusive message of fewer than two bytes. *)
Inductive crash_alone : bytes -> Prop :=
| ca_meta_short : forall d delta ty l n x, reads d delta -> reads l n -> zlen x < n -> sized_type ty = true ->
    crash_alone (d ++ 255 :: ty :: l ++ x)
| ca_sys_short : forall d delta st l n x, reads d delta -> reads l n -> zlen x < n -> st = 240 \/ st = 247 ->
    crash_alone (d ++ st :: l ++ x)
| ca_seqno : forall d delta ty l data x, reads d delta -> reads_len l data -> ty mod 128 = 0 -> zlen data < 2 ->
    crash_alone (d ++ 255 :: ty :: l ++ data ++ x)
| ca_seqspec : forall d delta ty l b x, reads d delta -> reads_len l [0; b] -> ty mod 128 = 127 ->
    crash_alone (d ++ 255 :: ty :: l ++ [0; b] ++ x)
| ca_sysex : forall d delta l data x, reads d delta -> reads_len l data -> zlen data < 2 ->
    (* at least one byte follows the status: the length field *)
    crash_alone (d ++ 240 :: l ++ data ++ x).

(** The complete messages that the track decoder takes and the free-standing one does not: pitch bends whose
    first data byte has its top bit set, and sequencer specific events with nothing but a one-byte ID. *)
Definition only_in_tracks (k : packet) : bool :=
  match k with
  | PChan st data => (224 <=? st) && (128 <=? hd 0 data)
  | PMeta ty data => (ty mod 128 =? 127) && (zlen data =? 1)
  | PSys _ _ => false
  end.

(** What an F7 packet becomes: with its final F7 removed. *)
Definition without_f7 (data d : bytes) : Prop :=
  data = d ++ [247] \/ (data = d /\ last d 0 <> 247).
