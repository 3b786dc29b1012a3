(** * SpecFramed: an event written out in full is one message. *)
From Verif Require Import Base SpecVlq Event SpecEvent SpecPacket Vlq Marshal.

(** The bytes of one message: status and right number of data bytes, or a correct length field.
    A note number must be a data byte. *)
Inductive framed : bytes -> Prop :=
| fr_chan : forall st data, 128 <= st < 240 -> length data = message_length st ->
    (st < 160 -> 0 <= hd 0 data < 128) -> framed (st :: data)
| fr_meta : forall ty l data, length_field l data -> framed (255 :: ty :: l ++ data)
| fr_sys : forall st l data, st = 240 \/ st = 247 -> length_field l data -> framed (st :: l ++ data).

(** Every event written out in full: delta time and message with its status byte. *)
Inductive plain_track : list event -> bytes -> Prop :=
| pt_nil : plain_track [] []
| pt_cons : forall e w es p, 0 <= e_delta e <= vlq_max -> marshal e = Ok w -> framed w ->
    plain_track es p -> plain_track (e :: es) (vlq_encode (e_delta e) ++ w ++ p).
