(** * SpecPacket: how a track body is cut into messages, whatever they contain. *)
From Verif Require Import Base SpecVlq.

(** A VLQ of any length and the uint32 value the program gives it. *)
Definition reads (d : bytes) (delta : Z) : Prop := vlq_string d /\ vlq_denotes d mod 4294967296 = delta.
(** A length field that announces [data]. *)
Definition reads_len (l data : bytes) : Prop := reads l (zlen data).

(** Number of data bytes of a channel message by status byte (0 for the undefined system statuses
    F1 - F6 and F8 - FE).  A0 - AF: this program's reading, 2 in the standard. *)
Definition message_length (st : Z) : nat :=
  if st <? 160 then 2%nat else if st <? 176 then 1%nat else if st <? 192 then 2%nat
  else if st <? 224 then 1%nat else if st <? 240 then 2%nat else 0%nat.

(** One complete message on the wire. *)
Inductive packet :=
| PChan (st : Z) (data : bytes)
| PMeta (ty : Z) (data : bytes)
| PSys (st : Z) (data : bytes).

(** [shape rs p delta k]: the bytes [p] are the delta time [delta] and the message [k], when the
    running status is [rs]. *)
Inductive shape (rs : Z) : bytes -> Z -> packet -> Prop :=
| sh_status : forall d delta st data, reads d delta -> 128 <= st < 256 -> st <> 240 -> st <> 247 ->
    st <> 255 -> length data = message_length st -> shape rs (d ++ st :: data) delta (PChan st data)
| sh_running : forall d delta data, reads d delta -> 128 <= rs < 240 ->
    length data = message_length rs -> data <> [] -> hd 0 data < 128 ->
    shape rs (d ++ data) delta (PChan rs data)
| sh_meta : forall d delta ty l data, reads d delta -> reads_len l data ->
    shape rs (d ++ 255 :: ty :: l ++ data) delta (PMeta ty data)
| sh_sys : forall d delta st l data, reads d delta -> st = 240 \/ st = 247 -> reads_len l data ->
    shape rs (d ++ st :: l ++ data) delta (PSys st data).
