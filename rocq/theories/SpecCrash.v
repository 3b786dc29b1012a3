(** * SpecCrash: which complete messages the program refuses, and which make it crash. *)
From Verif Require Import Base SpecPacket.

(** SMPTE frame rate by its two-bit code. *)
Definition rate_of (rr : Z) : Z := if rr =? 0 then 24 else if rr =? 1 then 25 else if rr =? 2 then 29 else 30.

(** Meta events with a known type (the top bit of the type byte is ignored) and acceptable data. *)
Definition meta_acceptable (ty : Z) (data : bytes) : bool :=
  let t := ty mod 128 in
  let at_ i := nth i data 0 in
  if (1 <=? t) && (t <=? 9) || (t =? 47) then true
  else if t =? 0 then zlen data =? 2
  else if t =? 32 then (zlen data =? 1) && (at_ 0%nat <? 16)
  else if t =? 33 then (zlen data =? 1) && (at_ 0%nat <? 128)
  else if t =? 81 then zlen data =? 3
  else if t =? 84 then (zlen data =? 5) && (at_ 0%nat mod 32 <=? 24) && (at_ 1%nat <? 60) && (at_ 2%nat <? 60)
                       && (at_ 3%nat <? rate_of (at_ 0%nat / 32 mod 4)) && (at_ 4%nat <=? 100)
  else if t =? 88 then zlen data =? 4
  else if t =? 89 then (zlen data =? 2) && ((at_ 0%nat <=? 7) || (249 <=? at_ 0%nat)) && (at_ 1%nat <=? 1)
  else if t =? 127 then (1 <=? zlen data) && (negb (at_ 0%nat =? 0) || (3 <=? zlen data))
  else false.

(** The message crashes the program: undefined status bytes, note velocities and pressures above 127,
    unacceptable meta events, and F0 packets of one byte. *)
Definition crashes (sysex_open : bool) (k : packet) : bool :=
  match k with
  | PChan st data =>
      (240 <=? st) || ((st <? 160) && (128 <=? nth 1 data 0))
      || ((160 <=? st) && (st <? 176) && (128 <=? nth 0 data 0))
      || ((208 <=? st) && (st <? 224) && (128 <=? nth 0 data 0))
  | PMeta ty data => negb (meta_acceptable ty data)
  | PSys st data => (st =? 240) && negb sysex_open && (zlen data =? 1)
  end.

(** The message is reported as an error: F0 packets inside an unfinished system exclusive message, and
    empty ones. *)
Definition rejects (sysex_open : bool) (k : packet) : bool :=
  match k with
  | PSys st data => (st =? 240) && (sysex_open || (zlen data =? 0))
  | _ => false
  end.

(** What comes next in a track makes the program stop: [trouble rs op q true] by a crash, [.. false] by
    an error (also a data byte where there is no running status). *)
Inductive trouble (rs : Z) (op : bool) : bytes -> bool -> Prop :=
| tr_crash : forall p delta k x, shape rs p delta k -> crashes op k = true -> trouble rs op (p ++ x) true
| tr_reject : forall p delta k x, shape rs p delta k -> rejects op k = true -> trouble rs op (p ++ x) false
| tr_data : forall d delta b x, reads d delta -> 0 <= b < 128 -> rs = 0 -> trouble rs op (d ++ b :: x) false.
