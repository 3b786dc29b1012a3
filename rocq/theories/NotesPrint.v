(** * NotesPrint: ops/notes/notes.go [print].  The JSON form ([export]) is in NotesJson.v. *)
From Verif Require Import Base Strings Tables Event Track File Utf8 Tsv Notes.

(** time.Duration.Truncate(time.Millisecond) of the Go library; Z.rem is Go's %. *)
Definition truncate_ms (d : Z) : Z := d - Z.rem d 1000000.

(** time.go [fmtFrac] of the Go library: [p] digits of [v] behind the point, without trailing zeros; [buf] is what has been
    written, from the right. *)
Fixpoint fmt_frac (p : nat) (v : Z) (print : bool) (buf : bytes) : bytes * Z :=
  match p with
  | O => (if print then 46 :: buf else buf, v)
  | S q =>
      let digit := v mod 10 in
      let print' := print || negb (digit =? 0) in
      fmt_frac q (v / 10) print' (if print' then 48 + digit :: buf else buf)
  end.

(** time.go [Duration.format] of the Go library ([Duration.String]) *)
Definition duration_string (d : Z) : bytes :=
  let u := Z.abs d in
  let s :=
    if u <? 1000000000 then
      if u =? 0 then str "0s"
      else if u <? 1000 then dec u ++ str "ns"
      else if u <? 1000000 then let (f, v) := fmt_frac 3 u false [] in dec v ++ f ++ [194; 181; 115]
      else let (f, v) := fmt_frac 6 u false [] in dec v ++ f ++ str "ms"
    else
      let (f, v) := fmt_frac 9 u false [] in
      let seconds := dec (v mod 60) ++ f ++ str "s" in
      let v := v / 60 in
      if 0 <? v then
        let minutes := dec (v mod 60) ++ str "m" ++ seconds in
        let v := v / 60 in
        if 0 <? v then dec v ++ str "h" ++ minutes else minutes
      else seconds in
  if d <? 0 then 45 :: s else s.

(** ops/notes/notes.go:288: fmt's "%-4s channel:%-2d  note:%02X  velocity:%-3d  start:%-9s  end:%-9s  duration:%s\n" *)
Definition print_note (n : note_out) : bytes :=
  left_justify 4 (o_name n) ++ str " channel:" ++ left_justify 2 (dec (o_ch n)) ++ str "  note:" ++ hex2 (o_note n) ++
  str "  velocity:" ++ left_justify 3 (dec (o_vel n)) ++ str "  start:" ++ left_justify 9 (duration_string (truncate_ms (o_start n))) ++
  str "  end:" ++ left_justify 9 (duration_string (truncate_ms (o_end n))) ++
  str "  duration:" ++ duration_string (truncate_ms (o_duration n)) ++ [10].

(** ops/notes/notes.go:282-292 [print] *)
Definition print_notes (l : list note_out) : bytes := concat (map print_note l).
