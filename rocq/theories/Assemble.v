(** * Assemble: reading assembly text line by line, chunks, and the SysEx fixups
    (ops/assemble/text.go, ops/assemble/assemble.go). *)
From Verif Require Import Base Strings Tables Event.

(** ** SysEx fixups *)

(** The type assertion [event.Event.(sysex.SysExContinuationMessage)], ops/assemble/assemble.go:26 and 44. *)
Definition is_continuation (e : event) : bool :=
  match e_body e with SysExContinuation _ _ => true | _ => false end.

(** [message.Single = true] (assemble.go:25-30): the pointer case of lines 19-23 does not arise,
    UnmarshalText and UnmarshalJSON store values. *)
Definition close_message (e : event) : event :=
  match e_body e with
  | SysExMessage m d _ => Event (e_tick e) (e_delta e) (e_bytes e) (e_status e) (e_type e) (SysExMessage m d true)
  | _ => e
  end.

(** [message.End = true] (assemble.go:43-48) *)
Definition close_continuation (e : event) : event :=
  match e_body e with
  | SysExContinuation d _ => Event (e_tick e) (e_delta e) (e_bytes e) (e_status e) (e_type e) (SysExContinuation d true)
  | _ => e
  end.

(** assemble.go:15-31 and 33-49: one of the two loops over neighbouring events; [close] is what is done to an
    event that is not followed by a continuation.  [close] does not change which events are continuations, so
    looking at the list as it was before the loop is the same as looking at it as it changes. *)
Fixpoint close_loop (close : event -> event) (es : list event) : list event :=
  match es with
  | previous :: (next :: _) as rest =>
      (if is_continuation next then previous else close previous) :: close_loop close rest
  | _ => es
  end.

(** assemble.go:14-52 [fixups]: [mtrk.Events[1:]] of an empty slice panics. *)
Definition fixups (es : list event) : outcome (list event) :=
  match es with
  | [] => Panic
  | _ => Ok (close_loop close_continuation (close_loop close_message es))
  end.

(** ** Lines *)

(** dropCR (bufio, Go standard library) *)
Definition drop_cr (l : bytes) : bytes :=
  match rev l with
  | 13 :: r => rev r
  | _ => l
  end.

(** bufio.Scanner with ScanLines as used by ops/assemble/text.go:95-101 [scan]: the lines and whether the whole
    text was read.  Scanning stops with an error at a line of more than 65535 bytes (the buffer holds
    bufio.MaxScanTokenSize = 65536 bytes).  [acc]: the bytes of the current line, last first. *)
Fixpoint scan_lines (acc : bytes) (text : bytes) : list bytes * bool :=
  match text with
  | [] =>
      match acc with
      | [] => ([], true)
      | _ => if 65535 <? zlen acc then ([], false) else ([drop_cr (rev acc)], true)
      end
  | c :: r =>
      if c =? 10 then
        if 65535 <? zlen acc then ([], false)
        else let '(ls, ok) := scan_lines [] r in (drop_cr (rev acc) :: ls, ok)
      else scan_lines (c :: acc) r
  end.

(** ** Chunks *)

(** The regular expression [(MThd)|(MTrk)], ops/assemble/text.go:104 and 121. *)
Definition has_tag (line : bytes) : bool := contains line (str "MThd") || contains line (str "MTrk").

(** text.go:120-131: the second loop, [chunk] collects the current chunk. *)
Fixpoint collect (chunk : list bytes) (lines : list bytes) : list (list bytes) :=
  match lines with
  | [] => match chunk with [] => [] | _ => [chunk] end
  | line :: r => if has_tag line then chunk :: collect [line] r else collect (chunk ++ [line]) r
  end.

(** text.go:103-134 [chunkify]: the chunks sent, given the lines received.  When no line contains "MThd" the
    first loop consumes all lines and the chunk is empty. *)
Fixpoint chunkify (lines : list bytes) : list (list bytes) :=
  match lines with
  | [] => []
  | line :: r => if contains line (str "MThd") then collect [line] r else chunkify r
  end.

(** text.go:75-93 [read]: sequential reading; Pipeline.v models the three goroutines. *)
Definition read_chunks (text : bytes) : outcome (list (list bytes)) :=
  let '(lines, ok) := scan_lines [] text in
  if ok then Ok (chunkify lines) else Err.
