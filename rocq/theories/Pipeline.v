(** * Pipeline: the goroutines of the text assembler as machines that take one step at a time.

    All channels involved are unbuffered (ops/assemble/text.go:77-78 and 175) except [closed] (line 176), so a
    send and the matching receive are one step of sender and receiver together. *)
From Verif Require Import Base Strings Assemble.

(** ** scanner, chunker and reader (text.go:75-134) *)

(** Where the chunker goroutine is (text.go:103-134). *)
Inductive chunker :=
| Seeking                                    (* 113: waiting for a line, no "MThd" seen *)
| Collecting (chunk : list bytes)            (* 120: waiting for a line *)
| Sending (chunk : list bytes) (line : bytes)(* 122: sending a chunk, [line] starts the next one *)
| SendingLast (chunk : list bytes)           (* 130 *)
| Closing                                    (* 133 *)
| Finished.

(** State: lines the scanner still has to send (text.go:96-98, the line returned by Scan is the head) and whether it
    has closed [lines] (100); the chunker; the chunks the reader has received and whether its loop (84-86) ended. *)
Record pipeline := Pipeline {
  p_lines : list bytes;
  p_closed : bool;
  p_chunker : chunker;
  p_list : list (list bytes);
  p_returned : bool
}.

(** text.go:77-83 *)
Definition pipeline_start (lines : list bytes) : pipeline := Pipeline lines false Seeking [] false.

(** text.go:113-118 and 120-127: what the chunker does with a line; [None] if it is not receiving. *)
Definition chunker_receive (c : chunker) (line : bytes) : option chunker :=
  match c with
  | Seeking => Some (if contains line (str "MThd") then Collecting [line] else Seeking)
  | Collecting chunk => Some (if has_tag line then Sending chunk line else Collecting (chunk ++ [line]))
  | _ => None
  end.

(** text.go:113, 120, 129: both loops end when [lines] is closed. *)
Definition chunker_eof (c : chunker) : option chunker :=
  match c with
  | Seeking => Some (Collecting [])
  | Collecting [] => Some Closing
  | Collecting chunk => Some (SendingLast chunk)
  | _ => None
  end.

(** One step of the goroutines of text.go:75-134. *)
Inductive pipeline_step : pipeline -> pipeline -> Prop :=
| step_line : forall line r c c' list ret, chunker_receive c line = Some c' ->         (* 97 with 113 or 120 *)
    pipeline_step (Pipeline (line :: r) false c list ret) (Pipeline r false c' list ret)
| step_close_lines : forall c list ret,                                                (* 100 *)
    pipeline_step (Pipeline [] false c list ret) (Pipeline [] true c list ret)
| step_eof : forall ls c c' list ret, chunker_eof c = Some c' ->                       (* 113, 120, 129 *)
    pipeline_step (Pipeline ls true c list ret) (Pipeline ls true c' list ret)
| step_chunk : forall ls cl chunk line list,                                           (* 122 with 84 *)
    pipeline_step (Pipeline ls cl (Sending chunk line) list false) (Pipeline ls cl (Collecting [line]) (list ++ [chunk]) false)
| step_last_chunk : forall ls cl chunk list,                                           (* 130 with 84 *)
    pipeline_step (Pipeline ls cl (SendingLast chunk) list false) (Pipeline ls cl Closing (list ++ [chunk]) false)
| step_close_chunks : forall ls cl list ret,                                           (* 133 *)
    pipeline_step (Pipeline ls cl Closing list ret) (Pipeline ls cl Finished list ret)
| step_return : forall ls cl list,                                                     (* 84: [chunks] is closed *)
    pipeline_step (Pipeline ls cl Finished list false) (Pipeline ls cl Finished list true).

(** ** parseMTrk and its goroutine (text.go:174-228) *)

(** State: lines the goroutine still has to send; whether it has closed [lines] (191); whether [closed] (176) holds a
    value; the lines parseMTrk has received; whether parseMTrk has returned, and if so after an error. *)
Record feeder := Feeder {
  g_lines : list bytes;
  g_closed : bool;
  g_token : bool;
  g_received : list bytes;
  g_returned : option bool
}.

(** text.go:175-182 *)
Definition feeder_start (chunk : list bytes) : feeder := Feeder chunk false false [] None.

(** One step; [bad got] says that the last of the lines [got] makes parseMTrk return an error (text.go:218-219).
    The [break] of line 187 leaves the select only: the loop goes on with the next line. *)
Inductive feeder_step (bad : list bytes -> bool) : feeder -> feeder -> Prop :=
| feed_line : forall line r t got, bad (got ++ [line]) = false ->                      (* 185 with 197 or 213 *)
    feeder_step bad (Feeder (line :: r) false t got None) (Feeder r false t (got ++ [line]) None)
| feed_bad_line : forall line r t got, bad (got ++ [line]) = true ->                   (* 185, 213, 219, 178-180 *)
    feeder_step bad (Feeder (line :: r) false t got None) (Feeder r false true (got ++ [line]) (Some true))
| feed_skip : forall line r got ret,                                                   (* 186-187 *)
    feeder_step bad (Feeder (line :: r) false true got ret) (Feeder r false false got ret)
| feed_close : forall t got ret,                                                       (* 191 *)
    feeder_step bad (Feeder [] false t got ret) (Feeder [] true t got ret)
| feed_return : forall ls t got,                                                       (* 213, 226, 178-180 *)
    feeder_step bad (Feeder ls true t got None) (Feeder ls true true got (Some false)).
