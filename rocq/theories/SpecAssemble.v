(** * SpecAssemble: what assembly text says, independently of how it is read. *)
From Verif Require Import Base Tables Event.

(** ** SysEx messages *)

(** The event is a SysEx continuation packet. *)
Definition continues (e : event) : Prop := exists data fin, e_body e = SysExContinuation data fin.

(** [e'] is the event [e] with the end of message marked if and only if [fin]. *)
Definition marked (fin : bool) (e e' : event) : Prop :=
  e_tick e' = e_tick e /\ e_delta e' = e_delta e /\ e_bytes e' = e_bytes e /\ e_status e' = e_status e /\ e_type e' = e_type e /\
  match e_body e with
  | SysExMessage m d _ => e_body e' = SysExMessage m d fin
  | SysExContinuation d _ => e_body e' = SysExContinuation d fin
  | b => e_body e' = b
  end.

(** No message is marked as complete (as the text parser leaves them). *)
Definition unmarked (e : event) : Prop := marked false e e.

(** The payload of a SysEx event that is part of a message, without the terminator. *)
Definition payload (e : event) : option bytes :=
  match e_body e with
  | SysExMessage m d _ => Some (m_id m ++ d)
  | SysExContinuation d _ => Some d
  | _ => None
  end.

(** ** Lines *)

(** [s] contains [sub] somewhere. *)
Definition occurs (sub s : bytes) : Prop := exists a b, s = a ++ sub ++ b.

(** The line without a carriage return at its end. *)
Inductive chomped : bytes -> bytes -> Prop :=
| chomped_cr : forall l, chomped (l ++ [13]) l
| chomped_none : forall l, (forall l', l <> l' ++ [13]) -> chomped l l.

(** [lines_of text ls]: [ls] are the lines of [text]; a line ends with a line feed or at the end of the text. *)
Inductive lines_of : bytes -> list bytes -> Prop :=
| lines_end : lines_of [] []
| lines_last : forall l l', l <> [] -> ~ In 10 l -> chomped l l' -> lines_of l [l']
| lines_next : forall l l' r ls, ~ In 10 l -> chomped l l' -> lines_of r ls -> lines_of (l ++ 10 :: r) (l' :: ls).

(** Some line of the text has more than 65535 bytes. *)
Definition long_line (text : bytes) : Prop :=
  exists a l b, text = a ++ l ++ b /\ 65535 < zlen l /\ ~ In 10 l.

(** ** Chunks *)

Definition header_line (l : bytes) : Prop := occurs [77; 84; 104; 100] l.      (* "MThd" *)
Definition track_line (l : bytes) : Prop := occurs [77; 84; 114; 107] l.       (* "MTrk" *)
Definition tag_line (l : bytes) : Prop := header_line l \/ track_line l.

(** A chunk: a tag line and lines that are not tag lines. *)
Definition one_chunk (c : list bytes) : Prop :=
  exists h t, c = h :: t /\ tag_line h /\ Forall (fun l => ~ tag_line l) t.

(** The lines divide into the chunks, preceded by lines that belong to none. *)
Definition divides (lines : list bytes) (before : list bytes) (cs : list (list bytes)) : Prop :=
  lines = before ++ concat cs /\ Forall one_chunk cs.

(** ** Goroutines *)

(** Reflexive transitive closure. *)
Inductive steps {S : Type} (step : S -> S -> Prop) : S -> S -> Prop :=
| steps_refl : forall s, steps step s s
| steps_next : forall s s' s'', step s s' -> steps step s' s'' -> steps step s s''.

(** Nothing can happen any more. *)
Definition halted {S : Type} (step : S -> S -> Prop) (s : S) : Prop := forall s', ~ step s s'.

(** Every run from [s] is finite. *)
Definition all_runs_end {S : Type} (step : S -> S -> Prop) (s : S) : Prop := Acc (fun b a => step a b) s.
