(** * SpecRoutes: tracks whose system exclusive messages are marked in the same way by all assemblers. *)
From Verif Require Import Base Event Track SpecAssemble.

(** The last event is a complete message. *)
Definition ends_in_message (es : list event) : Prop := exists a e m d, es = a ++ [e] /\ e_body e = SysExMessage m d true.

(** No messages in packets *)
Definition unsplit (es : list event) : Prop := Forall (fun e => ~ continues e /\ forall m d, e_body e <> SysExMessage m d false) es.

(** An event follows every complete message, and it does not continue it. *)
Definition settled (es : list event) : Prop :=
  forall i e m d, nth_error es i = Some e -> e_body e = SysExMessage m d true -> exists n, nth_error es (S i) = Some n /\ ~ continues n.
