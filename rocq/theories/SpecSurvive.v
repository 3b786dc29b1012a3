(** * SpecSurvive: what it means that an event survives a write/read cycle. *)
From Verif Require Import Base SpecVlq Tables Event SpecEvent Vlq Marshal Parse Track.

(** State of the reader in which a packet may come: F0 and escape packets outside, continuation
    packets inside an unfinished system exclusive message; other events anywhere. *)
Definition expects (op : bool) (b : body) : Prop :=
  match b with
  | SysExMessage _ _ _ | SysExEscape _ => op = false
  | SysExContinuation _ _ => op = true
  | _ => True
  end.

(** [e], written with its delta time, is read back from the front of any stream and in any reader
    state as an event with the same delta time and content, and exactly its bytes are consumed. *)
Definition survives (env : env) (e : event) : Prop :=
  exists w, marshal e = Ok w /\
  forall c tick rest, expects (c_casio c) (e_body e) ->
  exists e' c', parse env c tick (vlq_encode (e_delta e) ++ w ++ rest) = Ok (e', c', rest) /\
    ev_view e' = ev_view e /\ e_tick e' = tick + e_delta e.

(** No two entries have the same name. *)
Definition distinct_names (table : list (bytes * manufacturer)) : Prop :=
  forall k m k' m', In (k, m) table -> In (k', m') table -> m_name m = m_name m' -> m = m'.
