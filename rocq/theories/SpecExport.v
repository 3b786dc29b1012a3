(** * SpecExport: what the exported document and the listing of a file say. *)
From Verif Require Import Base Tables Event SpecText SpecEvent SpecJson SpecRead.

(** The text in which every byte that belongs to no character is U+FFFD. *)
Inductive repaired : bytes -> bytes -> Prop :=
| rp_nil : repaired [] []
| rp_char : forall cp c r r', utf8 cp c -> repaired r r' -> repaired (c ++ r) (c ++ r')
| rp_bad : forall b r r', (forall cp c x, utf8 cp c -> b :: r <> c ++ x) -> repaired r r' -> repaired (b :: r) (239 :: 191 :: 189 :: r').

(** The document says the event [e'] for the event [e]: the same delta time, kind and values, the text repaired. *)
Definition said (e e' : event) : Prop :=
  e_delta e' = e_delta e /\
  match e_body e with
  | TextEvent k s => exists s', e_body e' = TextEvent k s' /\ repaired s s'
  | b => same_values b (e_body e')
  end.

(** The listing says the event [e'] for the event [e]: the same delta time, kind and values ([as_read]: it does not say whether a system exclusive message is complete). *)
Definition listed (e e' : event) : Prop := e_delta e' = e_delta e /\ e_body e' = as_read (e_body e).
(** The header and the tracks as far as a listing says them. *)
Definition listed_contents (ts : list (list event)) : list (list (Z * body)) := map (map (fun e => (e_delta e, as_read (e_body e)))) ts.
