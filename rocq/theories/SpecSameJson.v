(** * SpecSameJson: documents that say the same to the assembler. *)
From Verif Require Import Base Strings SpecLine Json SpecJsonEvent.

(** The members that mean something somewhere in a document. *)
Definition meaningful : list bytes :=
  [str "header"; str "tracks"; str "tag"; str "format"; str "PPQN"; str "tracknumber"; str "events"; str "event"; str "delta"; str "channel"; str "note"; str "velocity"; str "pressure"; str "controller";
   str "value"; str "bank"; str "program"; str "bend"; str "sequence-number"; str "text"; str "copyright"; str "name"; str "lyric"; str "marker"; str "cuepoint"; str "port"; str "tempo"; str "hour";
   str "minute"; str "second"; str "frame-rate"; str "frames"; str "fractional-frames"; str "numerator"; str "denominator"; str "ticks-per-click"; str "thirty-seconds-per-quarter";
   str "accidentals"; str "key-type"; str "manufacturer"; str "data"; str "single"; str "end"; str "id"; str "alias"].

(** The same values under each of these names, whatever the order of the names, their spelling and the other members. *)
Inductive same_document : json -> json -> Prop :=
| sd_value : forall v, same_document v v
| sd_array : forall l l', Forall2 same_document l l' -> same_document (JArr l) (JArr l')
| sd_object : forall o o', (forall name l l', In name meaningful -> under name o l -> under name o' l' -> Forall2 same_document l l') ->
    same_document (JObj o) (JObj o').
