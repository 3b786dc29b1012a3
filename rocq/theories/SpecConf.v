(** * SpecConf: configuration files, as the tags of the structs in midi/lib/manufacturer.go describe them.  Uses only the type of trees. *)
From Verif Require Import Base Strings Tables Json SpecJsonText.

(** A manufacturer: ID, region, name. *)
Definition listed (m : bytes * bytes * bytes) : json :=
  JObj [(str "id", JArr (map JNum (fst (fst m)))); (str "region", JStr (snd (fst m))); (str "name", JStr (snd m))].

(** The text of a configuration file that lists the manufacturers [ms]. *)
Definition configuration (ms : list (bytes * bytes * bytes)) (s : bytes) : Prop :=
  exists before t after, s = before ++ t ++ after /\ white before /\ white after /\
    json_text (JObj [(str "manufacturers", JArr (map listed ms))]) t.
