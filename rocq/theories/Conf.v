(** * Conf: the configuration file with manufacturers, from its text on (midi/lib/manufacturer.go). *)
From Verif Require Import Base Strings Tables Event Manufacturer Json JsonText.

(** json.Unmarshal (encoding/json/decode.go): one value and nothing but white space after it (used in midi/lib/manufacturer.go:107) *)
Definition unmarshal_value (s : bytes) : outcome json :=
  do (v, rest) <- read_text s; match skip rest with [] => Ok v | _ => Err end.

(** midi/lib/manufacturer.go:95-125 [LoadManufacturers].  The elements are read by [Manufacturer.UnmarshalJSON] (36-53), which looks the ID up among
    the manufacturers known so far and takes region and name from there; [env]: those. *)
Definition load_text (env : env) (s : bytes) : outcome (list (bytes * manufacturer)) :=
  do v <- unmarshal_value s;
  do o <- object v;
  do ms <- field (str "manufacturers") (fun _ v => do l <- elements v; each (read_manufacturer env (Manufacturer [] [] [])) l) [] o;
  load_manufacturers (map (fun m => (m_id m, m_region m, m_name m)) ms).
