(** * TemplateLoad: the file with the templates of the user (ops/disassemble/disassemble.go:39-63). *)
From Verif Require Import Base Strings Event Json JsonText Conf Template.

(** Assignment to a map: the entry for the key is replaced *)
Definition assign (m : list (bytes * bytes)) (k v : bytes) : list (bytes * bytes) := (k, v) :: filter (fun e => negb (bytes_eqb k (fst e))) m.

(** encoding/json/decode.go: the entries of a map[string]string; null is the empty string *)
Fixpoint read_entries (m : list (bytes * bytes)) (o : list (bytes * json)) : outcome (list (bytes * bytes)) :=
  match o with
  | [] => Ok m
  | (k, v) :: r => do s <- read_string [] v; read_entries (assign m k s) r
  end.

(** ops/disassemble/disassemble.go:40-53 [LoadTemplates]: the map under "templates"; a further one adds to it, null empties it. *)
Definition read_templates (text : bytes) : outcome (list (bytes * bytes)) :=
  do v <- unmarshal_value text;
  do o <- object v;
  field (str "templates") (fun m v => match v with JNull => Ok [] | JObj es => read_entries m es | _ => Err end) [] o.

(** ops/disassemble/disassemble.go:22-72: the listing of a file with the templates of a template file; [order]: the order in which the map is iterated *)
Definition listing (order : list (bytes * bytes) -> list (bytes * bytes)) (templates : bytes) (name : bytes) (v : data) : option written :=
  match new_disassemble, read_templates templates with
  | Some ts, Ok us => match load_templates ts (order us) with Some ts' => Some (print ts' name v) | None => None end
  | _, _ => None
  end.
