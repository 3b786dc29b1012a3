(** * Manufacturer: user supplied manufacturers and lookup by name (midi/lib/manufacturer.go). *)
From Verif Require Import Base Strings Tables Event.

(** strings.Trim(s, " ") (Go standard library): remove leading and trailing spaces. *)
Fixpoint trim_left (s : bytes) : bytes :=
  match s with
  | c :: r => if c =? 32 then trim_left r else s
  | [] => []
  end.
Definition trim (s : bytes) : bytes := rev (trim_left (rev (trim_left s))).

(** midi/lib/manufacturer.go:127-150 [makeManufacturer] *)
Definition make_manufacturer (id region name : bytes) : outcome (bytes * manufacturer) :=
  match id with
  | [a] =>
      match trim name with
      | [] => Err
      | n => Ok (hex2 a, Manufacturer id (trim region) n)
      end
  | [_; b; c] =>
      match trim name with
      | [] => Err
      | n => Ok (hex2 b ++ hex2 c, Manufacturer id (trim region) n)
      end
  | _ => Err
  end.

(** midi/lib/manufacturer.go:95-125 [LoadManufacturers] after the JSON has been read into [conf]
    (ID, region, name: arbitrary here; Conf.v says what they are): a map, built entry by entry, later entries replacing earlier ones
    (most recent first).  [v != nil] always holds when err is nil. *)
Fixpoint load_manufacturers (conf : list (bytes * bytes * bytes)) : outcome (list (bytes * manufacturer)) :=
  match conf with
  | [] => Ok []
  | (id, region, name) :: r =>
      do kv <- make_manufacturer id region name;
      do l <- load_manufacturers r;
      Ok (l ++ [kv])
  end.

(** midi/lib/manufacturer.go:85-93 [FindManufacturer].  Go iterates over the map in an unspecified
    order: [table] is the list of map entries in the order of this particular iteration. *)
Fixpoint find_manufacturer (table : list (bytes * manufacturer)) (s : bytes) : outcome manufacturer :=
  match table with
  | [] => Err
  | (_, m) :: r => if bytes_eqb s (m_name m) then Ok m else find_manufacturer r s
  end.
