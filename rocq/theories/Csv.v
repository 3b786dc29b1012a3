(** * Csv: the TSV file (commands/tsv.go and the Writer of encoding/csv of the Go standard library, Go 1.23).

    The delimiter is a character, given by its UTF-8 encoding. *)
From Verif Require Import Base Strings Tables Event Track File Utf8 Tsv.

(** csv.go [validDelim] *)
Definition valid_delim (d : bytes) : bool := negb (existsb (bytes_eqb d) [[0]; [34]; [13]; [10]; replacement]).

(** unicode.IsSpace, for a character in UTF-8: U+0009 to U+000D, U+0020, U+0085, U+00A0, U+1680, U+2000 to U+200A, U+2028,
    U+2029, U+202F, U+205F, U+3000 *)
Definition space_char (c : bytes) : bool :=
  match c with
  | [b] => ((9 <=? b) && (b <=? 13)) || (b =? 32)
  | [a; b] => (a =? 194) && ((b =? 133) || (b =? 160))
  | [a; b; c] =>
      ((a =? 225) && (b =? 154) && (c =? 128)) ||
      ((a =? 226) && (b =? 128) && (((128 <=? c) && (c <=? 138)) || (c =? 168) || (c =? 169) || (c =? 175))) ||
      ((a =? 226) && (b =? 129) && (c =? 159)) || ((a =? 227) && (b =? 128) && (c =? 128))
  | _ => false
  end.

(** writer.go [fieldNeedsQuotes]; strings.ContainsRune is [contains] of the encoding. *)
Definition needs_quotes (d field : bytes) : bool :=
  match field with
  | [] => false
  | _ => bytes_eqb field [92; 46] || existsb (fun c => (c =? 10) || (c =? 13) || (c =? 34)) field || contains field d ||
         space_char (hd [] (runes field))
  end.

(** writer.go [Writer.Write], one field *)
Definition write_field (d field : bytes) : bytes :=
  if needs_quotes d field then 34 :: flat_map (fun c => if c =? 34 then [34; 34] else [c]) field ++ [34] else field.

(** writer.go [Writer.Write]: a record; UseCRLF is false. *)
Definition write_record (d : bytes) (r : list bytes) : bytes := join d (map (write_field d) r) ++ [10].

(** commands/tsv.go:80-84: the delimiter *)
Definition tsv_delimiter (opt : bytes) : bytes := if bytes_eqb opt [] || bytes_eqb opt [92; 116] then [9] else hd [] (runes opt).

(** commands/tsv.go:195-216 [writeTSV]: what is written.  With a bad delimiter the first Write fails and nothing is. *)
Definition write_tsv (d : bytes) (records : list (list bytes)) : outcome bytes :=
  if valid_delim d then Ok (concat (map (write_record d) (written_records records))) else Err.
