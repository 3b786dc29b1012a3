(** * JsonText: JSON text (encoding/json of the Go standard library, as used by ops/export/export.go and ops/assemble/json.go).

    The library is modelled from its documentation and source (Go 1.23, go.mod:3): encode.go [appendString], indent.go
    [appendIndent], scanner.go (the states of a value) and decode.go [unquote]. *)
From Verif Require Import Base Strings Tables Event Track File Utf8 Json.

(** ** Writing *)

(** The digits of encode.go [hex]. *)
Definition lower_digit (n : Z) : Z := if n <? 10 then 48 + n else 87 + n.

(** encode.go [appendString] with escapeHTML, one ASCII character. *)
Definition escape_ascii (b : Z) : bytes :=
  if b =? 34 then [92; 34] else
  if b =? 92 then [92; 92] else
  if b =? 8 then [92; 98] else
  if b =? 12 then [92; 102] else
  if b =? 10 then [92; 110] else
  if b =? 13 then [92; 114] else
  if b =? 9 then [92; 116] else
  if (b <? 32) || (b =? 60) || (b =? 62) || (b =? 38) then [92; 117; 48; 48; lower_digit (b / 16); lower_digit (b mod 16)]
  else [b].

(** encode.go [appendString], one character *)
Definition escape_char (c : bytes) : bytes :=
  match c with
  | [b] => escape_ascii b
  | _ => if bytes_eqb c [226; 128; 168] then [92; 117; 50; 48; 50; 56] else if bytes_eqb c [226; 128; 169] then [92; 117; 50; 48; 50; 57] else c
  end.

(** encode.go [appendString]: the characters; a byte that starts none is written as an escaped U+FFFD. *)
Fixpoint escape (s : bytes) : bytes :=
  match s with
  | [] => []
  | b0 :: r0 =>
      if b0 <? 128 then escape_char [b0] ++ escape r0 else
      match r0 with
      | [] => str "\ufffd" ++ escape r0
      | b1 :: r1 =>
          if valid2 b0 b1 then escape_char [b0; b1] ++ escape r1 else
          match r1 with
          | [] => str "\ufffd" ++ escape r0
          | b2 :: r2 =>
              if valid3 b0 b1 b2 then escape_char [b0; b1; b2] ++ escape r2 else
              match r2 with
              | [] => str "\ufffd" ++ escape r0
              | b3 :: r3 => if valid4 b0 b1 b2 b3 then escape_char [b0; b1; b2; b3] ++ escape r3 else str "\ufffd" ++ escape r0
              end
          end
      end
  end.

Definition write_string (s : bytes) : bytes := 34 :: escape s ++ [34].

(** indent.go [appendNewline] with prefix "" and indent "  ". *)
Definition newline (depth : nat) : bytes := 10 :: flat_map (fun _ => [32; 32]) (repeat tt depth).

(** The elements of a container, separated by commas and newlines. *)
Fixpoint lines (depth : nat) (l : list bytes) : bytes :=
  match l with
  | [] => []
  | [x] => x
  | x :: r => x ++ 44 :: newline depth ++ lines depth r
  end.

(** json.MarshalIndent(v, "", "  "): indent.go [appendIndent] after encode.go.  Trees made by the program have no [JReal]. *)
Fixpoint write_json (depth : nat) (v : json) : bytes :=
  match v with
  | JNull => str "null"
  | JBool b => if b then str "true" else str "false"
  | JNum n => dec n
  | JReal => str "0.5"
  | JStr s => write_string s
  | JArr l =>
      match l with
      | [] => [91; 93]
      | _ => 91 :: newline (S depth) ++ lines (S depth) (map (write_json (S depth)) l) ++ newline depth ++ [93]
      end
  | JObj o =>
      match o with
      | [] => [123; 125]
      | _ => 123 :: newline (S depth) ++ lines (S depth) (map (fun f => write_string (fst f) ++ 58 :: 32 :: write_json (S depth) (snd f)) o) ++ newline depth ++ [125]
      end
  end.

(** ops/export/export.go:17-25 [Export.Export]: what is written to the file. *)
Definition export_text (s : smf) : bytes := write_json 0 (export_json_with JStr s).

(** ** Reading *)

(** scanner.go [isSpace] *)
Definition space (c : Z) : bool := (c =? 32) || (c =? 9) || (c =? 13) || (c =? 10).
Fixpoint skip (s : bytes) : bytes := match s with c :: r => if space c then skip r else s | [] => [] end.

Definition is_dec (c : Z) : bool := (48 <=? c) && (c <=? 57).
Fixpoint take_digits (s : bytes) : bytes * bytes :=
  match s with
  | c :: r => if is_dec c then let (d, rest) := take_digits r in (c :: d, rest) else ([], s)
  | [] => ([], [])
  end.

(** scanner.go [stateNeg], [state0], [state1]: the integer part *)
Definition int_part (s : bytes) : outcome (bytes * bytes) :=
  match s with
  | c :: r => if c =? 48 then Ok ([48], r) else if is_dec c then Ok (take_digits s) else Err
  | [] => Err
  end.

(** scanner.go [stateDot], [stateDot0]: the fraction; whether there is one *)
Definition fraction (s : bytes) : outcome (bool * bytes) :=
  match s with
  | c :: r => if c =? 46 then let (d, rest) := take_digits r in match d with [] => Err | _ => Ok (true, rest) end else Ok (false, s)
  | [] => Ok (false, [])
  end.

(** scanner.go [stateE], [stateESign], [stateE0]: the exponent; whether there is one *)
Definition exponent (s : bytes) : outcome (bool * bytes) :=
  match s with
  | c :: r =>
      if (c =? 101) || (c =? 69) then
        let r' := match r with x :: r1 => if (x =? 43) || (x =? 45) then r1 else r | [] => [] end in
        let (d, rest) := take_digits r' in match d with [] => Err | _ => Ok (true, rest) end
      else Ok (false, s)
  | [] => Ok (false, [])
  end.

(** A number.  The literal -0 is kept apart with the numbers that are not integers: Go takes it for no unsigned number (it does
    for the signed accidentals, which is ignored here). *)
Definition number (s : bytes) : outcome (json * bytes) :=
  let (neg, s1) := match s with c :: r => if c =? 45 then (true, r) else (false, s) | [] => (false, []) end in
  do (i, s2) <- int_part s1;
  do (f, s3) <- fraction s2;
  do (e, s4) <- exponent s3;
  let n := fold_left (fun v c => v * 10 + (c - 48)) i 0 in
  Ok (if f || e || (neg && (n =? 0)) then JReal else JNum (if neg then - n else n), s4).

(** decode.go [getu4]: four hexadecimal digits *)
Definition hex_value (c : Z) : option Z :=
  if is_dec c then Some (c - 48) else
  if (97 <=? c) && (c <=? 102) then Some (c - 87) else
  if (65 <=? c) && (c <=? 70) then Some (c - 55) else None.
Definition u4 (a b c d : Z) : option Z :=
  match hex_value a, hex_value b, hex_value c, hex_value d with
  | Some a, Some b, Some c, Some d => Some (a * 4096 + b * 256 + c * 16 + d)
  | _, _, _, _ => None
  end.

(** utf8.AppendRune of a code point that is not a surrogate *)
Definition encode_rune (cp : Z) : bytes :=
  if cp <? 128 then [cp] else
  if cp <? 2048 then [192 + cp / 64; 128 + cp mod 64] else
  if cp <? 65536 then [224 + cp / 4096; 128 + cp / 64 mod 64; 128 + cp mod 64]
  else [240 + cp / 262144; 128 + cp / 4096 mod 64; 128 + cp / 64 mod 64; 128 + cp mod 64].

(** The escapes of one letter: scanner.go [stateInStringEsc], decode.go [unquoteBytes] *)
Definition short_escape (c : Z) : option Z :=
  if c =? 34 then Some 34 else if c =? 92 then Some 92 else if c =? 47 then Some 47 else
  if c =? 98 then Some 8 else if c =? 102 then Some 12 else if c =? 110 then Some 10 else if c =? 114 then Some 13 else
  if c =? 116 then Some 9 else None.

(** scanner.go [stateInString] and decode.go [unquoteBytes] without the replacement of bytes that are not UTF-8: the characters
    up to the closing quote, and what follows it.  Half a surrogate pair is U+FFFD. *)
Fixpoint unescape (s : bytes) : outcome (bytes * bytes) :=
  match s with
  | [] => Err
  | b :: r =>
      if b =? 34 then Ok ([], r)
      else if b =? 92 then
        match r with
        | c :: r1 =>
            if c =? 117 then
              match r1 with
              | h1 :: h2 :: h3 :: h4 :: r2 =>
                  match u4 h1 h2 h3 h4 with
                  | None => Err
                  | Some cp =>
                      if (55296 <=? cp) && (cp <? 57344) then
                        match r2 with
                        | x :: y :: l1 :: l2 :: l3 :: l4 :: r3 =>
                            match u4 l1 l2 l3 l4 with
                            | Some lo =>
                                if (x =? 92) && (y =? 117) && (cp <? 56320) && (56320 <=? lo) && (lo <? 57344) then
                                  do (t, rest) <- unescape r3; Ok (encode_rune (65536 + (cp - 55296) * 1024 + (lo - 56320)) ++ t, rest)
                                else do (t, rest) <- unescape r2; Ok (replacement ++ t, rest)
                            | None => do (t, rest) <- unescape r2; Ok (replacement ++ t, rest)
                            end
                        | _ => do (t, rest) <- unescape r2; Ok (replacement ++ t, rest)
                        end
                      else do (t, rest) <- unescape r2; Ok (encode_rune cp ++ t, rest)
                  end
              | _ => Err
              end
            else match short_escape c with Some x => do (t, rest) <- unescape r1; Ok (x :: t, rest) | None => Err end
        | [] => Err
        end
      else if b <? 32 then Err
      else do (t, rest) <- unescape r; Ok (b :: t, rest)
  end.

(** A string behind its opening quote. *)
Definition read_quoted (s : bytes) : outcome (bytes * bytes) := do (t, rest) <- unescape s; Ok (concat (runes t), rest).

(** The literals, scanner.go [stateT] and following *)
Definition literal (lit : bytes) (v : json) (s : bytes) : outcome (json * bytes) :=
  if has_prefix lit s then Ok (v, skipn (length lit) s) else Err.

(** scanner.go [stateBeginValue] and following, decode.go [value], [array], [object]: one value from the front of the text, which does
    not start with white space; [depth]: containers around it, at most 10000 ([maxNestingDepth]).  [fuel]: see [read_text]. *)
Fixpoint value (fuel : nat) (depth : Z) (s : bytes) : outcome (json * bytes) :=
  match fuel with
  | O => Err
  | S f =>
      match s with
      | [] => Err
      | c :: r =>
          if c =? 123 then
            if 10000 <=? depth then Err else
            match skip r with
            | [] => Err
            | x :: r' => if x =? 125 then Ok (JObj [], r') else do (o, rest) <- members f (depth + 1) (x :: r'); Ok (JObj o, rest)
            end
          else if c =? 91 then
            if 10000 <=? depth then Err else
            match skip r with
            | [] => Err
            | x :: r' => if x =? 93 then Ok (JArr [], r') else do (l, rest) <- elems f (depth + 1) (x :: r'); Ok (JArr l, rest)
            end
          else if c =? 34 then do (t, rest) <- read_quoted r; Ok (JStr t, rest)
          else if c =? 116 then literal (str "true") (JBool true) s
          else if c =? 102 then literal (str "false") (JBool false) s
          else if c =? 110 then literal (str "null") JNull s
          else number s
      end
  end
with elems (fuel : nat) (depth : Z) (s : bytes) : outcome (list json * bytes) :=
  match fuel with
  | O => Err
  | S f =>
      do (v, r) <- value f depth s;
      match skip r with
      | [] => Err
      | x :: r' =>
          if x =? 44 then do (l, rest) <- elems f depth (skip r'); Ok (v :: l, rest)
          else if x =? 93 then Ok ([v], r') else Err
      end
  end
with members (fuel : nat) (depth : Z) (s : bytes) : outcome (list (bytes * json) * bytes) :=
  match fuel with
  | O => Err
  | S f =>
      match s with
      | [] => Err
      | q :: r =>
          if q =? 34 then
            do (k, r1) <- read_quoted r;
            match skip r1 with
            | [] => Err
            | x :: r2 =>
                if x =? 58 then
                  do (v, r3) <- value f depth (skip r2);
                  match skip r3 with
                  | [] => Err
                  | y :: r4 =>
                      if y =? 44 then do (o, rest) <- members f depth (skip r4); Ok ((k, v) :: o, rest)
                      else if y =? 125 then Ok ([(k, v)], r4) else Err
                  end
                else Err
            end
          else Err
      end
  end.

(** stream.go [Decoder.Decode]: the first value of the text; what follows it is not looked at.  Every step of [value] takes a
    character or goes from a container to its first element, so the fuel suffices. *)
Definition read_text (s : bytes) : outcome (json * bytes) := value (S (S (length s + length s))) 0 (skip s).

(** ops/assemble/json.go:34-75 [JSONAssembler.Assemble], from the text on (lines 40-43). *)
Definition assemble_json_text (env : env) (s : bytes) : outcome bytes :=
  do (v, _) <- read_text s; assemble_json env v.
