(** * Hex: midi/lib/hex.go *)
From Verif Require Import Base Strings.

(** strings.TrimSpace on strings of hexadecimal digits and spaces: only spaces can be removed. *)
Fixpoint trim_spaces_left (s : bytes) : bytes :=
  match s with
  | c :: r => if c =? 32 then trim_spaces_left r else s
  | [] => []
  end.
Definition trim_spaces (s : bytes) : bytes := rev (trim_spaces_left (rev (trim_spaces_left s))).

(** midi/lib/hex.go:22-29 [Hex.String] *)
Definition hex_string (bs : bytes) : bytes := trim_spaces (concat (map (fun b => hex2 b ++ [32]) bs)).

(** The class [\s] of regexp. *)
Definition is_space (c : Z) : bool := (c =? 9) || (c =? 10) || (c =? 12) || (c =? 13) || (c =? 32).

(** fromHexChar (encoding/hex, Go standard library) *)
Definition from_hex_char (c : Z) : option Z :=
  if (48 <=? c) && (c <=? 57) then Some (c - 48)
  else if (97 <=? c) && (c <=? 102) then Some (c - 87)
  else if (65 <=? c) && (c <=? 70) then Some (c - 55)
  else None.

(** hex.DecodeString (encoding/hex): an error for a digit that is none and for an odd number of digits. *)
Fixpoint decode_hex (s : bytes) : outcome bytes :=
  match s with
  | [] => Ok []
  | [_] => Err
  | c :: d :: r =>
      match from_hex_char c, from_hex_char d with
      | Some a, Some b => do bs <- decode_hex r; Ok (16 * a + b :: bs)
      | _, _ => Err
      end
  end.

(** midi/lib/hex.go:13-20 [ParseHex] *)
Definition parse_hex (s : bytes) : outcome bytes := decode_hex (filter (fun c => negb (is_space c)) s).

(** midi/lib/hex.go:35-42 [Hex.MarshalJSON]: the numbers of the JSON array. *)
Definition hex_to_json (bs : bytes) : list Z := bs.
(** midi/lib/hex.go:44-59 [Hex.UnmarshalJSON] of an array of numbers: an error unless each fits a uint (64 bits). *)
Definition hex_of_json (v : list Z) : outcome bytes :=
  if forallb (fun n => (0 <=? n) && (n <? 18446744073709551616)) v then Ok (map (fun n => n mod 256) v) else Err.
