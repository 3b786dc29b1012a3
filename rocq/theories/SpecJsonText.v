(** * SpecJsonText: JSON texts (RFC 8259) and the values they stand for.  Uses only the type of trees. *)
From Verif Require Import Base Strings Tables Event SpecText SpecDecimal Json.

(** White space (section 2). *)
Definition white (w : bytes) : Prop := Forall (fun c => c = 32 \/ c = 9 \/ c = 10 \/ c = 13) w.

(** A hexadecimal digit, in either case, and four of them. *)
Inductive hex_digit : Z -> Z -> Prop :=
| hd_num : forall v, 0 <= v <= 9 -> hex_digit (48 + v) v
| hd_upper : forall v, 10 <= v <= 15 -> hex_digit (55 + v) v
| hd_lower : forall v, 10 <= v <= 15 -> hex_digit (87 + v) v.
Inductive four_hex : bytes -> Z -> Prop :=
| fh : forall c1 c2 c3 c4 v1 v2 v3 v4, hex_digit c1 v1 -> hex_digit c2 v2 -> hex_digit c3 v3 -> hex_digit c4 v4 ->
    four_hex [c1; c2; c3; c4] (v1 * 4096 + v2 * 256 + v3 * 16 + v4).

(** A character in a string (section 7): itself, a short escape, a code unit, a pair of code units.  Half pairs stand for no
    character. *)
Inductive char_text : bytes -> bytes -> Prop :=
| ct_plain : forall cp c, utf8 cp c -> 32 <= cp -> cp <> 34 -> cp <> 92 -> char_text c c
| ct_escape : forall x e, In (x, e) [(34, 34); (92, 92); (47, 47); (8, 98); (12, 102); (10, 110); (13, 114); (9, 116)] ->
    char_text [x] [92; e]
| ct_unit : forall cp c h, four_hex h cp -> utf8 cp c -> char_text c (92 :: 117 :: h)
| ct_pair : forall hi lo c h l, four_hex h hi -> four_hex l lo -> 55296 <= hi < 56320 -> 56320 <= lo < 57344 ->
    utf8 (65536 + (hi - 55296) * 1024 + (lo - 56320)) c -> char_text c (92 :: 117 :: h ++ 92 :: 117 :: l).

Inductive chars_text : bytes -> bytes -> Prop :=
| cs_nil : chars_text [] []
| cs_cons : forall c t s u, char_text c t -> chars_text s u -> chars_text (c ++ s) (t ++ u).

(** A string, for a notion of what its characters stand for. *)
Inductive string_in (chars : bytes -> bytes -> Prop) : bytes -> bytes -> Prop :=
| st : forall s t, chars s t -> string_in chars s (34 :: t ++ [34]).
Arguments st {chars}.
Notation string_text := (string_in chars_text).

(** Numbers (section 6).  Integers are decimal numerals ([decimal], SpecDecimal.v); [real_text]: all other numbers, and -0. *)
Definition digits1 (s : bytes) : Prop := s <> [] /\ Forall is_digit s.
Inductive real_text : bytes -> Prop :=
| rt : forall sign i f e,
    sign = [] \/ sign = [45] ->
    i = [48] \/ (Forall is_digit i /\ 49 <= hd 0 i) ->
    f = [] \/ (exists ds, f = 46 :: ds /\ digits1 ds) ->
    e = [] \/ (exists m s ds, e = m :: s ++ ds /\ (m = 69 \/ m = 101) /\ (s = [] \/ s = [43] \/ s = [45]) /\ digits1 ds) ->
    f <> [] \/ e <> [] \/ (sign = [45] /\ i = [48]) ->
    real_text (sign ++ i ++ f ++ e).

(** Values (sections 3 to 5), for a notion of what the characters of strings stand for. *)
Inductive json_in (chars : bytes -> bytes -> Prop) : json -> bytes -> Prop :=
| jt_null : json_in chars JNull (str "null")
| jt_true : json_in chars (JBool true) (str "true")
| jt_false : json_in chars (JBool false) (str "false")
| jt_int : forall n s, decimal n s -> json_in chars (JNum n) s
| jt_real : forall s, real_text s -> json_in chars JReal s
| jt_string : forall s t, string_in chars s t -> json_in chars (JStr s) t
| jt_array0 : forall w, white w -> json_in chars (JArr []) (91 :: w ++ [93])
| jt_array : forall l s, elements_in chars l s -> json_in chars (JArr l) (91 :: s ++ [93])
| jt_object0 : forall w, white w -> json_in chars (JObj []) (123 :: w ++ [125])
| jt_object : forall o s, members_in chars o s -> json_in chars (JObj o) (123 :: s ++ [125])
with elements_in (chars : bytes -> bytes -> Prop) : list json -> bytes -> Prop :=
| et_one : forall w1 v s w2, white w1 -> json_in chars v s -> white w2 -> elements_in chars [v] (w1 ++ s ++ w2)
| et_more : forall w1 v s w2 l t, white w1 -> json_in chars v s -> white w2 -> elements_in chars l t ->
    elements_in chars (v :: l) (w1 ++ s ++ w2 ++ 44 :: t)
with members_in (chars : bytes -> bytes -> Prop) : list (bytes * json) -> bytes -> Prop :=
| mt_one : forall w1 k kt w2 w3 v s w4, white w1 -> string_in chars k kt -> white w2 -> white w3 -> json_in chars v s -> white w4 ->
    members_in chars [(k, v)] (w1 ++ kt ++ w2 ++ 58 :: w3 ++ s ++ w4)
| mt_more : forall w1 k kt w2 w3 v s w4 o t, white w1 -> string_in chars k kt -> white w2 -> white w3 -> json_in chars v s -> white w4 ->
    members_in chars o t -> members_in chars ((k, v) :: o) (w1 ++ kt ++ w2 ++ 58 :: w3 ++ s ++ w4 ++ 44 :: t).
Arguments jt_null {chars}. Arguments jt_true {chars}. Arguments jt_false {chars}. Arguments jt_int {chars}. Arguments jt_real {chars}. Arguments jt_string {chars}. Arguments jt_array0 {chars}. Arguments jt_array {chars}. Arguments jt_object0 {chars}. Arguments jt_object {chars}. Arguments et_one {chars}. Arguments et_more {chars}. Arguments mt_one {chars}. Arguments mt_more {chars}.
Notation json_text := (json_in chars_text).
Notation elements_text := (elements_in chars_text).
Notation members_text := (members_in chars_text).

(** What strings are read as.  [rfc_chars]: section 8.2 leaves open what half a pair of code units stands for; here it is U+FFFD, as in Go.
    [lax_chars]: a byte that does not start a character in UTF-8, which makes the text no JSON text by section 8.1, is U+FFFD as well. *)
Definition no_char : bytes := [239; 191; 189].
Inductive rfc_chars : bytes -> bytes -> Prop :=
| rc_nil : rfc_chars [] []
| rc_char : forall c t s u, char_text c t -> rfc_chars s u -> rfc_chars (c ++ s) (t ++ u)
| rc_half : forall cp h s u, four_hex h cp -> 55296 <= cp < 57344 ->
    ~ (cp < 56320 /\ exists l lo v, u = 92 :: 117 :: l ++ v /\ four_hex l lo /\ 56320 <= lo < 57344) -> rfc_chars s u ->
    rfc_chars (no_char ++ s) (92 :: 117 :: h ++ u).
Inductive lax_chars : bytes -> bytes -> Prop :=
| lc_nil : lax_chars [] []
| lc_char : forall c t s u, char_text c t -> lax_chars s u -> lax_chars (c ++ s) (t ++ u)
| lc_half : forall cp h s u, four_hex h cp -> 55296 <= cp < 57344 ->
    ~ (cp < 56320 /\ exists l lo v, u = 92 :: 117 :: l ++ v /\ four_hex l lo /\ 56320 <= lo < 57344) -> lax_chars s u ->
    lax_chars (no_char ++ s) (92 :: 117 :: h ++ u)
| lc_bad : forall b s u, 128 <= b < 256 -> (forall cp c v, utf8 cp c -> b :: u <> c ++ v) -> lax_chars s u -> lax_chars (no_char ++ s) (b :: u).

(** How deep containers are nested. *)
Fixpoint depth (v : json) : Z :=
  match v with
  | JArr l => 1 + fold_right (fun v m => Z.max (depth v) m) 0 l
  | JObj o => 1 + fold_right (fun f m => Z.max (depth (snd f)) m) 0 o
  | _ => 0
  end.

(** Trees that can be written: integers are the only numbers, strings are bytes, keys are UTF-8. *)
Fixpoint writable (v : json) : Prop :=
  match v with
  | JReal => False
  | JStr s => is_bytes s
  | JArr l => fold_right (fun v p => writable v /\ p) True l
  | JObj o => fold_right (fun f p => well_formed (fst f) /\ writable (snd f) /\ p) True o
  | _ => True
  end.

(** What follows a text: after a number, nothing that would continue it. *)
Definition ends_number (rest : bytes) : Prop :=
  match rest with c :: _ => ~ is_digit c /\ c <> 46 /\ c <> 101 /\ c <> 69 | [] => True end.
Definition separated (v : json) (rest : bytes) : Prop := match v with JNum _ | JReal => ends_number rest | _ => True end.

(** Regions and names of manufacturers are strings of bytes, as all strings are in Go. *)
Definition names_bytes (l : list (bytes * manufacturer)) : Prop := Forall (fun x => is_bytes (m_region (snd x)) /\ is_bytes (m_name (snd x))) l.
Definition conf_bytes (conf : list (bytes * bytes * bytes)) : Prop := Forall (fun x => is_bytes (snd (fst x)) /\ is_bytes (snd x)) conf.
