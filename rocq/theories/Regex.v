(** * Regex: the part of Go's regexp package (standard library) that the assembler uses.

    Matching is leftmost-first: alternatives in order, greedy repetition tries more first, lazy repetition less first.
    Everything works on bytes: all patterns are made of ASCII characters, except for the class of sharp and flat signs and
    characters that fold to 'k' and 's'; in valid UTF-8 such a character is always found at a character boundary, and where
    the text is not valid UTF-8 Go takes one byte at a time.  Repetition is over classes of single bytes only. *)
From Verif Require Import Base Strings.

Inductive re :=
| Eps
| One (p : bytes -> option bytes)          (* a literal or one character; gives what is left *)
| Star (greedy : bool) (c : Z -> bool)     (* c* or c*? *)
| Cat (a b : re)
| Alt (a b : re)
| Group (a : re).

(** [k] is tried where the repetition may end. *)
Fixpoint star (greedy : bool) (c : Z -> bool) (caps : list bytes) (k : list bytes -> bytes -> option (list bytes)) (s : bytes) : option (list bytes) :=
  match s with
  | [] => k caps []
  | x :: r =>
      if c x then
        if greedy then match star greedy c caps k r with Some y => Some y | None => k caps s end
        else match k caps s with Some y => Some y | None => star greedy c caps k r end
      else k caps s
  end.

(** Matches at the start of [s]; [caps] are the groups matched so far. *)
Fixpoint rmatch (r : re) (caps : list bytes) (s : bytes) (k : list bytes -> bytes -> option (list bytes)) : option (list bytes) :=
  match r with
  | Eps => k caps s
  | One p => match p s with Some s' => k caps s' | None => None end
  | Star g c => star g c caps k s
  | Cat a b => rmatch a caps s (fun caps' s' => rmatch b caps' s' k)
  | Alt a b => match rmatch a caps s k with Some x => Some x | None => rmatch b caps s k end
  | Group a => rmatch a caps s (fun caps' s' => k (caps' ++ [firstn (length s - length s') s]) s')
  end.

(** FindStringSubmatch: the groups of the leftmost match. *)
Fixpoint rfind (r : re) (s : bytes) : option (list bytes) :=
  match rmatch r [] s (fun caps _ => Some caps) with
  | Some caps => Some caps
  | None => match s with [] => None | _ :: s' => rfind r s' end
  end.

Definition cat (l : list re) : re := fold_right Cat Eps l.

(** A literal. *)
Fixpoint strip (l s : bytes) : option bytes :=
  match l, s with
  | [], _ => Some s
  | c :: l', x :: s' => if c =? x then strip l' s' else None
  | _ :: _, [] => None
  end.
Definition lit (l : bytes) : re := One (strip l).

(** ASCII part of unicode.ToLower *)
Definition lower (c : Z) : Z := if (65 <=? c) && (c <=? 90) then c + 32 else c.

(** One character of a literal under (?i): 'k' also matches the Kelvin sign U+212A, 's' also the long s U+017F. *)
Definition fold1 (c : Z) (s : bytes) : option bytes :=
  match s with
  | [] => None
  | x :: r =>
      if lower x =? lower c then Some r
      else if (lower c =? 107) && has_prefix [226; 132; 170] s then Some (skipn 3 s)
      else if (lower c =? 115) && has_prefix [197; 191] s then Some (skipn 2 s)
      else None
  end.

(** A literal under (?i). *)
Fixpoint strip_fold (l s : bytes) : option bytes :=
  match l with
  | [] => Some s
  | c :: l' => match fold1 c s with Some s' => strip_fold l' s' | None => None end
  end.
Definition ilit (l : bytes) : re := One (strip_fold l).

(** One byte of a class. *)
Definition byte1 (c : Z -> bool) (s : bytes) : option bytes :=
  match s with x :: r => if c x then Some r else None | [] => None end.
Definition cls (c : Z -> bool) : re := One (byte1 c).

Definition star_of (c : Z -> bool) : re := Star true c.                 (* c* *)
Definition plus (c : Z -> bool) : re := Cat (cls c) (Star true c).      (* c+ *)
Definition opt (a : re) : re := Alt a Eps.                              (* a? *)
Definition dot (c : Z) : bool := negb (c =? 10).                        (* . *)
Definition digit (c : Z) : bool := (48 <=? c) && (c <=? 57).            (* [0-9] *)
Definition white (c : Z) : bool := (c =? 9) || (c =? 10) || (c =? 12) || (c =? 13) || (c =? 32).  (* \s *)
