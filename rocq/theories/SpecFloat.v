(** * SpecFloat: decimal fractions, and the JSON document of the notes command. *)
From Verif Require Import Base Strings SpecDecimal SpecText SpecDuration Json SpecJsonText.

(** [decimal_fraction n p s]: [s] is n/10^p, with [p] digits behind the point. *)
Inductive decimal_fraction : Z -> Z -> bytes -> Prop :=
| df_whole : forall n s, decimal n s -> decimal_fraction n 0 s
| df_point : forall w ws f, decimal w ws -> 0 <= w -> Forall is_digit f -> f <> [] ->
    decimal_fraction (w * 10 ^ zlen f + digits_value f) (zlen f) (ws ++ 46 :: f)
| df_minus : forall w ws f, decimal w ws -> 0 <= w -> Forall is_digit f -> f <> [] ->
    decimal_fraction (- (w * 10 ^ zlen f + digits_value f)) (zlen f) (45 :: ws ++ 46 :: f).

(** [s] gives the time of [t] nanoseconds in seconds, to within ten microseconds. *)
Definition seconds_near (t : Z) (s : bytes) : Prop :=
  exists n p, decimal_fraction n p s /\ 100000 * Z.abs (n * 1000000000 - t * 10 ^ p) <= 1000000000 * 10 ^ p.

(** The lines of a note; its times are whole milliseconds. *)
Inductive note_lines (last : bool) : line_values -> list bytes -> Prop :=
| nls : forall x c m nm v s e t, decimal (l_ch x) c -> decimal (l_note x) m -> string_text (l_name x) nm -> decimal (l_vel x) v ->
    l_start x mod 1000000 = 0 -> l_end x mod 1000000 = 0 -> l_dur x mod 1000000 = 0 ->
    seconds_near (l_start x) s -> seconds_near (l_end x) e -> seconds_near (l_dur x) t ->
    note_lines last x [str "    {"; str "      ""channel"": " ++ c ++ str ","; str "      ""midi-note"": " ++ m ++ str ","; str "      ""note"": " ++ nm ++ str ",";
      str "      ""velocity"": " ++ v ++ str ","; str "      ""start"": " ++ s ++ str ","; str "      ""end"": " ++ e ++ str ","; str "      ""duration"": " ++ t;
      if last then str "    }" else str "    },"].
Inductive notes_lines : list line_values -> list bytes -> Prop :=
| nsl_one : forall x l, note_lines true x l -> notes_lines [x] l
| nsl_more : forall x l xs ls, note_lines false x l -> notes_lines xs ls -> notes_lines (x :: xs) (l ++ ls).

(** Lines, separated by line feeds *)
Fixpoint unlines (l : list bytes) : bytes := match l with [] => [] | [x] => x | x :: r => x ++ 10 :: unlines r end.

Definition notes_document (xs : list line_values) (text : bytes) : Prop :=
  match xs with
  | [] => text = unlines [str "{"; str "  ""notes"": null"; str "}"]
  | _ => exists ls, notes_lines xs ls /\ text = unlines ([str "{"; str "  ""notes"": ["] ++ ls ++ [str "  ]"; str "}"])
  end.

(** The tree of a note: the times are numbers. *)
Definition is_number (v : json) : Prop := match v with JNum _ | JReal => True | _ => False end.
Definition note_tree (x : line_values) (v : json) : Prop :=
  exists a b c, is_number a /\ is_number b /\ is_number c /\
    v = JObj [(str "channel", JNum (l_ch x)); (str "midi-note", JNum (l_note x)); (str "note", JStr (l_name x)); (str "velocity", JNum (l_vel x));
              (str "start", a); (str "end", b); (str "duration", c)].
