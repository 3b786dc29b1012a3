(** * SpecDuration: texts for lengths of time and what they stand for. *)
From Verif Require Import Base Strings SpecDecimal SpecText Notes.

(** Units and their nanoseconds. *)
Definition units : list (bytes * Z) :=
  [(str "h", 3600000000000); (str "m", 60000000000); (str "s", 1000000000); (str "ms", 1000000); ([194; 181; 115], 1000); (str "ns", 1)].

(** [amount v s]: a decimal number, perhaps with a fraction, and a unit; [v] nanoseconds. *)
Inductive amount : Z -> bytes -> Prop :=
| am_whole : forall v i u n, i <> [] -> Forall is_digit i -> In (u, n) units -> v = digits_value i * n -> amount v (i ++ u)
| am_fraction : forall v i f u n, i <> [] -> Forall is_digit i -> f <> [] -> Forall is_digit f -> In (u, n) units ->
    v * 10 ^ Z.of_nat (length f) = digits_value (i ++ f) * n -> amount v (i ++ 46 :: f ++ u).

(** Amounts in a row are added. *)
Inductive amounts : Z -> bytes -> Prop :=
| ams_one : forall v s, amount v s -> amounts v s
| ams_more : forall v s w t, amount v s -> amounts w t -> amounts (v + w) (s ++ t).

Inductive time_text : Z -> bytes -> Prop :=
| tt_pos : forall v s, amounts v s -> time_text v s
| tt_neg : forall v s, amounts v s -> time_text (- v) (45 :: s).

(** What a printed line says: name, channel, note, velocity, and the three times in nanoseconds. *)
Record line_values := Line { l_name : bytes; l_ch : Z; l_note : Z; l_vel : Z; l_start : Z; l_end : Z; l_dur : Z }.

(** A line: the labels, each value in its notation, and any number of spaces behind it. *)
Inductive note_line : line_values -> bytes -> Prop :=
| nl : forall x c h1 h2 d1 d2 v s e t n1 n2 n3 n4 n5,
    l_name x <> [] -> ~ In 32 (l_name x) -> ~ In 10 (l_name x) -> decimal (l_ch x) c -> digit16 h1 d1 -> digit16 h2 d2 -> l_note x = 16 * d1 + d2 ->
    decimal (l_vel x) v -> time_text (l_start x) s -> time_text (l_end x) e -> time_text (l_dur x) t ->
    note_line x (l_name x ++ spaces n1 ++ str " channel:" ++ c ++ spaces n2 ++ str "  note:" ++ [h1; h2] ++ str "  velocity:" ++ v ++ spaces n3 ++
      str "  start:" ++ s ++ spaces n4 ++ str "  end:" ++ e ++ spaces n5 ++ str "  duration:" ++ t ++ [10]).

(** A text with one line for each. *)
Definition listing (xs : list line_values) (text : bytes) : Prop := exists lines, text = concat lines /\ Forall2 note_line xs lines.

(** The note of the list in whole milliseconds (towards zero). *)
Definition whole_ms (t : Z) : Z := 1000000 * (Z.quot t 1000000).
Definition shown (n : note_out) : line_values :=
  Line (o_name n) (o_ch n) (o_note n) (o_vel n) (whole_ms (o_start n)) (whole_ms (o_end n)) (whole_ms (o_duration n)).
