(** * SpecCsv: tables in delimiter separated text (RFC 4180 with any delimiter and newlines for line ends). *)
From Verif Require Import Base SpecText.

(** The text of a quoted field: quotes are doubled. *)
Inductive doubled : bytes -> bytes -> Prop :=
| db_nil : doubled [] []
| db_quote : forall f t, doubled f t -> doubled (34 :: f) (34 :: 34 :: t)
| db_other : forall c f t, c <> 34 -> doubled f t -> doubled (c :: f) (c :: t).

(** A field: as it is, if it has no quotes, no line ends and no delimiter; or in quotes. *)
Inductive field_text (d : bytes) : bytes -> bytes -> Prop :=
| ft_plain : forall f, ~ In 34 f -> ~ In 10 f -> ~ In 13 f -> (forall a b, f <> a ++ d ++ b) -> field_text d f f
| ft_quoted : forall f t, doubled f t -> field_text d f (34 :: t ++ [34]).

Inductive record_text (d : bytes) : list bytes -> bytes -> Prop :=
| rt_one : forall f t, field_text d f t -> record_text d [f] t
| rt_more : forall f t r u, field_text d f t -> record_text d r u -> record_text d (f :: r) (t ++ d ++ u).

Inductive table_text (d : bytes) : list (list bytes) -> bytes -> Prop :=
| tt_nil : table_text d [] []
| tt_cons : forall r t rs u, record_text d r t -> table_text d rs u -> table_text d (r :: rs) (t ++ 10 :: u).

(** A character that can separate fields. *)
Definition separator (d : bytes) : Prop := exists cp, utf8 cp d /\ cp <> 0 /\ cp <> 10 /\ cp <> 13 /\ cp <> 34 /\ cp <> 65533.

(** The first character of a text; U+FFFD if there is none that is well formed. *)
Inductive first_char : bytes -> bytes -> Prop :=
| fc_char : forall cp c r, utf8 cp c -> first_char (c ++ r) c
| fc_bad : forall b r, (forall cp c r', utf8 cp c -> b :: r <> c ++ r') -> first_char (b :: r) [239; 191; 189].

(** The delimiter that an option asks for: TAB if it is empty or a backslash and a t, otherwise its first character. *)
Definition delimiter (opt d : bytes) : Prop :=
  ((opt = [] \/ opt = [92; 116]) /\ d = [9]) \/ (opt <> [] /\ opt <> [92; 116] /\ first_char opt d).
