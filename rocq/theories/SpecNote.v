(** * SpecNote: how notes are named. *)
From Verif Require Import Base SpecDecimal.

(** The sharp and flat signs in UTF-8. *)
Definition sharp_sign : bytes := [226; 153; 175].
Definition flat_sign : bytes := [226; 153; 173].

(** The name of a pitch class (0 = C .. 11 = B), with sharps or with flats. *)
Definition pitch_class_name (flats : bool) (pc : Z) : bytes :=
  let black s f := if flats then f ++ flat_sign else s ++ sharp_sign in
  if pc =? 0 then str "C" else if pc =? 1 then black (str "C") (str "D") else if pc =? 2 then str "D"
  else if pc =? 3 then black (str "D") (str "E") else if pc =? 4 then str "E" else if pc =? 5 then str "F"
  else if pc =? 6 then black (str "F") (str "G") else if pc =? 7 then str "G" else if pc =? 8 then black (str "G") (str "A")
  else if pc =? 9 then str "A" else if pc =? 10 then black (str "A") (str "B") else str "B".

(** [note_name middle flats n s]: [s] is the name of note number [n], pitch class then octave; note 60
    is the C of octave [middle]. *)
Definition note_name (middle : Z) (flats : bool) (n : Z) (s : bytes) : Prop :=
  exists o, decimal (n / 12 - 5 + middle) o /\ s = pitch_class_name flats (n mod 12) ++ o.
