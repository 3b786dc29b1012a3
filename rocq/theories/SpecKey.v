(** * SpecKey: keys and scales by the circle of fifths, independently of the tables of the code.

    Pitch classes are 0..11 from C.  A key is a mode and a number of accidentals: sharps if positive,
    flats if negative. *)
From Verif Require Import Base Tables.

Definition key_range (acc : Z) : Prop := -7 <= acc <= 7.

(** Pitch class of the tonic: fifths up from C (major) or A (minor). *)
Definition tonic_class (minor : bool) (acc : Z) : Z := (7 * acc + if minor then 9 else 0) mod 12.

(** A name on the line of fifths, 0 = C, 1 = G, -1 = F: its letter (UTF-8) and its accidental sign. *)
Definition fifths_letter (k : Z) : Z := nth (Z.to_nat ((k + 1) mod 7)) [70; 67; 71; 68; 65; 69; 66] 0.
Definition fifths_sign (k : Z) : bytes :=
  if k <? -1 then [226; 153; 173] (* ♭ *) else if 5 <? k then [226; 153; 175] (* ♯ *) else [].

(** Name of the tonic: for a minor key three fifths further up. *)
Definition tonic_name (minor : bool) (acc : Z) : bytes :=
  let k := acc + (if minor then 3 else 0) in fifths_letter k :: fifths_sign k.

(** " major", " minor" *)
Definition mode_name (minor : bool) : bytes :=
  if minor then [32; 109; 105; 110; 111; 114] else [32; 109; 97; 106; 111; 114].

Definition key_name (minor : bool) (acc : Z) : bytes := tonic_name minor acc ++ mode_name minor.

(** Whole and half steps of the mode. *)
Definition mode_steps (minor : bool) : list Z := if minor then [2; 1; 2; 2; 1; 2; 2] else [2; 2; 1; 2; 2; 2; 1].

(** Pitch class of a letter. *)
Definition letter_class (letter : Z) : Z :=
  if letter =? 67 then 0 else if letter =? 68 then 2 else if letter =? 69 then 4 else if letter =? 70 then 5 else
  if letter =? 71 then 7 else if letter =? 65 then 9 else 11.

(** A note is named correctly: a letter A..G, perhaps a sign, and the pitch class follows. *)
Inductive well_named : pitch -> Z -> Z -> Prop :=
| wn_natural : forall l, 65 <= l <= 71 -> well_named (Pitch (letter_class l) [l]) l 0
| wn_sharp : forall l, 65 <= l <= 71 -> well_named (Pitch ((letter_class l + 1) mod 12) [l; 226; 153; 175]) l 1
| wn_flat : forall l, 65 <= l <= 71 -> well_named (Pitch ((letter_class l - 1) mod 12) [l; 226; 153; 173]) l (-1).

(** Every note is the given number of semitones above the one before, the last one leads back to the
    first, and the letters follow each other round A..G. *)
Definition next_letter (l : Z) : Z := if l =? 71 then 65 else l + 1.

Inductive ascends : Z -> Z -> list Z -> list (pitch * Z * Z) -> Prop :=
| asc_nil : forall c l, ascends c l [] []
| asc_cons : forall p l sign c step steps r, well_named p l sign -> p_ord p = c ->
    ascends ((c + step) mod 12) (next_letter l) steps r ->
    ascends c l (step :: steps) ((p, l, sign) :: r).

(** The scale of a key: from the tonic, by the steps of the mode, over the seven letters, with exactly
    |acc| accidentals, all of the right sign. *)
Definition proper_scale (minor : bool) (acc : Z) (notes : list pitch) : Prop :=
  exists l, map (fun x => fst (fst x)) l = notes /\
    ascends (tonic_class minor acc) (hd 0 (tonic_name minor acc)) (mode_steps minor) l /\
    zlen (filter (fun x => negb (snd x =? 0)) l) = Z.abs acc /\
    Forall (fun x => snd x = 0 \/ snd x = Z.sgn acc) l.
