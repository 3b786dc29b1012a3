(** * SpecLine: what a line of assembly text says. *)
From Verif Require Import Base Tables Event SpecTable SpecDecimal SpecKey SpecAssemble SpecSurvive SpecRead SpecTrack.

(** [x] is the letter [c], in either case, or any other character itself. *)
Definition same_letter (c x : Z) : Prop := x = c \/ (65 <= c <= 90 /\ x = c + 32) \/ (97 <= c <= 122 /\ x = c - 32).

(** [spelled l s]: [s] is the word [l] in any mixture of cases.  The Kelvin sign counts as a K, the long s as an S. *)
Inductive spelled : bytes -> bytes -> Prop :=
| sp_nil : spelled [] []
| sp_letter : forall c x l s, same_letter c x -> spelled l s -> spelled (c :: l) (x :: s)
| sp_kelvin : forall c l s, same_letter 75 c -> spelled l s -> spelled (c :: l) ([226; 132; 170] ++ s)
| sp_long_s : forall c l s, same_letter 83 c -> spelled l s -> spelled (c :: l) ([197; 191] ++ s).

(** [s] is a decimal number, leading zeros allowed. *)
Definition num (n : Z) (s : bytes) : Prop := s <> [] /\ Forall is_digit s /\ n = digits_value s.
(** The text does not go on with a digit. *)
Definition no_digit (r : bytes) : Prop := forall c r', r = c :: r' -> ~ is_digit c.
(** The text does not go on with white space. *)
Definition no_white (r : bytes) : Prop := forall c r', r = c :: r' -> ~ white_space c.
(** At least one character of white space; any number of them. *)
Definition blank (w : bytes) : Prop := w <> [] /\ Forall white_space w.
Definition blanks (w : bytes) : Prop := Forall white_space w.
(** The end of the text or of its line. *)
Definition line_end (r : bytes) : Prop := r = [] \/ exists r', r = 10 :: r'.

(** Nothing, a sharp sign, a flat sign; semitones. *)
Inductive sign : bytes -> Z -> Prop :=
| sg_none : sign [] 0
| sg_sharp : sign [226; 153; 175] 1
| sg_flat : sign [226; 153; 173] (-1).

(** Note numbers of names; the number of a B sharp and of a C flat is that of the C or B with the same octave digit. *)
Inductive note_says : bytes -> note -> Prop :=
| ns : forall l a k o, 65 <= l <= 71 -> sign a k -> is_digit o ->
    let s := l :: a ++ [o] in
    note_says s (Note (12 * (o - 48 + 1) + (letter_class l + k) mod 12) s s).

(** The key of a name: C major for names that no key has. *)
Inductive key_says : bytes -> body -> Prop :=
| ks_key : forall (minor : bool) acc, key_range acc -> key_says (key_name minor acc) (KeySignature acc (if minor then 1 else 0) (key_name minor acc))
| ks_none : forall s, (forall minor acc, key_range acc -> s <> key_name minor acc) -> key_says s (KeySignature 0 0 (str "C major")).

(** [nibbles s l]: hexadecimal digits with white space between them. *)
Inductive nibble : Z -> Z -> Prop :=
| nb_num : forall v, 0 <= v <= 9 -> nibble (48 + v) v
| nb_upper : forall v, 10 <= v <= 15 -> nibble (55 + v) v
| nb_lower : forall v, 10 <= v <= 15 -> nibble (87 + v) v.
Inductive nibbles : bytes -> list Z -> Prop :=
| nbs_nil : nibbles [] []
| nbs_white : forall c s l, white_space c -> nibbles s l -> nibbles (c :: s) l
| nbs_digit : forall c v s l, nibble c v -> nibbles s l -> nibbles (c :: s) (v :: l).
Inductive pairs : list Z -> bytes -> Prop :=
| prs_nil : pairs [] []
| prs_cons : forall a b l r, pairs l r -> pairs (a :: b :: l) (16 * a + b :: r).
Definition hex_says (s : bytes) (bs : bytes) : Prop := exists l, nibbles s l /\ pairs l bs.

(** The first manufacturer of that name. *)
Definition maker_says (table : list (bytes * manufacturer)) (name : bytes) (m : manufacturer) : Prop :=
  exists l1 k l2, table = l1 ++ (k, m) :: l2 /\ m_name m = name /\ Forall (fun p => m_name (snd p) <> name) l1.

(** "channel:" and a number *)
Definition channel_says (s : bytes) (ch : Z) : Prop :=
  exists w x d v, s = w ++ x ++ d ++ v /\ blank w /\ spelled (str "channel:") x /\ num ch d /\ blank v /\ 0 <= ch < 16.

(** [details table s b]: what the text [s] after the name of the kind of event says. *)
Inductive details (table : list (bytes * manufacturer)) : bytes -> body -> Prop :=
| de_seqno : forall w s r n, blank w -> num n s -> no_digit r -> n < 65536 -> details table (w ++ s ++ r) (SequenceNumber n)
| de_text : forall k w t r, blank w -> no_white (t ++ r) -> ~ In 10 t -> line_end r -> details table (w ++ t ++ r) (TextEvent k t)
| de_prefix : forall w s r n, blank w -> num n s -> no_digit r -> n < 16 -> details table (w ++ s ++ r) (MIDIChannelPrefix n)
| de_port : forall w s r n, blank w -> num n s -> no_digit r -> n < 128 -> details table (w ++ s ++ r) (MIDIPort n)
| de_tempo : forall w x s r n, blank w -> spelled (str "tempo:") x -> num n s -> no_digit r -> n < 4294967296 ->
    details table (w ++ x ++ s ++ r) (Tempo n)
| de_time : forall w s1 s2 w2 s3 x w3 s4 y r n d t q, blank w -> num n s1 -> num d s2 -> 49 <= hd 0 s2 -> blanks w2 -> num t s3 ->
    spelled (str " ticks per click,") x -> blanks w3 -> num q s4 -> 49 <= hd 0 s4 -> Forall (fun c => c <> 57) (tl s4) -> spelled (str "/32 per quarter") y ->
    n < 256 -> d <= 128 -> t < 256 -> q < 256 ->
    details table (w ++ s1 ++ [47] ++ s2 ++ [44] ++ w2 ++ [32] ++ s3 ++ x ++ w3 ++ s4 ++ y ++ r) (TimeSignature n d t q)
| de_key : forall w l c a k w2 (minor : bool) x r b, blank w -> 65 <= l <= 71 -> same_letter l c -> sign a k -> blank w2 ->
    spelled (if minor then str "minor" else str "major") x -> key_says (l :: a ++ (if minor then str " minor" else str " major")) b ->
    details table (w ++ c :: a ++ w2 ++ x ++ r) b
| de_smpte : forall w1 s1 w2 s2 w3 s3 w4 s4 w5 s5 w6 s6 r h m s rate f ff,
    blank w1 -> blank w2 -> blank w3 -> blank w4 -> blank w5 -> blank w6 ->
    num h s1 -> num m s2 -> num s s3 -> num rate s4 -> num f s5 -> num ff s6 -> no_digit r ->
    h <= 24 -> m <= 59 -> s <= 59 -> In rate [24; 25; 29; 30] -> f < rate -> ff <= 100 ->
    details table (w1 ++ s1 ++ w2 ++ s2 ++ w3 ++ s3 ++ w4 ++ s4 ++ w5 ++ s5 ++ w6 ++ s6 ++ r) (SMPTEOffset h m s rate f ff)
| de_end : forall r, details table r EndOfTrack
| de_seqspec : forall w name t r m data, blank w -> no_white (name ++ [44]) -> ~ In 44 name -> ~ In 10 name -> ~ In 10 t -> line_end r ->
    maker_says table name m -> hex_says t data -> details table (w ++ name ++ [44] ++ t ++ r) (SequencerSpecific m data)
| de_off : forall c x s y w z d r ch n v, channel_says c ch -> spelled (str "note:") x -> note_says s n -> blanks w -> spelled (str "velocity:") z ->
    num v d -> no_digit r -> v < 128 -> y = [44] -> details table (c ++ x ++ s ++ y ++ w ++ z ++ d ++ r) (NoteOff ch n v)
| de_on : forall c x s y w z d r ch n v, channel_says c ch -> spelled (str "note:") x -> note_says s n -> blanks w -> spelled (str "velocity:") z ->
    num v d -> no_digit r -> v < 128 -> y = [44] -> details table (c ++ x ++ s ++ y ++ w ++ z ++ d ++ r) (NoteOn ch n v)
| de_poly : forall c x d r ch p, channel_says c ch -> spelled (str "pressure:") x -> num p d -> no_digit r -> p < 128 ->
    details table (c ++ x ++ d ++ r) (PolyphonicPressure ch p)
  (* Anything may stand before the channel and after the number of the controller. *)
| de_control : forall a c s b x d r ch n v id, ~ In 10 a -> channel_says c ch -> num id s -> no_digit (b ++ x) -> ~ In 10 b -> spelled (str "value:") x -> num v d ->
    no_digit r -> id < 256 -> v < 256 -> n = lookup_controller id -> details table (a ++ c ++ s ++ b ++ x ++ d ++ r) (Controller ch n v)
| de_program : forall c x s y w z d r ch b p, channel_says c ch -> spelled (str "bank:") x -> num b s -> y = [44] -> blanks w -> spelled (str "program:") z ->
    num p d -> no_digit r -> b < 65536 -> p < 256 -> details table (c ++ x ++ s ++ y ++ w ++ z ++ d ++ r) (ProgramChange ch b p)
| de_pressure : forall c x d r ch p, channel_says c ch -> spelled (str "pressure:") x -> num p d -> no_digit r -> p < 128 ->
    details table (c ++ x ++ d ++ r) (ChannelPressure ch p)
| de_bend : forall c x d r ch b, channel_says c ch -> spelled (str "bend:") x -> num b d -> no_digit r -> b < 65536 ->
    details table (c ++ x ++ d ++ r) (PitchBend ch b)
| de_sysex : forall w name t r m data, blank w -> no_white (name ++ [44]) -> ~ In 44 name -> ~ In 10 name -> ~ In 10 t -> line_end r ->
    maker_says table name m -> hex_says t data -> details table (w ++ name ++ [44] ++ t ++ r) (SysExMessage m data false)
| de_cont : forall w t r data, blank w -> no_white (t ++ r) -> ~ In 10 t -> line_end r -> hex_says t data -> details table (w ++ t ++ r) (SysExContinuation data false)
| de_escape : forall w t r data, blank w -> no_white (t ++ r) -> ~ In 10 t -> line_end r -> hex_says t data -> details table (w ++ t ++ r) (SysExEscape data).

(** Status byte of a channel message. *)
Definition line_status (b : body) : option Z :=
  match b with
  | NoteOff c _ _ => Some (128 + c) | NoteOn c _ _ => Some (144 + c) | PolyphonicPressure c _ => Some (160 + c) | Controller c _ _ => Some (176 + c)
  | ProgramChange c _ _ => Some (192 + c) | ChannelPressure c _ => Some (208 + c) | PitchBend c _ => Some (224 + c)
  | _ => None
  end.

(** A line: [pre], "delta:" and a number, [mid], the name of the kind of event, and then the details. *)
Definition line_parts (table : list (bytes * manufacturer)) (s pre x d mid y tail : bytes) (e : event) : Prop :=
  s = pre ++ x ++ d ++ mid ++ y ++ tail /\
  spelled (str "delta:") x /\ num (e_delta e) d /\ no_digit (mid ++ y) /\ e_delta e < 4294967296 /\
  ~ In 10 mid /\ spelled (kind_name (e_body e)) y /\ details table tail (e_body e).

(** The kind is the first in the list of names (SpecRead.v) whose name occurs in the line. *)
Definition line_kind (s : bytes) (b : body) : Prop :=
  occurs (kind_name b) s /\ forall t, precedes t (kind_name b) -> ~ occurs t s.

(** What the event has that is not in the line. *)
Definition line_header (e : event) : Prop :=
  e_tick e = 0 /\ e_bytes e = [] /\ legal_header e /\ (forall st, line_status (e_body e) = Some st -> e_status e = st) /\
  (e_status e <> 255 -> e_type e = 0).

Definition line_says (table : list (bytes * manufacturer)) (s : bytes) (e : event) : Prop :=
  line_kind s (e_body e) /\ line_header e /\ exists pre x d mid y tail, line_parts table s pre x d mid y tail e.

(** [word] starts in [s] nowhere before position [n]. *)
Definition first_at (word s : bytes) (n : nat) : Prop := forall a x b, s = a ++ x ++ b -> spelled word x -> (n <= length a)%nat.
(** [word] occurs once. *)
Definition only_at (word s : bytes) : Prop :=
  forall a x b a' x' b', s = a ++ x ++ b -> spelled word x -> s = a' ++ x' ++ b' -> spelled word x' -> length a = length a'.

(** The line can be taken apart in one way only: the "delta:" is the first one, the name of the kind is the first after it, and of a controller
    there is one channel and one value. *)
Definition line_plain (s pre mid y tail : bytes) (b : body) : Prop :=
  first_at (str "delta:") s (length pre) /\ first_at (kind_name b) (mid ++ y ++ tail) (length mid) /\
  match b with Controller _ _ _ => only_at (str "channel:") tail /\ only_at (str "value:") tail | _ => True end.
