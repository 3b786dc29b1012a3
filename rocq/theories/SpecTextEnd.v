(** * SpecTextEnd: how the assembly of a text ends. *)
From Verif Require Import Base Tables Event SpecTable SpecDecimal SpecKey SpecAssemble SpecSurvive SpecRead SpecTrack SpecLine SpecSource SpecJsonEnd.

(** ** What a line can be taken for *)

Definition digits (s : bytes) : Prop := s <> [] /\ Forall is_digit s.
(** "channel:" and digits, between white space *)
Definition channel_place (s : bytes) : Prop := exists w x d v, s = w ++ x ++ d ++ v /\ blank w /\ spelled (str "channel:") x /\ digits d /\ blank v.
(** A controller: [a], the channel, the digits of the controller, anything, and [y] from "value:" on. *)
Definition control_place (s a y : bytes) : Prop :=
  exists c n b x d r, s = a ++ c ++ n ++ b ++ y /\ y = x ++ d ++ r /\ ~ In 10 a /\ channel_place c /\ digits n /\ ~ In 10 b /\ spelled (str "value:") x /\ digits d.

(** [shape t s]: the text [s] after the name [t] of a kind of event has the form that this kind has, whatever the numbers. *)
Inductive shape : bytes -> bytes -> Prop :=
| sh_number : forall t w n r, In t [str "SequenceNumber"; str "MIDIChannelPrefix"; str "MIDIPort"] -> blank w -> digits n -> shape t (w ++ n ++ r)
| sh_text : forall t w r, In t [str "Text"; str "Copyright"; str "TrackName"; str "InstrumentName"; str "Lyric"; str "Marker"; str "CuePoint"; str "ProgramName"; str "DeviceName";
    str "SysExContinuation"; str "SysExEscape"] -> blank w -> shape t (w ++ r)
| sh_tempo : forall w x n r, blank w -> spelled (str "tempo:") x -> digits n -> shape (str "Tempo") (w ++ x ++ n ++ r)
| sh_time : forall w n1 n2 w2 n3 x w3 n4 y r, blank w -> digits n1 -> digits n2 -> 49 <= hd 0 n2 -> blanks w2 -> digits n3 -> spelled (str " ticks per click,") x -> blanks w3 ->
    digits n4 -> 49 <= hd 0 n4 -> Forall (fun c => c <> 57) (tl n4) -> spelled (str "/32 per quarter") y ->
    shape (str "TimeSignature") (w ++ n1 ++ [47] ++ n2 ++ [44] ++ w2 ++ [32] ++ n3 ++ x ++ w3 ++ n4 ++ y ++ r)
| sh_key : forall w l c a k w2 x r, blank w -> 65 <= l <= 71 -> same_letter l c -> sign a k -> blank w2 -> (spelled (str "major") x \/ spelled (str "minor") x) ->
    shape (str "KeySignature") (w ++ c :: a ++ w2 ++ x ++ r)
| sh_offset : forall w1 n1 w2 n2 w3 n3 w4 n4 w5 n5 w6 n6 r, blank w1 -> blank w2 -> blank w3 -> blank w4 -> blank w5 -> blank w6 ->
    digits n1 -> digits n2 -> digits n3 -> digits n4 -> digits n5 -> digits n6 ->
    shape (str "SMPTEOffset") (w1 ++ n1 ++ w2 ++ n2 ++ w3 ++ n3 ++ w4 ++ n4 ++ w5 ++ n5 ++ w6 ++ n6 ++ r)
| sh_end : forall r, shape (str "EndOfTrack") r
| sh_maker : forall t w name r, In t [str "SequencerSpecificEvent"; str "SysExMessage"] -> blank w -> ~ In 10 name -> shape t (w ++ name ++ [44] ++ r)
| sh_note : forall t c x l k a i o w z n r, In t [str "NoteOff"; str "NoteOn"] -> channel_place c -> spelled (str "note:") x -> 65 <= l <= 71 -> same_letter l k -> sign a i -> is_digit o ->
    blanks w -> spelled (str "velocity:") z -> digits n -> shape t (c ++ x ++ (k :: a ++ [o]) ++ [44] ++ w ++ z ++ n ++ r)
| sh_pressure : forall t c x n r, In t [str "PolyphonicPressure"; str "ChannelPressure"] -> channel_place c -> spelled (str "pressure:") x -> digits n -> shape t (c ++ x ++ n ++ r)
| sh_control : forall a y s, control_place s a y -> shape (str "Controller") s
| sh_program : forall c x n w z m r, channel_place c -> spelled (str "bank:") x -> digits n -> blanks w -> spelled (str "program:") z -> digits m ->
    shape (str "ProgramChange") (c ++ x ++ n ++ [44] ++ w ++ z ++ m ++ r)
| sh_bend : forall c x n r, channel_place c -> spelled (str "bend:") x -> digits n -> shape (str "PitchBend") (c ++ x ++ n ++ r).

(** A line taken apart for an event of the kind [t]: [pre], "delta:" and all digits behind it, [mid], the name, and a text of the shape of the kind. *)
Definition reading (t s pre x d mid y tail : bytes) : Prop :=
  s = pre ++ x ++ d ++ mid ++ y ++ tail /\ spelled (str "delta:") x /\ digits d /\ no_digit (mid ++ y) /\ ~ In 10 mid /\ spelled t y /\ shape t tail.
(** There is none that starts earlier and, of those that start there, none with an earlier name. *)
Definition first_reading (t s pre x d mid y tail : bytes) : Prop :=
  reading t s pre x d mid y tail /\ forall pre' x' d' mid' y' tail', reading t s pre' x' d' mid' y' tail' ->
    (length pre < length pre')%nat \/ (length pre = length pre' /\ (length mid <= length mid')%nat).
(** The last channel that fits and the last value after it. *)
Definition last_control (s a y : bytes) : Prop :=
  control_place s a y /\ forall a' y', control_place s a' y' -> (length a' < length a)%nat \/ (length a' = length a /\ (length y <= length y')%nat).

(** ** Lines *)

(** The kind is the first in the list of names (SpecRead.v) whose name occurs in the line. *)
Definition kind_of (s t : bytes) : Prop := occurs t s /\ forall t', precedes t' t -> ~ occurs t' s.

(** The line says the event, read from the left as far as possible. *)
Definition exactly (table : list (bytes * manufacturer)) (s : bytes) (e : event) : Prop :=
  kind_of s (kind_name (e_body e)) /\ line_header e /\ exists pre x d mid y tail, first_reading (kind_name (e_body e)) s pre x d mid y tail /\
    num (e_delta e) d /\ e_delta e < 4294967296 /\
    match e_body e with
    | Controller ch n v => exists a c k b x d r, tail = a ++ c ++ k ++ b ++ x ++ d ++ r /\ last_control tail a (x ++ d ++ r) /\ channel_says c ch /\ digits k /\
        ~ In 10 b /\ no_digit (b ++ x) /\ spelled (str "value:") x /\ digits_value k < 256 /\ n = lookup_controller (digits_value k) /\ num v d /\ no_digit r /\ v < 256
    | b => details table tail b
    end.

(** Numbers of an SMPTE offset and of a time signature, in the form of a line *)
Definition offset_values (s : bytes) (h m sc rate f ff : Z) : Prop :=
  exists w1 n1 w2 n2 w3 n3 w4 n4 w5 n5 w6 n6 r, s = w1 ++ n1 ++ w2 ++ n2 ++ w3 ++ n3 ++ w4 ++ n4 ++ w5 ++ n5 ++ w6 ++ n6 ++ r /\
    blank w1 /\ blank w2 /\ blank w3 /\ blank w4 /\ blank w5 /\ blank w6 /\ num h n1 /\ num m n2 /\ num sc n3 /\ num rate n4 /\ num f n5 /\ num ff n6 /\ no_digit r.
Definition time_values (s : bytes) (n d t q : Z) : Prop :=
  exists w n1 n2 w2 n3 x w3 n4 y r, s = w ++ n1 ++ [47] ++ n2 ++ [44] ++ w2 ++ [32] ++ n3 ++ x ++ w3 ++ n4 ++ y ++ r /\
    blank w /\ num n n1 /\ num d n2 /\ 49 <= hd 0 n2 /\ blanks w2 /\ num t n3 /\ spelled (str " ticks per click,") x /\ blanks w3 /\
    num q n4 /\ 49 <= hd 0 n4 /\ Forall (fun c => c <> 57) (tl n4) /\ spelled (str "/32 per quarter") y.

(** Bytes, a frame rate that there is and fractional frames up to 100, but an hour, minute, second or frame out of range *)
Definition line_crashes (s : bytes) : Prop :=
  kind_of s (str "SMPTEOffset") /\ exists pre x d mid y tail h m sc rate f ff, first_reading (str "SMPTEOffset") s pre x d mid y tail /\ digits_value d < 4294967296 /\
    offset_values tail h m sc rate f ff /\ h < 256 /\ m < 256 /\ sc < 256 /\ In rate [24; 25; 29; 30] /\ f < 256 /\ ff <= 100 /\ ~ offset_range h m sc rate f ff.
(** Bytes, but a denominator above 128 *)
Definition line_hangs (s : bytes) : Prop :=
  kind_of s (str "TimeSignature") /\ exists pre x d mid y tail n dd t q, first_reading (str "TimeSignature") s pre x d mid y tail /\ digits_value d < 4294967296 /\
    time_values tail n dd t q /\ n < 256 /\ 128 < dd < 256 /\ t < 256 /\ q < 256.

(** ** Texts *)

(** The chunks of a text whose tag line is no comment *)
Definition text_chunks (text : bytes) (us : list (list bytes)) : Prop :=
  exists lines before cs, ~ long_line text /\ lines_of text lines /\ divides lines before cs /\ Forall (fun l => ~ header_line l) before /\
    (forall c r, cs = c :: r -> header_line (hd [] c)) /\ uncommented cs us.

Definition event_line (l : bytes) : Prop := ~ comment_line l /\ ~ blank_line l.
Definition good_lines (table : list (bytes * manufacturer)) (r : list bytes) : Prop := Forall (fun l => event_line l -> exists e, exactly table l e) r.
Definition good_header (c : list bytes) : Prop := exists f d, header_chunk c f d.
Definition a_track (c r : list bytes) : Prop := exists l, c = l :: r /\ ~ header_line l /\ track_line l.
Definition good_track (table : list (bytes * manufacturer)) (c : list bytes) : Prop := exists r, a_track c r /\ good_lines table r /\ Exists event_line r.
(** Good headers and good tracks, a header first *)
Definition good_start (table : list (bytes * manufacturer)) (cs : list (list bytes)) : Prop :=
  Forall (fun c => good_header c \/ good_track table c) cs /\ forall c r, cs = c :: r -> good_header c.
Definition stops_at (table : list (bytes * manufacturer)) (bad : bytes -> Prop) (r : list bytes) : Prop :=
  exists a l b, r = a ++ l :: b /\ good_lines table a /\ event_line l /\ bad l.

(** Nothing is wrong: headers, at least one, and then tracks. *)
Definition text_well (table : list (bytes * manufacturer)) (text : bytes) : Prop :=
  exists hs ts, text_chunks text (hs ++ ts) /\ hs <> [] /\ Forall good_header hs /\ Forall (good_track table) ts /\ zlen ts < 65536.
(** The first thing wrong is a track before the header, a track without events or a line that crashes the program. *)
Definition text_crashes (table : list (bytes * manufacturer)) (text : bytes) : Prop :=
  exists before c after r, text_chunks text (before ++ c :: after) /\ good_start table before /\ a_track c r /\
    ((good_lines table r /\ (before = [] \/ ~ Exists event_line r)) \/ stops_at table line_crashes r).
(** The first thing wrong is a line that makes it hang. *)
Definition text_hangs (table : list (bytes * manufacturer)) (text : bytes) : Prop :=
  exists before c after r, text_chunks text (before ++ c :: after) /\ good_start table before /\ a_track c r /\ stops_at table line_hangs r.
