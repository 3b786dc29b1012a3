(** * SpecNotesLog: what a listing of notes should complain about, and the lines that say so. *)
From Coq Require Import Sorted.
From Verif Require Import Base Strings Tables Event Track File Notes SpecDecimal SpecDuration SpecNotes.

(** Positions in the list of note events. *)
Inductive complaint :=
| Twice (i : nat)          (* a note is started that sounds already *)
| Alone (i : nat)          (* a note is ended that does not sound *)
| Unended (i j : nat)      (* the note started at [i] is ended by the end of the track at [j] only *)
| Hanging (i : nat).       (* the note started at [i] is never ended *)

Definition due (bs : list body) (c : complaint) : Prop :=
  match c with
  | Twice i => exists ch k, starts_at bs ch k i /\ down_before bs ch k i
  | Alone i => exists b ch k, nth_error bs i = Some b /\ b <> EndOfTrack /\ ends_key b ch k /\ ~ down_before bs ch k i
  | Unended i j => exists ch k, sounds bs ch k i j /\ nth_error bs j = Some EndOfTrack
  | Hanging i => exists ch k, starts_at bs ch k i /\ ~ down_before bs ch k i /\ forall m, (i < m)%nat -> ~ ends_at bs ch k m
  end.

(** Where it turns out, in a list of [n] events. *)
Definition noticed (n : nat) (c : complaint) : nat := match c with Twice i | Alone i => i | Unended _ j => j | Hanging _ => n end.

(** Two hexadecimal digits for each byte. *)
Definition hexes (s t : bytes) : Prop := s <> [] -> t = flat_map hex2 s.

(** The line for a complaint, without the line feed: the channel; the note's number, its name and its alias, all in hexadecimal. *)
Definition about (b : body) (t : bytes) : Prop :=
  match b with
  | NoteOn ch n _ | NoteOff ch n _ =>
      exists c x y, decimal ch c /\ hexes (n_name n) x /\ hexes (n_alias n) y /\ t = c ++ str ":{" ++ hex2 (n_value n) ++ str " " ++ x ++ str " " ++ y ++ str "}"
  | _ => False
  end.
Definition about_started (e : nevent) (t : bytes) : Prop :=
  exists ch n v c tick at_, ne_body e = NoteOn ch n v /\ decimal ch c /\ decimal (ne_tick e) tick /\ time_text (ne_at e) at_ /\
    t = str "(channel:" ++ c ++ str ", note:" ++ hex2 (n_value n) ++ str ", tick:" ++ tick ++ str ", at:" ++ at_ ++ str ")".
Definition complains (es : list nevent) (c : complaint) (line : bytes) : Prop :=
  match c with
  | Twice i => exists e t, nth_error es i = Some e /\ about (ne_body e) t /\ line = str "WARN   notes      NoteOn without preceding NoteOff for " ++ t
  | Alone i => exists e t, nth_error es i = Some e /\ about (ne_body e) t /\ line = str "WARN   notes      NoteOff without preceding NoteOn for " ++ t
  | Unended i _ => exists e t, nth_error es i = Some e /\ about_started e t /\ line = str "WARN   notes      EndOfTrack automatically ending note " ++ t
  | Hanging i => exists e t, nth_error es i = Some e /\ about_started e t /\ line = str "WARN   notes      Incomplete note " ++ t
  end.

(** The text is one line for each complaint due, in the order in which they turn out, and nothing else. *)
Definition complaints (es : list nevent) (text : bytes) : Prop :=
  exists cs lines, NoDup cs /\ (forall c, In c cs <-> due (map ne_body es) c) /\ StronglySorted le (map (noticed (length es)) cs) /\
    Forall2 (complains es) cs lines /\ text = flat_map (fun l => l ++ [10]) lines.

(** Every note that is started is ended by an event of its own, and conversely. *)
Definition well_paired (bs : list body) : Prop := forall c, ~ due bs c.

(** ** Loss of precision *)

(** Each event with the tempo in force before it. *)
Fixpoint in_force (tempo : Z) (l : list nevent) : list (nevent * Z) :=
  match l with
  | [] => []
  | e :: r => (e, tempo) :: in_force (match ne_body e with Tempo t => t | _ => tempo end) r
  end.

(** The time of an event is not a whole number of nanoseconds. *)
Definition time_lost (ppqn : Z) (x : nevent * Z) : bool := negb ((1000 * ne_delta (fst x) * snd x) mod ppqn =? 0).

(** Nothing wraps. *)
Definition small (x : nevent * Z) : Prop := 0 <= ne_delta (fst x) /\ 0 <= snd x /\ 1000 * ne_delta (fst x) * snd x * (snd x + 1) < 9223372036854775808.

(** The line about it, with the line feed. *)
Definition loss_line (tick : Z) (line : bytes) : Prop :=
  exists amount a n t, 0 < amount /\ decimal amount a /\ decimal tick t /\
    line = str "WARN   notes      " ++ a ++ repeat 32 n ++ [194; 181] ++ str "s loss of precision converting from MIDI tick to physical time at tick " ++ t ++ [10].

(** ** Levels *)

(** A text cut behind each line feed. *)
Fixpoint text_lines (s : bytes) : list bytes :=
  match s with
  | [] => []
  | c :: r => if c =? 10 then [c] :: text_lines r else match text_lines r with [] => [[c]] | l :: ls => (c :: l) :: ls end
  end.

(** The lines that begin with a word. *)
Fixpoint begins (w s : bytes) : bool :=
  match w, s with
  | [], _ => true
  | x :: w', c :: s' => (x =? c) && begins w' s'
  | _, [] => false
  end.
Definition lines_with (w s : bytes) : list bytes := filter (begins w) (text_lines s).

(** The NoteOff events of the tracks after the first. *)
Definition note_offs (s : smf) : list event :=
  flat_map (fun t => filter (fun e => match e_body e with NoteOff _ _ _ => true | _ => false end) (t_events t)) (tl (f_tracks s)).

(** The line about a NoteOff event, with the line feed: the decimal digits of the channel in hexadecimal, the note's number, its name, velocity, tick and time. *)
Definition off_line (x : Z * body) (line : bytes) : Prop :=
  match snd x with
  | NoteOff ch n v =>
      exists c d t time a i j k, decimal ch c /\ decimal v d /\ decimal (fst x) t /\ time_text time a /\
        line = str "DEBUG  notes      NOTE OFF " ++ flat_map hex2 c ++ str " " ++ hex2 (n_value n) ++ str " " ++ n_name n ++ repeat 32 i ++ str " " ++
               d ++ repeat 32 j ++ str " " ++ t ++ repeat 32 k ++ str " " ++ a ++ [10]
  | _ => False
  end.
