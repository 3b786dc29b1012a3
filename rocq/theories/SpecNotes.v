(** * SpecNotes: which notes sound, from where to where; times by the tempo map. *)
From Verif Require Import Base Tables Event Track File Notes SpecNote.

(** ** Pairs of events *)

(** The event starts note [k] on channel [ch]: NoteOn with a velocity above 0. *)
Definition starts_key (b : body) (ch k : Z) : Prop :=
  match b with NoteOn c n v => c = ch /\ n_value n = k /\ 0 < v | _ => False end.

(** The event ends note [k] on channel [ch]: NoteOff, NoteOn with velocity 0, EndOfTrack. *)
Definition ends_key (b : body) (ch k : Z) : Prop :=
  match b with
  | NoteOn c n v => c = ch /\ n_value n = k /\ v <= 0
  | NoteOff c n _ => c = ch /\ n_value n = k
  | EndOfTrack => True
  | _ => False
  end.

Definition starts_at (bs : list body) (ch k : Z) (i : nat) : Prop := exists b, nth_error bs i = Some b /\ starts_key b ch k.
Definition ends_at (bs : list body) (ch k : Z) (i : nat) : Prop := exists b, nth_error bs i = Some b /\ ends_key b ch k.

(** The key is already down before position [i]: there is a start with no end since. *)
Definition down_before (bs : list body) (ch k : Z) (i : nat) : Prop :=
  exists i', (i' < i)%nat /\ starts_at bs ch k i' /\ forall m, (i' < m < i)%nat -> ~ ends_at bs ch k m.

(** The note [k] on [ch] sounds from position [i] to position [j]: the first end after a start of a key that was not down. *)
Definition sounds (bs : list body) (ch k : Z) (i j : nat) : Prop :=
  (i < j)%nat /\ starts_at bs ch k i /\ ~ down_before bs ch k i /\ ends_at bs ch k j /\ forall m, (i < m < j)%nat -> ~ ends_at bs ch k m.

(** The listed note [o] is the one from event [a] to event [b], with the pitch moved by [steps] and kept within a byte. *)
Definition lists (env : env) (steps : Z) (a b : nevent) (o : note_out) : Prop :=
  exists ch n v, ne_body a = NoteOn ch n v /\ o_ch o = ch /\ o_vel o = v /\ o_note o = Z.max 0 (Z.min 255 (n_value n + steps)) /\
    note_name (if env_c4 env then 3 else 4) (ne_flats a) (o_note o) (o_name o) /\
    o_start_tick o = ne_tick a /\ o_end_tick o = ne_tick b /\ o_start o = ne_at a /\ o_end o = ne_at b.

(** Channels are nibbles. *)
Definition channel_ok (b : body) : Prop := match b with NoteOn ch _ _ | NoteOff ch _ _ => 0 <= ch < 16 | _ => True end.

(** ** Time *)

(** The tempo (microseconds per quarter note) in force at tick [u]: the last entry at or before [u]; 500000,
    120 beats per minute, before the first one. *)
Definition tempo_at (tm : list (Z * Z)) (u : Z) : Z :=
  fold_left (fun t x => if fst x <=? u then snd x else t) tm 500000.

(** Nanoseconds from tick 0 to tick [n], times the ticks per quarter note. *)
Fixpoint ideal_time (tm : list (Z * Z)) (n : nat) : Z :=
  match n with O => 0 | S m => ideal_time tm m + 1000 * tempo_at tm (Z.of_nat m) end.

(** The tempo map of a track: ticks and tempos. *)
Fixpoint tempo_list (es : list event) : list (Z * Z) :=
  match es with
  | [] => []
  | e :: r => match e_body e with Tempo t => (e_tick e, t) :: tempo_list r | _ => tempo_list r end
  end.

(** Ticks are the sums of the delta times from [t0] on. *)
Fixpoint ticks_from (t0 : Z) (es : list event) : Prop :=
  match es with [] => True | e :: r => 0 <= e_delta e /\ e_tick e = t0 + e_delta e /\ ticks_from (e_tick e) r end.

(** Ticks never decrease. *)
Fixpoint ascending (t0 : Z) (ts : list Z) : Prop :=
  match ts with [] => True | t :: r => t0 <= t /\ ascending t r end.

(** [ns] lists the notes that sound in [es], each of them once and nothing else. *)
Definition lists_notes (env : env) (steps : Z) (es : list nevent) (ns : list note_out) : Prop :=
  exists ps, NoDup ps /\
    Forall2 (fun (p : nat * nat) o => exists a b, nth_error es (fst p) = Some a /\ nth_error es (snd p) = Some b /\ lists env steps a b o) ps ns /\
    forall i j, In (i, j) ps <-> exists ch k, sounds (map ne_body es) ch k i j.

(** Tempo changes happen at the start or where the track has an event. *)
Definition aligned (tm : list (Z * Z)) (track : list event) : Prop :=
  Forall (fun x => fst x = 0 \/ In (fst x) (map e_tick track)) tm.

(** The note events of a track, with their ticks. *)
Definition own_notes (es : list event) : list (Z * body) :=
  map (fun e => (e_tick e, e_body e))
      (filter (fun e => match e_body e with NoteOn _ _ _ | NoteOff _ _ _ | EndOfTrack => true | _ => false end) es).

(** Channels are nibbles and note numbers bytes. *)
Definition notes_in_range (es : list nevent) : Prop :=
  Forall (fun e => match ne_body e with NoteOn ch n _ => 0 <= ch < 16 /\ 0 <= n_value n < 256 | NoteOff ch n _ => 0 <= ch < 16 /\ 0 <= n_value n < 256 | _ => True end) es.

(** Tempos are at most [M]. *)
Definition tempos_within (M : Z) (es : list event) : Prop := Forall (fun e => match e_body e with Tempo t => 0 <= t <= M | _ => True end) es.

(** No tempo event: tempo changes are on track 0 only. *)
Definition no_tempo (es : list event) : Prop := Forall (fun e => match e_body e with Tempo _ => true | _ => false end = false) es.
