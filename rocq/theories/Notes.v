(** * Notes: ops/notes/notes.go (extraction; the listing is in NotesPrint.v, the JSON form in NotesJson.v)
    and ops/click/click.go. *)
From Verif Require Import Base Strings Tables Event Track File Transpose.

(** ops/notes/notes.go:39-45 [event]; of the context copy only the choice of scale is used. *)
Record nevent := NEvent { ne_tick : Z; ne_delta : Z; ne_at : Z; ne_body : body; ne_flats : bool }.

(** ops/notes/notes.go:27-37 [Note] *)
Record note_out := NoteOut {
  o_ch : Z; o_note : Z; o_name : bytes; o_vel : Z;
  o_start_tick : Z; o_end_tick : Z; o_start : Z; o_end : Z; o_duration : Z }.

(** ops/notes/notes.go:81-91 [buildTempoMap], the loop. *)
Definition is_tempo (b : body) : bool := match b with Tempo _ => true | _ => false end.
Definition tempo_events (es : list event) : list event := filter (fun e => is_tempo (e_body e)) es.

(** sort.SliceStable by tick (ops/notes/notes.go:114-116).  The result of a stable sort is determined, so it
    is modelled by insertion. *)
Fixpoint insert_tick (x : nevent) (l : list nevent) : list nevent :=
  match l with
  | [] => [x]
  | y :: r => if ne_tick y <? ne_tick x then y :: insert_tick x r else x :: l
  end.
Fixpoint sort_ticks (l : list nevent) : list nevent :=
  match l with [] => [] | x :: r => insert_tick x (sort_ticks r) end.

(** ops/notes/notes.go:97-112: the events of the track, then those of the tempo map with delta 0. *)
Definition unsorted (track tempo_map : list event) : list nevent :=
  map (fun e => NEvent (e_tick e) (e_delta e) 0 (e_body e) false) track ++
  map (fun e => NEvent (e_tick e) 0 0 (e_body e) false) tempo_map.

(** time.Duration.Round(time.Millisecond) of the Go library; Z.rem is Go's %. *)
Definition round_ms (d : Z) : Z :=
  let m := 1000000 in
  let r := Z.rem d m in
  if d <? 0 then
    let r := - r in
    if r + r <? m then d + r
    else let d1 := wrap64 (d - m + r) in if d1 <? d then d1 else -9223372036854775808
  else
    if r + r <? m then d - r
    else let d1 := wrap64 (d + m - r) in if d <? d1 then d1 else 9223372036854775807.

(** ops/notes/notes.go:123-125: time from delta; uint64 arithmetic, division by zero panics. *)
Definition delta_time (delta tempo ppqn : Z) : outcome Z :=
  if ppqn =? 0 then Panic
  else Ok (wrap64 ((1000 * delta * tempo) mod 18446744073709551616 / ppqn)).

(** ops/notes/notes.go:119-145: assign timestamps and scales.  Lines 127-129 only log. *)
Fixpoint timestamps (tempo at_ : Z) (flats : bool) (ppqn : Z) (l : list nevent) : outcome (list nevent) :=
  match l with
  | [] => Ok []
  | e :: r =>
      do d <- delta_time (ne_delta e) tempo ppqn;
      let at' := wrap64 (at_ + d) in
      let tempo' := match ne_body e with Tempo t => t | _ => tempo end in
      let flats' := match ne_body e with KeySignature acc _ _ => acc <? 0 | _ => flats end in
      do r' <- timestamps tempo' at' flats' ppqn r;
      Ok (NEvent (ne_tick e) (ne_delta e) (round_ms at') (ne_body e) flats' :: r')
  end.

(** ops/notes/notes.go:148-162: the break there leaves the switch only. *)
Definition is_note_event (b : body) : bool :=
  match b with NoteOn _ _ _ | NoteOff _ _ _ | EndOfTrack => true | _ => false end.

(** ops/notes/notes.go:93-165 [buildTrackEvents] *)
Definition build_track_events (track tempo_map : list event) (ppqn : Z) : outcome (list nevent) :=
  do l <- timestamps 50000 0 false ppqn (sort_ticks (unsorted track tempo_map));
  Ok (filter (fun e => is_note_event (ne_body e)) l).

(** ops/notes/notes.go:270-280 [transpose] *)
Definition note_transpose (v steps : Z) : Z :=
  let x := wrap64 (v + steps) in if x <? 0 then 0 else if 255 <? x then 255 else x.

(** The maps [pending], ops/notes/notes.go:170-173: channel and note value, and the NoteOn event. *)
Definition pending := list ((Z * Z) * nevent).
Definition key_eqb (a b : Z * Z) : bool := (fst a =? fst b) && (snd a =? snd b).
Fixpoint find_key (k : Z * Z) (p : pending) : option nevent :=
  match p with [] => None | (k', e) :: r => if key_eqb k k' then Some e else find_key k r end.
Definition drop_key (k : Z * Z) (p : pending) : pending := filter (fun x => negb (key_eqb k (fst x))) p.

(** ops/notes/notes.go:190-201, 213-224, 239-250: a finished note; [p] is the pending NoteOn. *)
Definition finished (env : env) (steps : Z) (p e : nevent) : note_out :=
  match ne_body p with
  | NoteOn ch n v =>
      let x := note_transpose (n_value n) steps in
      NoteOut ch x (format_note env (ne_flats p) x) v (ne_tick p) (ne_tick e) (ne_at p) (ne_at e) (wrap64 (ne_at e - ne_at p))
  | _ => NoteOut 0 0 [] 0 0 0 0 0 0 (* not reached: only NoteOn events are pending *)
  end.

(** ops/notes/notes.go:187-207, 209-230: a NoteOff or a NoteOn with velocity 0. *)
Definition finish (env : env) (steps : Z) (p : pending) (k : Z * Z) (e : nevent) : list note_out * pending :=
  match find_key k p with
  | Some on => ([finished env steps on e], drop_key k p)
  | None => ([], p)
  end.

(** The sixteen channels, ops/notes/notes.go:235. *)
Definition channels16 : list Z := [0; 1; 2; 3; 4; 5; 6; 7; 8; 9; 10; 11; 12; 13; 14; 15].

(** ops/notes/notes.go:232-256: EndOfTrack.  [order] stands for the random iteration order of the inner map;
    each entry is deleted when it has been visited. *)
Definition finish_all (env : env) (steps : Z) (order : list nevent -> list nevent) (p : pending) (e : nevent) : list note_out :=
  flat_map (fun ch => map (fun on => finished env steps on e) (order (map snd (filter (fun x => fst (fst x) =? ch) p)))) channels16.

(** ops/notes/notes.go:167-268 [buildNoteList].  Storing into the map of a channel above 15 panics (nil map). *)
Fixpoint note_list (env : env) (steps : Z) (order : list nevent -> list nevent) (p : pending) (es : list nevent) : outcome (list note_out) :=
  match es with
  | [] => Ok []
  | e :: r =>
      match ne_body e with
      | NoteOn ch n v =>
          if 0 <? v then
            match find_key (ch, n_value n) p with
            | Some _ => note_list env steps order p r
            | None => if ch <? 16 then note_list env steps order (((ch, n_value n), e) :: p) r else Panic
            end
          else
            let (out, p') := finish env steps p (ch, n_value n) e in
            do ns <- note_list env steps order p' r; Ok (out ++ ns)
      | NoteOff ch n _ =>
          let (out, p') := finish env steps p (ch, n_value n) e in
          do ns <- note_list env steps order p' r; Ok (out ++ ns)
      | EndOfTrack =>
          do ns <- note_list env steps order (filter (fun x => negb (existsb (Z.eqb (fst (fst x))) channels16)) p) r;
          Ok (finish_all env steps order p e ++ ns)
      | _ => note_list env steps order p r
      end
  end.

(** ops/notes/notes.go:68-76: one track. *)
Definition track_notes (env : env) (steps : Z) (order : list nevent -> list nevent) (tempo_map : list event) (ppqn : Z) (t : mtrk) : outcome (list note_out) :=
  do es <- build_track_events (t_events t) tempo_map ppqn;
  note_list env steps order [] es.

(** ops/notes/notes.go:68-76: all tracks. *)
Fixpoint tracks_notes (env : env) (steps : Z) (order : list nevent -> list nevent) (tempo_map : list event) (ppqn : Z) (ts : list mtrk) : outcome (list note_out) :=
  match ts with
  | [] => Ok []
  | t :: r => do a <- track_notes env steps order tempo_map ppqn t; do b <- tracks_notes env steps order tempo_map ppqn r; Ok (a ++ b)
  end.

(** ops/notes/notes.go:61-79 [extract].  smf.Tracks[0] (line 84) panics for a file without tracks; smf.MThd is
    not nil when there is a track to be listed and the file was decoded, otherwise line 69 panics. *)
Definition extract (env : env) (steps : Z) (order : list nevent -> list nevent) (s : smf) : outcome (list note_out) :=
  match f_tracks s with
  | [] => Panic
  | t0 :: ts =>
      match f_mthd s, ts with
      | _, [] => Ok []
      | None, _ => Panic
      | Some h, _ => tracks_notes env steps order (tempo_events (t_events t0)) (h_ppqn h) ts
      end
  end.

(** ** Click track *)

(** The type assertions of ops/click/click.go:45, 60, 66, 97, 109, 122 ask for pointers to events.  Events are
    stored as values everywhere (midi/events/event.go:37-45; midi/MTrk.go:107-191), so none succeeds. *)
Definition as_tempo_pointer (e : event) : bool := match e with Event _ _ _ _ _ _ => false end.
Definition as_time_signature_pointer (e : event) : bool := match e with Event _ _ _ _ _ _ => false end.
Definition as_end_of_track_pointer (e : event) : bool := match e with Event _ _ _ _ _ _ => false end.

(** ops/click/click.go:51-72: the events considered for the track; the first later track only (136). *)
Definition click_events (tempo_map track : list event) : list event :=
  tempo_map ++ filter (fun e => as_time_signature_pointer e || as_end_of_track_pointer e) track.

(** ops/click/click.go:39-188 [Execute]: the number of lines (bars) written to the writer.  Lines 74-134 make
    one entry per event considered, at most; the float arithmetic of bars is not modelled because there is
    none. *)
Definition click_lines (s : smf) : outcome nat :=
  match f_tracks s with
  | [] => Panic
  | t0 :: ts =>
      let tempo_map := filter as_tempo_pointer (t_events t0) in
      match f_mthd s with
      | None => Panic
      | Some _ => Ok (match ts with [] => 0%nat | t :: _ => length (click_events tempo_map (t_events t)) end)
      end
  end.
