(** * NotesLog: what ops/notes/notes.go logs; the computation itself is in Notes.v. *)
From Verif Require Import Base Strings Tables Event Track File Utf8 Tsv Transpose Notes NotesPrint Log.

(** The calls of warnf and debugf (ops/notes/notes.go:128, 182, 203 and 225, 208, 236, 262); the EndOfTrack of line 230 is not printed (334-344). *)
Inductive log_entry :=
| LPrecision (dt tick : Z)            (* loss of precision *)
| LTwice (e : nevent)                 (* NoteOn without preceding NoteOff *)
| LAlone (e : nevent)                 (* NoteOff without preceding NoteOn *)
| LOff (e : nevent)                   (* NOTE OFF *)
| LEnded (ch : Z) (p : nevent)        (* EndOfTrack automatically ending note *)
| LIncomplete (ch : Z) (p : nevent).  (* Incomplete note *)

(** ops/notes/notes.go:122-145: the warnings of lines 127-129 while the timestamps are assigned ([timestamps] of Notes.v); uint64 arithmetic.
    A division by zero panics at the first event, before anything is logged. *)
Fixpoint timestamps_log (tempo ppqn : Z) (l : list nevent) : list log_entry :=
  match l with
  | [] => []
  | e :: r =>
      match delta_time (ne_delta e) tempo ppqn with
      | Ok d =>
          let dt := (d mod 18446744073709551616 * tempo) mod 18446744073709551616 mod ppqn in
          let tempo' := match ne_body e with Tempo t => t | _ => tempo end in
          (if 0 <? dt then [LPrecision dt (ne_tick e)] else []) ++ timestamps_log tempo' ppqn r
      | _ => []
      end
  end.

(** ops/notes/notes.go:187-204, 209-226: a NoteOff or a NoteOn with velocity 0 *)
Definition finish_log (p : pending) (k : Z * Z) (e : nevent) : list log_entry :=
  match find_key k p with Some _ => [] | None => [LAlone e] end.

(** ops/notes/notes.go:232-236 and 258-265: the pending notes by channel; [order] is the iteration order of the inner maps, as in Notes.v. *)
Definition pending_log (entry : Z -> nevent -> log_entry) (order : list nevent -> list nevent) (p : pending) : list log_entry :=
  flat_map (fun ch => map (entry ch) (order (map snd (filter (fun x => fst (fst x) =? ch) p)))) channels16.

(** ops/notes/notes.go:167-268 [buildNoteList]: what is logged (up to a panic), with the same map of pending notes as [note_list] *)
Fixpoint note_log (order : list nevent -> list nevent) (p : pending) (es : list nevent) : list log_entry :=
  match es with
  | [] => pending_log LIncomplete order p
  | e :: r =>
      match ne_body e with
      | NoteOn ch n v =>
          if 0 <? v then
            match find_key (ch, n_value n) p with
            | Some _ => LTwice e :: note_log order p r
            | None => if ch <? 16 then note_log order (((ch, n_value n), e) :: p) r else []
            end
          else finish_log p (ch, n_value n) e ++ note_log order (drop_key (ch, n_value n) p) r
      | NoteOff ch n _ => LOff e :: finish_log p (ch, n_value n) e ++ note_log order (drop_key (ch, n_value n) p) r
      | EndOfTrack =>
          pending_log LEnded order p ++ note_log order (filter (fun x => negb (existsb (Z.eqb (fst (fst x))) channels16)) p) r
      | _ => note_log order p r
      end
  end.

(** ops/notes/notes.go:68-76: one track, and all tracks.  If PPQN is 0 (a panic, nothing logged before it) no track logs anything; the channels of a
    decoded file are below 16, so there is no other panic. *)
Definition track_log (order : list nevent -> list nevent) (tempo_map : list event) (ppqn : Z) (t : mtrk) : list log_entry :=
  timestamps_log 50000 ppqn (sort_ticks (unsorted (t_events t) tempo_map)) ++
  match build_track_events (t_events t) tempo_map ppqn with Ok es => note_log order [] es | _ => [] end.
Definition extract_log (order : list nevent -> list nevent) (s : smf) : list log_entry :=
  match f_tracks s, f_mthd s with
  | t0 :: ts, Some h => flat_map (track_log order (tempo_events (t_events t0)) (h_ppqn h)) ts
  | _, _ => []
  end.

(** ops/notes/notes.go:334-348: [warnf] and [debugf] *)
Definition entry_level (l : log_entry) : level := match l with LOff _ => Debug | _ => Warn end.

(** fmt's %02X for a string: two digits per byte.  (How the empty string is padded depends on the version of the Go library; the names of notes are not empty.) *)
Definition hex_text (s : bytes) : bytes := match s with [] => str "00" | _ => flat_map hex2 s end.

(** fmt's %02X for a [midievent.Note] (midi/events/midi/midievent.go:28-32), which has no String method *)
Definition hex_note (n : note) : bytes := str "{" ++ hex2 (n_value n) ++ str " " ++ hex_text (n_name n) ++ str " " ++ hex_text (n_alias n) ++ str "}".

(** "%d:%02X" of channel and note, ops/notes/notes.go:182, 203, 225 *)
Definition channel_note (b : body) : bytes :=
  match b with
  | NoteOn ch n _ | NoteOff ch n _ => dec ch ++ str ":" ++ hex_note n
  | _ => [] (* not reached *)
  end.

(** "(channel:%v, note:%02X, tick:%v, at:%v)", ops/notes/notes.go:236, 262; the key of the map is the note's value (180-181). *)
Definition pending_text (ch : Z) (p : nevent) : bytes :=
  str "(channel:" ++ dec ch ++ str ", note:" ++ hex2 (match ne_body p with NoteOn _ n _ => n_value n | _ => 0 end) ++ str ", tick:" ++ dec (ne_tick p) ++
  str ", at:" ++ duration_string (ne_at p) ++ str ")".

(** The messages; ops/notes/notes.go:335 and 342, "%-8s %02X %02X %-3v %-3v %-6d %s": the channel has a String method (midi/lib/channel.go:22-24),
    so %02X prints the digits of its decimal form in hexadecimal. *)
Definition entry_text (l : log_entry) : bytes :=
  match l with
  | LPrecision dt tick => left_justify 5 (dec dt) ++ [194; 181] ++ str "s loss of precision converting from MIDI tick to physical time at tick " ++ dec tick
  | LTwice e => str "NoteOn without preceding NoteOff for " ++ channel_note (ne_body e)
  | LAlone e => str "NoteOff without preceding NoteOn for " ++ channel_note (ne_body e)
  | LOff e =>
      match ne_body e with
      | NoteOff ch n v =>
          str "NOTE OFF " ++ hex_text (dec ch) ++ str " " ++ hex2 (n_value n) ++ str " " ++ left_justify 3 (n_name n) ++ str " " ++ left_justify 3 (dec v) ++
          str " " ++ left_justify 6 (dec (ne_tick e)) ++ str " " ++ duration_string (ne_at e)
      | _ => [] (* not reached *)
      end
  | LEnded ch p => str "EndOfTrack automatically ending note " ++ pending_text ch p
  | LIncomplete ch p => str "Incomplete note " ++ pending_text ch p
  end.

(** ops/notes/notes.go:19, 346-348: the lines on stderr *)
Definition notes_stderr (setting : level) (l : list log_entry) : bytes :=
  flat_map (fun x => if logged setting (entry_level x) then log_line (entry_level x) (str "notes") (entry_text x) else []) l.
