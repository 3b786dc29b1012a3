(** * Tsv: commands/tsv.go *)
From Verif Require Import Base Strings Tables Event Track File Utf8 Hex.

(** fmt.Sprintf("%02v", n) *)
Definition dec2 (n : Z) : bytes := if (0 <=? n) && (n <? 10) then 48 :: dec n else dec n.

(** fmt.Sprintf("%v", id) of a []byte: decimal numbers between brackets, separated by spaces. *)
Fixpoint spaced (l : list bytes) : bytes :=
  match l with
  | [] => []
  | [x] => x
  | x :: r => x ++ [32] ++ spaced r
  end.
Definition bytes_v (id : bytes) : bytes := [91] ++ spaced (map dec id) ++ [93].

(** commands/tsv.go:227-350: the details of an event *)
Definition tsv_details (b : body) : bytes :=
  match b with
  | SequenceNumber n => dec n                              (* 228-230 *)
  | TextEvent _ s => s                                     (* 232-266 *)
  | MIDIChannelPrefix c => dec c                           (* 268-270 *)
  | MIDIPort p => dec p                                    (* 272-274 *)
  | EndOfTrack => []                                       (* 276-277 *)
  | Tempo t => dec t                                       (* 279-281 *)
  | SMPTEOffset h m s rate f ff =>                         (* 283-285 *)
      str "offset " ++ dec2 h ++ [58] ++ dec2 m ++ [58] ++ dec2 s ++ str "  frame rate " ++ dec rate ++ [58] ++ dec f ++ [58] ++ dec ff
  | KeySignature _ _ key => key                            (* 287-289 *)
  | TimeSignature n d t q =>                               (* 291-293 *)
      dec n ++ [47] ++ dec d ++ str ", " ++ dec t ++ str " ticks/click, " ++ dec q ++ str " 32nds/quarter"
  | SequencerSpecific m data => m_name m ++ str " [" ++ hex_string data ++ str "]"  (* 295-297 *)
  | NoteOff _ n _ | NoteOn _ n _ => n_name n               (* 304, 311 *)
  | PolyphonicPressure _ p | ChannelPressure _ p => dec p  (* 316, 331 *)
  | Controller _ c v => dec (c_id c) ++ [58] ++ c_name c ++ str ", " ++ dec v       (* 321 *)
  | ProgramChange _ bank p => dec bank ++ str ", " ++ dec p                          (* 326 *)
  | PitchBend _ b => dec b                                 (* 336 *)
  | SysExMessage m data _ =>                               (* 340-342 *)
      bytes_v (m_id m) ++ [58] ++ m_region m ++ [58] ++ m_name m ++ str ", " ++ hex_string data
  | SysExContinuation data _ | SysExEscape data => hex_string data                   (* 344-350 *)
  end.

(** commands/tsv.go:218-353 [fields] *)
Definition fields (e : event) : list bytes :=
  let '(channel, note, velocity) :=
    match e_body e with
    | NoteOff c n v | NoteOn c n v => (dec c, dec (n_value n), dec v)                (* 300-312 *)
    | PolyphonicPressure c _ | Controller c _ _ | ProgramChange c _ _ | ChannelPressure c _ | PitchBend c _ => (dec c, [], [])
    | _ => ([], [], [])
    end in
  [dec (e_tick e); dec (e_delta e); body_tag (e_body e); channel; note; velocity; tsv_details (e_body e)].

(** commands/tsv.go:91 *)
Definition tsv_header : list bytes :=
  [str "Tick"; str "Delta"; str "Tag"; str "Channel"; str "Note"; str "Velocity"; str "Details"].

(** [records[row][col] = v]: out of range panics. *)
Definition set_cell (records : list (list bytes)) (row col : nat) (v : bytes) : outcome (list (list bytes)) :=
  match nth_error records row with
  | None => Panic
  | Some r => match nth_error r col with
              | None => Panic
              | Some _ => Ok (upd row (upd col v r) records)
              end
  end.

(** tsv.go:109-112 and 122-125: a list of values from column [col] on *)
Fixpoint set_cells (records : list (list bytes)) (row col : nat) (vs : list bytes) : outcome (list (list bytes)) :=
  match vs with
  | [] => Ok records
  | v :: r => do t <- set_cell records row col v; set_cells t row (S col) r
  end.

(** tsv.go:106-113: the titles; [i] is the index of the first track of the list *)
Fixpoint set_titles (records : list (list bytes)) (i : nat) (tracks : list mtrk) : outcome (list (list bytes)) :=
  match tracks with
  | [] => Ok records
  | _ :: r => do t <- set_cells records 0 (i * 7) tsv_header; set_titles t (S i) r
  end.

(** tsv.go:118-126: the events of a track from row [row] on *)
Fixpoint set_events (records : list (list bytes)) (row col : nat) (es : list event) : outcome (list (list bytes)) :=
  match es with
  | [] => Ok records
  | e :: r => do t <- set_cells records row col (fields e); set_events t (S row) col r
  end.

(** tsv.go:115-127 *)
Fixpoint set_tracks (records : list (list bytes)) (i : nat) (tracks : list mtrk) : outcome (list (list bytes)) :=
  match tracks with
  | [] => Ok records
  | t :: r => do x <- set_events records 1 (i * 7) (t_events t); set_tracks x (S i) r
  end.

(** commands/tsv.go:89-130 [export]: the records (the header returned with them is [tsv_header]). *)
Definition tsv_export (s : smf) : outcome (list (list bytes)) :=
  let rows := fold_left (fun rows t => if (rows <? length (t_events t))%nat then length (t_events t) else rows) (f_tracks s) 0%nat in
  let columns := (length (f_tracks s) * 7)%nat in
  do t <- set_titles (repeat (repeat [] columns) (rows + 1)) 0 (f_tracks s);
  set_tracks t 0 (f_tracks s).

(** commands/tsv.go:195-216 [writeTSV]: the records written, in order (the header, then the records, whose first one repeats
    it for every track).  For the text see Csv.v. *)
Definition written_records (records : list (list bytes)) : list (list bytes) := tsv_header :: records.

(** commands/tsv.go:168-176: the width of each column, in bytes *)
Fixpoint widen (widths : list Z) (record : list bytes) : list Z :=
  match widths, record with
  | w :: ws, f :: fs => (if w <? zlen f then zlen f else w) :: widen ws fs
  | _, _ => widths
  end.

(** fmt.Sprintf("%-{w}v", f): padded to [w] characters.  (Widths of more than ten million, for which fmt reports a bad format, are
    not modelled.) *)
Definition left_justify (w : Z) (f : bytes) : bytes := f ++ repeat 32 (Z.to_nat (w - zlen (runes f))).

(** strings.Join *)
Fixpoint join (sep : bytes) (l : list bytes) : bytes :=
  match l with
  | [] => []
  | [x] => x
  | x :: r => x ++ sep ++ join sep r
  end.

(** tsv.go:184-187 *)
Fixpoint format_row (widths : list Z) (record : list bytes) : list bytes :=
  match widths, record with
  | w :: ws, f :: fs => left_justify w f :: format_row ws fs
  | _, _ => []
  end.

(** commands/tsv.go:160-193 [writeTable] *)
Definition write_table (records : list (list bytes)) : bytes :=
  let columns := fold_left (fun n r => if (n <? length r)%nat then length r else n) records 0%nat in
  let widths := fold_left widen records (repeat 0 columns) in
  concat (map (fun r => join (str "  ") (format_row widths r) ++ [10]) records).
