(** * NotesJson: ops/notes/notes.go [export], the JSON form of the notes. *)
From Verif Require Import Base Strings Tables Event Track File Utf8 Notes NotesPrint JsonText Float.

(** json.MarshalIndent(v, "", "  ") of a struct: indent.go [appendIndent]; the values are texts. *)
Definition object_text (depth : nat) (fields : list (bytes * bytes)) : bytes :=
  123 :: newline (S depth) ++ lines (S depth) (map (fun f => write_string (fst f) ++ 58 :: 32 :: snd f) fields) ++ newline depth ++ [125].

(** ops/notes/notes.go:295-303 and 310-322: a note.  The fields come in the order of the struct; channels are numbers (midi/lib/channel.go:42-46). *)
Definition note_text (n : note_out) : bytes :=
  object_text 2
    [(str "channel", dec (o_ch n)); (str "midi-note", dec (o_note n)); (str "note", write_string (o_name n)); (str "velocity", dec (o_vel n));
     (str "start", seconds_text (truncate_ms (o_start n))); (str "end", seconds_text (truncate_ms (o_end n)));
     (str "duration", seconds_text (truncate_ms (o_duration n)))].

(** ops/notes/notes.go:294-332 [export]; without notes the slice is nil. *)
Definition notes_json (l : list note_out) : bytes :=
  object_text 0 [(str "notes", match l with
                               | [] => str "null"
                               | _ => 91 :: newline 2 ++ lines 2 (map note_text l) ++ newline 1 ++ [93]
                               end)].
