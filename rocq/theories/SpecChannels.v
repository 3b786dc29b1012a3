(** * SpecChannels: files whose messages are on other channels.

    Independent of how the program reads them: chunks (SpecFile) and messages on the wire (SpecPacket) only. *)
From Verif Require Import Base Strings Tables Event SpecPacket SpecFile SpecHistory Track File Notes SpecSameSong.

(** A rearrangement of the sixteen channels *)
Definition rearranges (f : Z -> Z) : Prop :=
  (forall c, 0 <= c < 16 -> 0 <= f c < 16) /\ (forall c d, 0 <= c < 16 -> 0 <= d < 16 -> f c = f d -> c = d).

(** The status byte for the new channel.  Only 80h to EFh have a channel. *)
Definition on_status (f : Z -> Z) (st : Z) : Z := if (128 <=? st) && (st <? 240) then st - st mod 16 + f (st mod 16) else st.

(** The message on its new channel *)
Definition on_packet (f : Z -> Z) (k : packet) : packet := match k with PChan st data => PChan (on_status f st) data | _ => k end.

(** Track bodies with the same messages, the second with each on its new channel; both may be written in any way *)
Definition track_moved (f : Z -> Z) (b b' : bytes) : Prop :=
  exists l, packets 0 l b /\ packets 0 (map (fun x => (fst x, on_packet f (snd x))) l) b'.

(** Files with such tracks *)
Definition song_moved (f : Z -> Z) (r r' : bytes) : Prop :=
  exists header items items', readable (header :: items) r /\ readable (header :: items') r' /\
    Forall2 (fun it it' => track_moved f (snd it) (snd it')) (filter is_mtrk items) (filter is_mtrk items').

(** An event on its new channel: channel messages only, the channel prefix (a meta event) stays *)
Definition on_body (f : Z -> Z) (b : body) : body :=
  match b with
  | NoteOff ch n v => NoteOff (f ch) n v
  | NoteOn ch n v => NoteOn (f ch) n v
  | PolyphonicPressure ch p => PolyphonicPressure (f ch) p
  | Controller ch c v => Controller (f ch) c v
  | ProgramChange ch bank p => ProgramChange (f ch) bank p
  | ChannelPressure ch p => ChannelPressure (f ch) p
  | PitchBend ch x => PitchBend (f ch) x
  | _ => b
  end.
(** Tick, delta time and type stay; the bytes are left out. *)
Definition on_event (f : Z -> Z) (e : event) : event := Event (e_tick e) (e_delta e) [] (on_status f (e_status e)) (e_type e) (on_body f (e_body e)).

(** States of the reader: what is known for a channel is known for the new one. *)
Definition context_moved (f : Z -> Z) (c c' : ctx) : Prop :=
  c_flats c' = c_flats c /\ c_casio c' = c_casio c /\ c_running c' = on_status f (c_running c) /\
  (forall ch, 0 <= ch < 16 -> get_bank c' (f ch) = get_bank c ch) /\
  (forall ch n, 0 <= ch < 16 -> 0 <= n < 256 -> assoc (note_key (f ch) n) (c_notes c') = assoc (note_key ch n) (c_notes c)).
Definition end_moved (f : Z -> Z) (c c' : option ctx) : Prop :=
  match c, c' with Some c, Some c' => context_moved f c c' | None, None => True | _, _ => False end.

(** Files in memory: the same header, the same tracks, every event on its new channel *)
Definition events_moved (f : Z -> Z) (t t' : mtrk) : Prop :=
  t_tag t' = t_tag t /\ t_number t' = t_number t /\ map no_bytes (t_events t') = map (on_event f) (t_events t) /\ end_moved f (t_ctx t) (t_ctx t').
Definition file_moved (f : Z -> Z) (s s' : smf) : Prop := f_mthd s' = f_mthd s /\ Forall2 (events_moved f) (f_tracks s) (f_tracks s').

(** A listed note on its new channel *)
Definition on_note (f : Z -> Z) (n : note_out) : note_out :=
  NoteOut (f (o_ch n)) (o_note n) (o_name n) (o_vel n) (o_start_tick n) (o_end_tick n) (o_start n) (o_end n) (o_duration n).
