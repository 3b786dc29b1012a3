(** * SpecJsonEvent: what a JSON value says that is read as an event. *)
From Verif Require Import Base Tables Event SpecTable SpecKey SpecNote SpecEvent SpecTrack SpecLine Json.

(** The fields of an object; null counts as an empty one. *)
Inductive fields_of_value : json -> list (bytes * json) -> Prop :=
| fv_object : forall o, fields_of_value (JObj o) o
| fv_null : fields_of_value JNull [].

(** [under name o l]: the values under the name, in any mixture of cases, in the order of the object. *)
Inductive under (name : bytes) : list (bytes * json) -> list json -> Prop :=
| un_nil : under name [] []
| un_here : forall k v o l, spelled name k -> under name o l -> under name ((k, v) :: o) (v :: l)
| un_other : forall k v o l, ~ spelled name k -> under name o l -> under name ((k, v) :: o) l.

(** The last of the values, all of which must be of the right sort, or [zero]. *)
Inductive latest {A} (sort : json -> A -> Prop) (zero : A) : list json -> A -> Prop :=
| lt_none : latest sort zero [] zero
| lt_value : forall l x v y, latest sort zero l x -> sort v y -> latest sort zero (l ++ [v]) y.
(** The same, but nulls do not count. *)
Inductive latest_given {A} (sort : json -> A -> Prop) (zero : A) : list json -> A -> Prop :=
| lg_none : latest_given sort zero [] zero
| lg_null : forall l x, latest_given sort zero l x -> latest_given sort zero (l ++ [JNull]) x
| lg_value : forall l x v y, latest_given sort zero l x -> sort v y -> latest_given sort zero (l ++ [v]) y.

Definition is_number (lo hi : Z) (v : json) (n : Z) : Prop := v = JNum n /\ lo <= n <= hi.
Definition is_string (v : json) (s : bytes) : Prop := v = JStr s.
Definition is_bool (v : json) (b : bool) : Prop := v = JBool b.

Definition number_field (name : bytes) (lo hi : Z) (o : list (bytes * json)) (n : Z) : Prop :=
  exists l, under name o l /\ latest_given (is_number lo hi) 0 l n.
Definition string_field (name : bytes) (o : list (bytes * json)) (s : bytes) : Prop :=
  exists l, under name o l /\ latest_given is_string [] l s.
Definition bool_field (name : bytes) (o : list (bytes * json)) (b : bool) : Prop :=
  exists l, under name o l /\ latest_given is_bool false l b.

(** Channels: null is 0. *)
Definition is_channel (v : json) (c : Z) : Prop := (v = JNull /\ c = 0) \/ is_number 0 15 v c.
Definition channel_field (o : list (bytes * json)) (c : Z) : Prop := exists l, under (str "channel") o l /\ latest is_channel 0 l c.

(** Bytes: numbers of 64 bits, of which the last eight bits count; null is 0. *)
Inductive is_octet : json -> Z -> Prop :=
| io_null : is_octet JNull 0
| io_number : forall n, 0 <= n < 2 ^ 64 -> is_octet (JNum n) (n mod 256).
Inductive are_octets : json -> bytes -> Prop :=
| ao_null : are_octets JNull []
| ao_array : forall l bs, Forall2 is_octet l bs -> are_octets (JArr l) bs.
Definition data_field (o : list (bytes * json)) (bs : bytes) : Prop := exists l, under (str "data") o l /\ latest are_octets [] l bs.

(** Manufacturers go by their ID: the first entry of the table under its key. *)
Inductive maker_of (table : list (bytes * manufacturer)) (id : bytes) : manufacturer -> Prop :=
| mo_known : forall pre m post, length id = 1%nat \/ length id = 3%nat -> table = pre ++ (id_key id, m) :: post -> ~ In (id_key id) (map fst pre) ->
    maker_of table id m
| mo_unknown : (length id = 1%nat \/ length id = 3%nat -> ~ In (id_key id) (map fst table)) ->
    maker_of table id (Manufacturer id (str "<unknown>") (str "<unknown>")).
Definition is_maker (table : list (bytes * manufacturer)) (v : json) (m : manufacturer) : Prop :=
  exists o l id, fields_of_value v o /\ under (str "id") o l /\ latest are_octets [] l id /\ maker_of table id m.
Definition maker_field (table : list (bytes * manufacturer)) (o : list (bytes * json)) (m : manufacturer) : Prop :=
  exists l, under (str "manufacturer") o l /\ latest (is_maker table) (Manufacturer [] [] []) l m.

(** Notes and controllers: the fields of all objects under that name together. *)
Inductive together : list json -> list (bytes * json) -> Prop :=
| tg_none : together [] []
| tg_more : forall v o l r, fields_of_value v o -> together l r -> together (v :: l) (o ++ r).
Definition note_field (o : list (bytes * json)) (n : Z) : Prop :=
  exists l r s t, under (str "note") o l /\ together l r /\ number_field (str "value") 0 255 r n /\ string_field (str "name") r s /\ string_field (str "alias") r t.
Definition controller_field (o : list (bytes * json)) (c : controller) : Prop :=
  exists l r, under (str "controller") o l /\ together l r /\ number_field (str "id") 0 255 r (c_id c) /\ string_field (str "name") r (c_name c).

Definition byte_field (name : bytes) := number_field name 0 255.
Definition word_field (name : bytes) := number_field name 0 65535.

(** The name of the value of a text event *)
Definition text_name (k : textkind) : bytes :=
  match k with
  | KText => str "text" | KCopyright => str "copyright" | KLyric => str "lyric" | KMarker => str "marker" | KCuePoint => str "cuepoint"
  | KTrackName | KInstrumentName | KProgramName | KDeviceName => str "name"
  end.

(** [values table middle o b]: the fields [o] say the event [b]; the names of notes follow from their numbers. *)
Inductive values (table : list (bytes * manufacturer)) (middle : Z) (o : list (bytes * json)) : body -> Prop :=
| va_seqno : forall n, word_field (str "sequence-number") o n -> values table middle o (SequenceNumber n)
| va_text : forall k s, string_field (text_name k) o s -> values table middle o (TextEvent k s)
| va_prefix : forall c, byte_field (str "channel") o c -> c <= 15 -> values table middle o (MIDIChannelPrefix c)
| va_port : forall p, byte_field (str "port") o p -> p <= 127 -> values table middle o (MIDIPort p)
| va_end : values table middle o EndOfTrack
| va_tempo : forall t, number_field (str "tempo") 0 4294967295 o t -> values table middle o (Tempo t)
| va_smpte : forall h m s r f ff, byte_field (str "hour") o h -> byte_field (str "minute") o m -> byte_field (str "second") o s ->
    byte_field (str "frame-rate") o r -> byte_field (str "frames") o f -> byte_field (str "fractional-frames") o ff ->
    h <= 24 -> m <= 59 -> s <= 59 -> In r [24; 25; 29; 30] -> f < r -> ff <= 100 -> values table middle o (SMPTEOffset h m s r f ff)
| va_time : forall n d t q, byte_field (str "numerator") o n -> byte_field (str "denominator") o d -> byte_field (str "ticks-per-click") o t ->
    byte_field (str "thirty-seconds-per-quarter") o q -> d <= 128 -> values table middle o (TimeSignature n d t q)
| va_key : forall a (minor : bool), number_field (str "accidentals") (-128) 127 o a -> byte_field (str "key-type") o (if minor then 1 else 0) -> key_range a ->
    values table middle o (KeySignature a (if minor then 1 else 0) (key_name minor a))
| va_seqspec : forall m d, maker_field table o m -> data_field o d -> values table middle o (SequencerSpecific m d)
  (* The velocity of a NoteOff is not limited to 127. *)
| va_off : forall c n v s, channel_field o c -> note_field o n -> byte_field (str "velocity") o v -> note_name middle false n s ->
    values table middle o (NoteOff c (Note n s s) v)
| va_on : forall c n v s, channel_field o c -> note_field o n -> byte_field (str "velocity") o v -> v <= 127 -> note_name middle false n s ->
    values table middle o (NoteOn c (Note n s s) v)
| va_poly : forall c p, channel_field o c -> byte_field (str "pressure") o p -> p <= 127 -> values table middle o (PolyphonicPressure c p)
| va_control : forall c k v, channel_field o c -> controller_field o k -> byte_field (str "value") o v -> values table middle o (Controller c k v)
| va_program : forall c b p, channel_field o c -> word_field (str "bank") o b -> byte_field (str "program") o p -> values table middle o (ProgramChange c b p)
| va_pressure : forall c p, channel_field o c -> byte_field (str "pressure") o p -> p <= 127 -> values table middle o (ChannelPressure c p)
| va_bend : forall c b, channel_field o c -> word_field (str "bend") o b -> values table middle o (PitchBend c b)
| va_sysex : forall m d s, maker_field table o m -> data_field o d -> bool_field (str "single") o s -> values table middle o (SysExMessage m d s)
  (* "end" must be a boolean, but is not used. *)
| va_cont : forall d b, data_field o d -> bool_field (str "end") o b -> values table middle o (SysExContinuation d false)
| va_escape : forall d, data_field o d -> values table middle o (SysExEscape d).

(** The event of a JSON value: the last value under "event" has the name of the kind under "tag", a delta time, and the values; the rest of the event
    is determined as for lines of text. *)
Definition json_says (table : list (bytes * manufacturer)) (middle : Z) (v : json) (e : event) : Prop :=
  exists o l w f, fields_of_value v o /\ under (str "event") o (l ++ [w]) /\ fields_of_value w f /\
    string_field (str "tag") f (kind_name (e_body e)) /\ number_field (str "delta") 0 4294967295 f (e_delta e) /\
    values table middle f (e_body e) /\ line_header e.

(** Ranges of the values: more than the standard allows. *)
Definition json_range (b : body) : Prop :=
  match b with
  | NoteOff c n v => 0 <= c < 16 /\ 0 <= n_value n < 256 /\ 0 <= v < 256
  | NoteOn c n v => 0 <= c < 16 /\ 0 <= n_value n < 256 /\ 0 <= v < 128
  | PolyphonicPressure c p | ChannelPressure c p => 0 <= c < 16 /\ 0 <= p < 128
  | Controller c k v => 0 <= c < 16 /\ 0 <= c_id k < 256 /\ 0 <= v < 256
  | ProgramChange c b p => 0 <= c < 16 /\ 0 <= b < 65536 /\ 0 <= p < 256
  | PitchBend c b => 0 <= c < 16 /\ 0 <= b < 65536
  | SequenceNumber n => 0 <= n < 65536
  | MIDIChannelPrefix c => 0 <= c < 16
  | MIDIPort p => 0 <= p < 128
  | Tempo t => 0 <= t < 4294967296
  | SMPTEOffset h m s r f ff => 0 <= h <= 24 /\ 0 <= m < 60 /\ 0 <= s < 60 /\ (r = 24 \/ r = 25 \/ r = 29 \/ r = 30) /\ 0 <= f < r /\ 0 <= ff <= 100
  | TimeSignature n d t q => 0 <= n < 256 /\ 0 <= d <= 128 /\ 0 <= t < 256 /\ 0 <= q < 256
  | KeySignature a k _ => key_range a /\ 0 <= k <= 1
  | SequencerSpecific _ d | SysExMessage _ d _ | SysExContinuation d _ | SysExEscape d => is_bytes d
  | TextEvent _ _ | EndOfTrack => True
  end.
