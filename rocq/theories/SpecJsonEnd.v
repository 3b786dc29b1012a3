(** * SpecJsonEnd: how the assembly of a JSON document ends. *)
From Verif Require Import Base Tables Event SpecTable SpecKey SpecNote SpecEvent SpecTrack SpecLine Json SpecJsonEvent SpecSource.

(** Fields that can all be read, with a value that the event cannot have. *)
Definition offset_range (h m s r f ff : Z) : Prop := h <= 24 /\ m <= 59 /\ s <= 59 /\ In r [24; 25; 29; 30] /\ f < r /\ ff <= 100.
Inductive crash_values (o : list (bytes * json)) : bytes -> Prop :=
| cv_on : forall c n v, channel_field o c -> note_field o n -> byte_field (str "velocity") o v -> 127 < v -> crash_values o (str "NoteOn")
| cv_poly : forall c p, channel_field o c -> byte_field (str "pressure") o p -> 127 < p -> crash_values o (str "PolyphonicPressure")
| cv_pressure : forall c p, channel_field o c -> byte_field (str "pressure") o p -> 127 < p -> crash_values o (str "ChannelPressure")
| cv_key : forall a k, number_field (str "accidentals") (-128) 127 o a -> byte_field (str "key-type") o k -> ~ (key_range a /\ (k = 0 \/ k = 1)) ->
    crash_values o (str "KeySignature")
| cv_offset : forall h m s r f ff, byte_field (str "hour") o h -> byte_field (str "minute") o m -> byte_field (str "second") o s ->
    byte_field (str "frame-rate") o r -> byte_field (str "frames") o f -> byte_field (str "fractional-frames") o ff -> ~ offset_range h m s r f ff ->
    crash_values o (str "SMPTEOffset").
Inductive hang_values (o : list (bytes * json)) : bytes -> Prop :=
| hv_time : forall n d t q, byte_field (str "numerator") o n -> byte_field (str "denominator") o d -> byte_field (str "ticks-per-click") o t ->
    byte_field (str "thirty-seconds-per-quarter") o q -> 128 < d -> hang_values o (str "TimeSignature").

(** The event of a JSON value, as far as it is an event at all, has such values. *)
Definition event_with (bad : list (bytes * json) -> bytes -> Prop) (v : json) : Prop :=
  exists o l w f tag d, fields_of_value v o /\ under (str "event") o (l ++ [w]) /\ fields_of_value w f /\
    string_field (str "tag") f tag /\ number_field (str "delta") 0 4294967295 f d /\ bad f tag.

(** The header and the tracks of a document, each with its tag and the values of its events. *)
Definition outline (v : json) (f d : Z) (ts : list (option bytes * list json)) : Prop :=
  exists o lh h lt, fields_of_value v o /\
    under (str "header") o lh /\ together lh h /\ maybe_field (str "tag") is_string h (Some (str "MThd")) /\
    maybe_field (str "format") (is_number 0 65535) h (Some f) /\ maybe_field (str "PPQN") (is_number 0 65535) h (Some d) /\ header_values f d /\
    under (str "tracks") o lt /\ latest (is_list is_track) [] lt ts.

(** All is well up to an event of the kind. *)
Definition well (table : list (bytes * manufacturer)) (middle : Z) (v : json) : Prop := exists e, json_says table middle v e.
Definition well_track (table : list (bytes * manufacturer)) (middle : Z) (t : option bytes * list json) : Prop :=
  fst t = Some (str "MTrk") /\ snd t <> [] /\ Forall (well table middle) (snd t).
Definition track_with (table : list (bytes * manufacturer)) (middle : Z) (bad : list (bytes * json) -> bytes -> Prop) (t : option bytes * list json) : Prop :=
  fst t = Some (str "MTrk") /\ exists before v after, snd t = before ++ v :: after /\ Forall (well table middle) before /\ event_with bad v.

(** The first thing wrong after the header is a track without events or an event with a value that it cannot have. *)
Definition document_crashes (table : list (bytes * manufacturer)) (middle : Z) (v : json) : Prop :=
  exists f d before t after, outline v f d (before ++ t :: after) /\ Forall (well_track table middle) before /\
    (t = (Some (str "MTrk"), []) \/ track_with table middle crash_values t).
(** The first thing wrong after the header is a time signature with a denominator above 128. *)
Definition document_hangs (table : list (bytes * manufacturer)) (middle : Z) (v : json) : Prop :=
  exists f d before t after, outline v f d (before ++ t :: after) /\ Forall (well_track table middle) before /\ track_with table middle hang_values t.
(** Nothing is wrong. *)
Definition document_well (table : list (bytes * manufacturer)) (middle : Z) (v : json) : Prop :=
  exists f d ts, outline v f d ts /\ Forall (well_track table middle) ts /\ zlen ts < 65536.

(** ** Texts *)
From Verif Require Import SpecText SpecJsonText.

(** The text starts with a JSON text, white space apart, in which bytes outside UTF-8 are tolerated in strings and which is not nested too deep. *)
Definition starts_with_json (s : bytes) (v : json) : Prop := exists w t rest, s = w ++ t ++ rest /\ white w /\ json_in lax_chars v t /\ depth v <= 10000.
