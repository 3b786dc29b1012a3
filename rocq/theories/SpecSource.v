(** * SpecSource: what a JSON document or an assembly text says as a whole. *)
From Verif Require Import Base Tables Event SpecText SpecTable SpecEvent SpecTrack SpecAssemble SpecSurvive SpecRead SpecDecimal SpecLine Json SpecJsonEvent.

(** The messages are closed: a system exclusive message or continuation is complete if another event follows that is no continuation. *)
Inductive closes : list event -> list event -> Prop :=
| cl_last : forall e, closes [e] [e]
| cl_open : forall e n r r', continues n -> closes (n :: r) r' -> closes (e :: n :: r) (e :: r')
| cl_closed : forall e e' n r r', ~ continues n -> marked true e e' -> closes (n :: r) r' -> closes (e :: n :: r) (e' :: r').

(** Formats 0 to 2; a division is metrical or of 24, 25, 29 or 30 frames per second. *)
Definition header_values (f d : Z) : Prop := 0 <= f <= 2 /\ 0 <= d < 65536 /\ (32768 <= d -> In (d / 256) [232; 231; 227; 226]).

(** ** JSON *)

(** Null is nothing. *)
Inductive maybe {A} (sort : json -> A -> Prop) : json -> option A -> Prop :=
| mb_null : maybe sort JNull None
| mb_some : forall v x, sort v x -> maybe sort v (Some x).
Definition maybe_field {A} (name : bytes) (sort : json -> A -> Prop) (o : list (bytes * json)) (x : option A) : Prop :=
  exists l, under name o l /\ latest (maybe sort) None l x.

Inductive is_array : json -> list json -> Prop :=
| ia_null : is_array JNull []
| ia_array : forall l, is_array (JArr l) l.
Definition is_list {A} (sort : json -> A -> Prop) (v : json) (l : list A) : Prop := exists vs, is_array v vs /\ Forall2 sort vs l.

(** A track: its tag and its events *)
Definition is_track (v : json) (t : option bytes * list json) : Prop :=
  exists o n l, fields_of_value v o /\ maybe_field (str "tag") is_string o (fst t) /\ maybe_field (str "tracknumber") (is_number 0 65535) o n /\
    under (str "events") o l /\ latest is_array [] l (snd t).

(** The document says a header and tracks: the fields of all headers together; the last list of tracks. *)
Definition json_file (table : list (bytes * manufacturer)) (middle : Z) (v : json) (f d : Z) (tracks : list (list event)) : Prop :=
  exists o lh h lt ts, fields_of_value v o /\
    under (str "header") o lh /\ together lh h /\ maybe_field (str "tag") is_string h (Some (str "MThd")) /\
    maybe_field (str "format") (is_number 0 65535) h (Some f) /\ maybe_field (str "PPQN") (is_number 0 65535) h (Some d) /\ header_values f d /\
    under (str "tracks") o lt /\ latest (is_list is_track) [] lt ts /\
    Forall2 (fun t es => fst t = Some (str "MTrk") /\ Forall2 (json_says table middle) (snd t) es) ts tracks.

(** ** Assembly text *)

(** The code points of white space in Unicode. *)
Definition white_point (cp : Z) : Prop :=
  9 <= cp <= 13 \/ cp = 32 \/ cp = 133 \/ cp = 160 \/ cp = 5760 \/ 8192 <= cp <= 8202 \/ cp = 8232 \/ cp = 8233 \/ cp = 8239 \/ cp = 8287 \/ cp = 12288.
(** A line of nothing but white space. *)
Inductive blank_line : bytes -> Prop :=
| bl_nil : blank_line []
| bl_char : forall cp c r, white_point cp -> utf8 cp c -> blank_line r -> blank_line (c ++ r).
Definition comment_line (l : bytes) : Prop := exists r, l = 37 :: 37 :: r.    (* "%%" *)

(** [says] holds of a place in the text and there is no earlier one. *)
Definition first_place {A} (says : bytes -> A -> Prop) (l : bytes) (x : A) : Prop :=
  exists p q, l = p ++ q /\ says q x /\ forall p' q' y, l = p' ++ q' -> says q' y -> (length p <= length p')%nat.
Definition format_says (s : bytes) (f : Z) : Prop := exists r, s = str "format:" ++ (48 + f) :: r /\ 0 <= f <= 2.
Definition division_says (s : bytes) (d : bytes) : Prop :=
  exists sep w r, s = str "metrical" ++ sep ++ str "time:" ++ d ++ w ++ str "ppqn" ++ r /\ (sep = [] \/ sep = [32] \/ sep = [45]) /\ d <> [] /\ Forall is_digit d /\ blanks w.
(** A header line: the first format and the first division in it. *)
Definition header_says (l : bytes) (f d : Z) : Prop :=
  first_place format_says l f /\ (exists s, first_place division_says l s /\ d = digits_value s) /\ header_values f d.

(** The events of the lines of a track. *)
Inductive lines_say (says : bytes -> event -> Prop) : list bytes -> list event -> Prop :=
| ls_nil : lines_say says [] []
| ls_comment : forall l r es, comment_line l -> lines_say says r es -> lines_say says (l :: r) es
| ls_blank : forall l r es, blank_line l -> lines_say says r es -> lines_say says (l :: r) es
| ls_event : forall l e r es, ~ comment_line l -> ~ blank_line l -> says l e -> lines_say says r es -> lines_say says (l :: r) (e :: es).

(** The chunks whose first line is no comment. *)
Inductive uncommented : list (list bytes) -> list (list bytes) -> Prop :=
| uc_nil : uncommented [] []
| uc_comment : forall l r cs cs', comment_line l -> uncommented cs cs' -> uncommented ((l :: r) :: cs) cs'
| uc_chunk : forall l r cs cs', ~ comment_line l -> uncommented cs cs' -> uncommented ((l :: r) :: cs) ((l :: r) :: cs').

Definition header_chunk (c : list bytes) (f d : Z) : Prop := exists l r, c = l :: r /\ header_line l /\ header_says l f d.
Definition track_chunk (says : bytes -> event -> Prop) (c : list bytes) (es : list event) : Prop :=
  exists l r, c = l :: r /\ ~ header_line l /\ track_line l /\ lines_say says r es.

(** The text says a header and tracks: chunks of lines, those with commented tag lines left out; first the headers, of which the last counts, then the tracks. *)
Definition text_file (says : bytes -> event -> Prop) (text : bytes) (f d : Z) (tracks : list (list event)) : Prop :=
  exists lines before cs hs h ts, ~ long_line text /\ lines_of text lines /\ divides lines before cs /\ Forall (fun l => ~ header_line l) before /\
    (forall c r, cs = c :: r -> header_line (hd [] c)) /\ uncommented cs (hs ++ h :: ts) /\
    Forall (fun c => exists f' d', header_chunk c f' d') hs /\ header_chunk h f d /\ Forall2 (track_chunk says) ts tracks.

(** The line plainly says the event (C77). *)
Definition plainly (table : list (bytes * manufacturer)) (s : bytes) (e : event) : Prop :=
  line_kind s (e_body e) /\ line_header e /\ exists pre x d mid y tail, line_parts table s pre x d mid y tail e /\ line_plain s pre mid y tail (e_body e).
