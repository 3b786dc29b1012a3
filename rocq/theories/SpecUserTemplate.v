(** * SpecUserTemplate: templates for events as a user writes them, and what they stand for.

    The language: words, fields of the event in double braces, the functions [pad], [ellipsize], [len] and [valign], and choices by a field. *)
From Verif Require Import Base Strings Tables Event Track Utf8 Hex SpecText.

(** ** What can be said about an event *)

(** The value of a field: a text; a number and the way it is written; yes or no; bytes, in hexadecimal or as a list of numbers *)
Inductive value := VText (s : bytes) | VNumber (n : Z) (s : bytes) | VFlag (b : bool) | VHex (bs : bytes) | VList (bs : bytes).

(** Numbers with blanks between them *)
Fixpoint numbers_text (l : list Z) : bytes :=
  match l with
  | [] => []
  | [n] => dec n
  | n :: r => dec n ++ str " " ++ numbers_text r
  end.

(** In writing *)
Definition written_value (v : value) : bytes :=
  match v with
  | VText s => s
  | VNumber _ s => s
  | VFlag true => str "true"
  | VFlag false => str "false"
  | VHex bs => hex_string bs
  | VList bs => str "[" ++ numbers_text bs ++ str "]"
  end.

(** A field counts as set if it is not the empty text, not zero, not "no" and not without bytes. *)
Definition is_set (v : value) : Prop :=
  match v with
  | VText s => s <> []
  | VNumber n _ => n <> 0
  | VFlag b => b = true
  | VHex bs | VList bs => bs <> []
  end.

(** The fields of the events, with the names of the structs (midi/events/midi, midi/events/meta, midi/events/sysex) *)
Definition plain (n : Z) : value := VNumber n (dec n).
Definition at_ (path : list string) (v : value) : list bytes * value := (map str path, v).
Definition text_name (k : textkind) : string :=
  match k with
  | KText => "Text" | KCopyright => "Copyright" | KLyric => "Lyric" | KMarker => "Marker" | KCuePoint => "CuePoint"
  | KTrackName | KInstrumentName | KProgramName | KDeviceName => "Name"
  end.
Definition note_fields (n : note) : list (list bytes * value) :=
  [at_ ["Note"; "Value"]%string (plain (n_value n)); at_ ["Note"; "Name"]%string (VText (n_name n)); at_ ["Note"; "Alias"]%string (VText (n_alias n))].
Definition maker_fields (m : manufacturer) : list (list bytes * value) :=
  [at_ ["Manufacturer"; "ID"]%string (VList (m_id m)); at_ ["Manufacturer"; "Region"]%string (VText (m_region m));
   at_ ["Manufacturer"; "Name"]%string (VText (m_name m))].
Definition own_fields (b : body) : list (list bytes * value) :=
  match b with
  | NoteOff c n v | NoteOn c n v => at_ ["Channel"]%string (plain c) :: at_ ["Velocity"]%string (plain v) :: note_fields n
  | PolyphonicPressure c p | ChannelPressure c p => [at_ ["Channel"]%string (plain c); at_ ["Pressure"]%string (plain p)]
  | Controller c k v =>
      [at_ ["Channel"]%string (plain c); at_ ["Controller"; "ID"]%string (plain (c_id k)); at_ ["Controller"; "Name"]%string (VText (c_name k));
       at_ ["Value"]%string (plain v)]
  | ProgramChange c b p => [at_ ["Channel"]%string (plain c); at_ ["Bank"]%string (plain b); at_ ["Program"]%string (plain p)]
  | PitchBend c b => [at_ ["Channel"]%string (plain c); at_ ["Bend"]%string (plain b)]
  | SequenceNumber n => [at_ ["SequenceNumber"]%string (plain n)]
  | TextEvent k s => [at_ [text_name k] (VText s)]
  | MIDIChannelPrefix c => [at_ ["Channel"]%string (plain c)]
  | MIDIPort p => [at_ ["Port"]%string (plain p)]
  | EndOfTrack => []
  | Tempo t => [at_ ["Tempo"]%string (plain t)]
  | SMPTEOffset h m s r f ff =>
      [at_ ["Hour"]%string (plain h); at_ ["Minute"]%string (plain m); at_ ["Second"]%string (plain s); at_ ["FrameRate"]%string (plain r);
       at_ ["Frames"]%string (plain f); at_ ["FractionalFrames"]%string (plain ff)]
  | TimeSignature n d t q =>
      [at_ ["Numerator"]%string (plain n); at_ ["Denominator"]%string (plain d); at_ ["TicksPerClick"]%string (plain t);
       at_ ["ThirtySecondsPerQuarter"]%string (plain q)]
  | KeySignature a t k =>
      [at_ ["Accidentals"]%string (plain a); at_ ["KeyType"]%string (VNumber t (if t =? 0 then str "major" else str "minor")); at_ ["Key"]%string (VText k)]
  | SequencerSpecific m d => at_ ["Data"]%string (VHex d) :: maker_fields m
  | SysExMessage m d single => at_ ["Data"]%string (VHex d) :: at_ ["Single"]%string (VFlag single) :: maker_fields m
  | SysExContinuation d last => [at_ ["Data"]%string (VHex d); at_ ["End"]%string (VFlag last)]
  | SysExEscape d => [at_ ["Data"]%string (VHex d)]
  end.
Definition type_field (e : event) : list (list bytes * value) :=
  match e_body e with
  | NoteOff _ _ _ | NoteOn _ _ _ | PolyphonicPressure _ _ | ChannelPressure _ _ | Controller _ _ _ | ProgramChange _ _ _ | PitchBend _ _
  | SysExMessage _ _ _ | SysExContinuation _ _ | SysExEscape _ => []
  | _ => [at_ ["Type"]%string (VNumber (e_type e) (hex2 (e_type e)))]
  end.
Definition fields (e : event) : list (list bytes * value) :=
  at_ ["Tick"]%string (plain (e_tick e)) :: at_ ["Delta"]%string (plain (e_delta e)) :: at_ ["Bytes"]%string (VList (e_bytes e)) ::
  at_ ["Tag"]%string (VText (body_tag (e_body e))) :: at_ ["Status"]%string (VNumber (e_status e) (hex2 (e_status e))) ::
  type_field e ++ own_fields (e_body e).

(** ** Templates *)

Inductive term :=
| Field (path : list bytes)            (* .Note.Name *)
| Padded (w : Z) (t : term)            (* pad 22 .Tag *)
| Shortened (t : term) (w : Z)         (* ellipsize .Text 20 *)
| Length (path : list bytes)           (* len .Data *)
| Aligned (path : list bytes)          (* valign .Bytes *)
| AlignedBy (path : list bytes) (w : Z). (* valign .Bytes 3 *)

Inductive test :=
| Set_ (path : list bytes)                         (* .Text *)
| Unset (path : list bytes)                        (* not .Single *)
| OneOf (path : list bytes) (texts : list bytes)   (* eq .Key "C major" "A minor" *)
| Among (path : list bytes) (ns : list Z)          (* eq .Channel 0 9 *)
| Differs (path : list bytes) (text : bytes).      (* ne .Note.Name "C3" *)

Inductive template :=
| End
| Words (s : bytes) (r : template)
| Show (t : term) (r : template)
| Choose (c : test) (yes no : template) (r : template).

(** In writing *)
Definition path_text (path : list bytes) : bytes := flat_map (fun n => 46 :: n) path.
Fixpoint term_text (inner : bool) (t : term) : bytes :=
  let wrap s := if inner then str "(" ++ s ++ str ")" else s in
  match t with
  | Field path => path_text path
  | Padded w t => wrap (str "pad " ++ dec w ++ str " " ++ term_text true t)
  | Shortened t w => wrap (str "ellipsize " ++ term_text true t ++ str " " ++ dec w)
  | Length path => wrap (str "len " ++ path_text path)
  | Aligned path => wrap (str "valign " ++ path_text path)
  | AlignedBy path w => wrap (str "valign " ++ path_text path ++ str " " ++ dec w)
  end.
Definition test_text (c : test) : bytes :=
  match c with
  | Set_ path => path_text path
  | Unset path => str "not " ++ path_text path
  | OneOf path texts => str "eq " ++ path_text path ++ flat_map (fun s => 32 :: 34 :: s ++ [34]) texts
  | Among path ns => str "eq " ++ path_text path ++ flat_map (fun n => 32 :: dec n) ns
  | Differs path s => str "ne " ++ path_text path ++ 32 :: 34 :: s ++ [34]
  end.
Fixpoint source (T : template) : bytes :=
  match T with
  | End => []
  | Words s r => s ++ source r
  | Show t r => str "{{" ++ term_text false t ++ str "}}" ++ source r
  | Choose c yes no r =>
      str "{{if " ++ test_text c ++ str "}}" ++ source yes ++ str "{{else}}" ++ source no ++ str "{{end}}" ++ source r
  end.

(** Names of fields are words of letters, digits and underscores; numbers have up to six digits; texts in quotes have no quotes, backslashes,
    line feeds or characters beyond ASCII; words contain no double brace, and no brace before one. *)
Definition name_char (c : Z) : Prop := c = 95 \/ 48 <= c <= 57 \/ 65 <= c <= 90 \/ 97 <= c <= 122.
Definition good_name (n : bytes) : Prop := Forall name_char n /\ match n with [] => False | c :: _ => ~ 48 <= c <= 57 end.
Definition good_path (path : list bytes) : Prop := path <> [] /\ Forall good_name path.
Definition good_number (n : Z) : Prop := 0 <= n <= 999999.
Definition good_text (s : bytes) : Prop := Forall (fun c => 0 <= c < 128 /\ c <> 34 /\ c <> 92 /\ c <> 10) s.
Definition good_words (s : bytes) : Prop := s <> [] /\ forall a b, s ++ [123] <> a ++ [123; 123] ++ b.
Fixpoint good_term (t : term) : Prop :=
  match t with
  | Field path => good_path path
  | Padded w t | Shortened t w => good_number w /\ good_term t
  | Length path | Aligned path => good_path path
  | AlignedBy path w => good_path path /\ good_number w
  end.
Definition good_test (c : test) : Prop :=
  match c with
  | Set_ path | Unset path => good_path path
  | OneOf path texts => good_path path /\ texts <> [] /\ Forall good_text texts
  | Among path ns => good_path path /\ ns <> [] /\ Forall good_number ns
  | Differs path s => good_path path /\ good_text s
  end.
Fixpoint good (T : template) : Prop :=
  match T with
  | End => True
  | Words s r => good_words s /\ (match r with Words _ _ => False | _ => True end) /\ good r
  | Show t r => good_term t /\ good r
  | Choose c yes no r => good_test c /\ good yes /\ good no /\ good r
  end.

(** ** What they stand for *)

Definition characters (s : bytes) : Z := zlen (runes s).

(** [t] is [s] with blanks up to [w] characters. *)
Definition filled (w : Z) (s t : bytes) : Prop :=
  exists k, t = s ++ repeat 32 k /\ (characters s <= w -> characters s + Z.of_nat k = w) /\ (w < characters s -> k = O).

(** [t] is [s], or if that has more than [w] characters, the first ones and an ellipsis, [w] in all. *)
Definition cut (w : Z) (s t : bytes) : Prop :=
  (w <= 0 /\ t = []) \/ (0 < w /\ characters s <= w /\ t = concat (runes s)) \/
  (0 < w < characters s /\ exists front back, runes s = front ++ back /\ zlen front = w - 1 /\ t = concat front ++ str "…").

(** The bytes of a text or a list *)
Definition bytes_of (v : value) : option bytes :=
  match v with VText s => Some s | VHex bs | VList bs => Some bs | _ => None end.
Definition list_of (v : value) : option bytes :=
  match v with VHex bs | VList bs => Some bs | _ => None end.

(** [t] is [bs] in hexadecimal, with a column of three blanks in front for each byte by which the variable length number at its start is shorter than [w]. *)
Definition aligned (w : Z) (bs t : bytes) : Prop :=
  exists front last rest k, bs = front ++ last :: rest /\ Forall (fun b => 128 <= b < 256) front /\ 0 <= last < 128 /\ Z.of_nat k = 3 * Z.max 0 (w - (zlen front + 1)) /\ t = repeat 32 k ++ hex_string bs.

Inductive term_says (e : event) : term -> bytes -> Prop :=
| says_field : forall path v, In (path, v) (fields e) -> term_says e (Field path) (written_value v)
| says_padded : forall w t a b, term_says e t a -> filled w a b -> term_says e (Padded w t) b
| says_short : forall w t a b, term_says e t a -> cut w a b -> term_says e (Shortened t w) b
| says_length : forall path v bs, In (path, v) (fields e) -> bytes_of v = Some bs -> term_says e (Length path) (dec (zlen bs))
| says_aligned : forall path v bs b, In (path, v) (fields e) -> list_of v = Some bs -> aligned 4 bs b -> term_says e (Aligned path) b
| says_aligned_by : forall path w v bs b, In (path, v) (fields e) -> list_of v = Some bs -> aligned w bs b -> term_says e (AlignedBy path w) b.

Inductive test_says (e : event) : test -> Prop -> Prop :=
| says_set : forall path v, In (path, v) (fields e) -> test_says e (Set_ path) (is_set v)
| says_unset : forall path v, In (path, v) (fields e) -> test_says e (Unset path) (~ is_set v)
| says_one : forall path s texts, In (path, VText s) (fields e) -> test_says e (OneOf path texts) (In s texts)
| says_among : forall path n s ns, In (path, VNumber n s) (fields e) -> test_says e (Among path ns) (In n ns)
| says_differs : forall path s text, In (path, VText s) (fields e) -> test_says e (Differs path text) (s <> text).

Inductive says (e : event) : template -> bytes -> Prop :=
| says_end : says e End []
| says_words : forall s r b, says e r b -> says e (Words s r) (s ++ b)
| says_show : forall t r a b, term_says e t a -> says e r b -> says e (Show t r) (a ++ b)
| says_yes : forall c yes no r P a b, test_says e c P -> P -> says e yes a -> says e r b -> says e (Choose c yes no r) (a ++ b)
| says_no : forall c yes no r P a b, test_says e c P -> ~ P -> says e no a -> says e r b -> says e (Choose c yes no r) (a ++ b).

(** White space in Unicode (the property White_Space): tabulator to carriage return, blank, next line, no-break space, the spaces of various widths,
    line and paragraph separator; the template has something else, in words or in braces. *)
Definition white (c : bytes) : Prop :=
  exists cp, In cp [9; 10; 11; 12; 13; 32; 133; 160; 5760; 8192; 8193; 8194; 8195; 8196; 8197; 8198; 8199; 8200; 8201; 8202; 8232; 8233; 8239; 8287; 12288] /\
    utf8 cp c.
Fixpoint substantial (T : template) : Prop :=
  match T with
  | End => False
  | Words s r => (exists c, In c (runes s) /\ ~ white c) \/ substantial r
  | Show _ _ | Choose _ _ _ _ => True
  end.

(** The fields it asks for are fields of the event; texts are compared with texts and numbers with numbers, and what is aligned starts with a variable length
    number. *)
Definition text_field (e : event) (path : list bytes) : Prop := exists s, In (path, VText s) (fields e).
Definition number_field (e : event) (path : list bytes) : Prop := exists n s, In (path, VNumber n s) (fields e).
Definition any_field (e : event) (path : list bytes) : Prop := exists v, In (path, v) (fields e).
Fixpoint term_suits (e : event) (t : term) : Prop :=
  match t with
  | Field path => any_field e path
  | Padded _ t | Shortened t _ => term_suits e t
  | Length path => exists v bs, In (path, v) (fields e) /\ bytes_of v = Some bs
  | Aligned path | AlignedBy path _ =>
      exists v front last rest, In (path, v) (fields e) /\ list_of v = Some (front ++ last :: rest) /\ Forall (fun b => 128 <= b < 256) front /\ 0 <= last < 128
  end.
Definition test_suits (e : event) (c : test) : Prop :=
  match c with
  | Set_ path | Unset path => any_field e path
  | OneOf path _ | Differs path _ => text_field e path
  | Among path _ => number_field e path
  end.
Fixpoint suits (e : event) (T : template) : Prop :=
  match T with
  | End => True
  | Words _ r => suits e r
  | Show t r => term_suits e t /\ suits e r
  | Choose c yes no r => test_suits e c /\ suits e yes /\ suits e no /\ suits e r
  end.
