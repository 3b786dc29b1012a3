(** * SpecNumbers: the numbering of controllers and manufacturers in the MIDI specification, written down independently of the tables of the code. *)
From Verif Require Import Base Tables Event SpecEvent.

(** Controllers of 14 bits: number of the most significant byte and name; the least significant byte has the number 32 higher (MIDI 1.0, table III). *)
Definition paired_controllers : list (Z * bytes) :=
  [(0, str "Bank Select"); (1, str "Modulation Wheel"); (2, str "Breath Controller"); (4, str "Foot Controller"); (5, str "Portamento Time"); (6, str "Data Entry");
   (7, str "Channel Volume"); (8, str "Balance"); (10, str "Pan"); (11, str "Expression Controller"); (12, str "Effect Control 1"); (13, str "Effect Control 2");
   (16, str "General Purpose Controller 1"); (17, str "General Purpose Controller 2"); (18, str "General Purpose Controller 3"); (19, str "General Purpose Controller 4")].

(** Controllers of 7 bits and mode messages: number and the words their names start with *)
Definition single_controllers : list (Z * bytes) :=
  [(64, str "Sustain"); (65, str "Portamento On/Off"); (66, str "Sostenuto"); (67, str "Soft Pedal"); (68, str "Legato"); (69, str "Hold 2");
   (70, str "Sound Controller 1 "); (71, str "Sound Controller 2 "); (72, str "Sound Controller 3 "); (73, str "Sound Controller 4 "); (74, str "Sound Controller 5 ");
   (75, str "Sound Controller 6 "); (76, str "Sound Controller 7 "); (77, str "Sound Controller 8 "); (78, str "Sound Controller 9 "); (79, str "Sound Controller 10 ");
   (80, str "General Purpose Controller 5"); (81, str "General Purpose Controller 6"); (82, str "General Purpose Controller 7"); (83, str "General Purpose Controller 8");
   (84, str "Portamento Control"); (88, str "High Resolution Velocity Prefix");
   (91, str "Effects 1 Depth"); (92, str "Effects 2 Depth"); (93, str "Effects 3 Depth"); (94, str "Effects 4 Depth"); (95, str "Effects 5 Depth");
   (96, str "Data Increment"); (97, str "Data Decrement");
   (120, str "All Sound Off"); (121, str "Reset All Controllers"); (122, str "Local Control"); (123, str "All Notes Off");
   (124, str "Omni Mode Off"); (125, str "Omni Mode On"); (126, str "Mono Mode On"); (127, str "Poly Mode On")].

(** Pairs of which the least significant byte comes first *)
Definition parameter_numbers : list (Z * bytes) := [(98, str "Non-Registered Parameter Number"); (100, str "Registered Parameter Number")].

(** [controller_named id name]: what a controller of that number may be called; a number that is not assigned is unknown. *)
Inductive controller_named : Z -> bytes -> Prop :=
| cn_msb : forall id w, In (id, w) paired_controllers -> controller_named id (w ++ str " (MSB)")
| cn_lsb : forall id w, In (id, w) paired_controllers -> controller_named (id + 32) (w ++ str " (LSB)")
| cn_single : forall id w rest, In (id, w) single_controllers -> controller_named id (w ++ rest)
| cn_par_lsb : forall id w, In (id, w) parameter_numbers -> controller_named id (w ++ str " (LSB)")
| cn_par_msb : forall id w, In (id, w) parameter_numbers -> controller_named (id + 1) (w ++ str " (MSB)")
| cn_free : forall id, ~ In id (map fst paired_controllers) -> ~ In (id - 32) (map fst paired_controllers) -> ~ In id (map fst single_controllers) ->
    ~ In id (map fst parameter_numbers) -> ~ In (id - 1) (map fst parameter_numbers) -> controller_named id (str "<unknown>").

(** The regions the MIDI association has split the manufacturer IDs into: by the first byte, of the IDs that start with 00 by the second one *)
Inductive region_of : bytes -> bytes -> Prop :=
| ro_american : forall a, 1 <= a < 32 -> region_of [a] (str "American")
| ro_european : forall a, 32 <= a < 64 -> region_of [a] (str "European")
| ro_japanese : forall a, 64 <= a < 96 -> region_of [a] (str "Japanese")
| ro_special : forall a, 125 <= a < 128 -> region_of [a] (str "Special Purpose")
| ro_american3 : forall b c, 0 <= b < 32 -> region_of [0; b; c] (str "American")
| ro_european3 : forall b c, 32 <= b < 64 -> region_of [0; b; c] (str "European")
| ro_japanese3 : forall b c, 64 <= b < 96 -> region_of [0; b; c] (str "Japanese").

(** Some of the IDs the MIDI association has given away, with the words that tell the owner *)
Definition owners : list (bytes * bytes) :=
  [([1], str "Sequential"); ([4], str "Moog"); ([5], str "Passport"); ([6], str "Lexicon"); ([7], str "Kurzweil"); ([8], str "Fender"); ([10], str "AKG"); ([15], str "Ensoniq");
   ([16], str "Oberheim"); ([17], str "Apple"); ([19], str "Digidesign"); ([24], str "Emu"); ([26], str "ART"); ([28], str "Eventide");
   ([34], str "Synthaxe"); ([36], str "Hohner"); ([41], str "PPG"); ([43], str "SSL"); ([45], str "Hinton"); ([47], str "Elka"); ([48], str "Dynacord"); ([51], str "Clavia");
   ([54], str "Cheetah"); ([62], str "Waldorf");
   ([64], str "Kawai"); ([65], str "Roland"); ([66], str "Korg"); ([67], str "Yamaha"); ([68], str "Casio"); ([71], str "Akai"); ([72], str "JVC"); ([76], str "Sony");
   ([78], str "Teac"); ([81], str "Fostex"); ([82], str "Zoom");
   ([125], str "Non-Commercial"); ([126], str "Non-RealTime"); ([127], str "RealTime");
   ([0; 0; 7], str "Digital Music"); ([0; 0; 9], str "New England Digital"); ([0; 0; 14], str "Alesis"); ([0; 0; 21], str "KAT"); ([0; 0; 22], str "Opcode");
   ([0; 0; 26], str "Allen & Heath"); ([0; 0; 27], str "Peavey"); ([0; 0; 28], str "360 Systems"); ([0; 0; 31], str "Zeta"); ([0; 0; 32], str "Axxes");
   ([0; 0; 59], str "Mark Of The Unicorn"); ([0; 0; 77], str "Studio Electronics"); ([0; 0; 80], str "MIDI Solutions"); ([0; 1; 55], str "Roger Linn");
   ([0; 1; 114], str "Kilpatrick"); ([0; 1; 115], str "iConnectivity"); ([0; 2; 20], str "Intellijel");
   ([0; 32; 17], str "Forefront"); ([0; 32; 19], str "Kenton"); ([0; 32; 31], str "TC Electronic"); ([0; 32; 32], str "Doepfer"); ([0; 32; 39], str "Acorn");
   ([0; 32; 41], str "Novation"); ([0; 32; 50], str "Behringer"); ([0; 32; 51], str "Access"); ([0; 32; 60], str "Elektron"); ([0; 32; 77], str "Vermona");
   ([0; 32; 82], str "Analogue Systems"); ([0; 32; 105], str "Elby"); ([0; 32; 107], str "Arturia"); ([0; 32; 118], str "Teenage Engineering");
   ([0; 33; 2], str "Mutable"); ([0; 33; 9], str "Native Instruments"); ([0; 33; 16], str "ROLI"); ([0; 33; 26], str "IK Multimedia"); ([0; 33; 28], str "Modor");
   ([0; 33; 29], str "Ableton"); ([0; 33; 39], str "Expert Sleepers")].

(** [w] occurs in [s]. *)
Definition tells (s w : bytes) : Prop := exists before rest, s = before ++ w ++ rest.

(** What may be said about the manufacturer with the ID [id] *)
Definition manufacturer_named (id region name : bytes) : Prop :=
  (region = str "<unknown>" /\ name = str "<unknown>" /\ ~ In id (map fst owners)) \/
  (region_of id region /\ exists w, In (id, w) owners /\ tells name w).

(** The name of the controller and the region of the manufacturer in an event *)
Definition numbered (b : body) : Prop :=
  match b with
  | Controller _ c _ => controller_named (c_id c) (c_name c)
  | SysExMessage m _ _ | SequencerSpecific m _ => m_region m = str "<unknown>" \/ region_of (m_id m) (m_region m)
  | _ => True
  end.
