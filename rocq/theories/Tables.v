(** * Tables: the constant tables of midi/lib and midi/context, transcribed entry by entry. *)
From Verif Require Import Base.

(** midi/lib/note.go:7-10 [Note] of package lib (pitch class and name); named [pitch] here, because
    midi/events/midi has its own [Note]. *)
Record pitch := Pitch { p_ord : Z; p_name : bytes }.

(** midi/lib/note.go:50-53 *)
Definition n_C : pitch := Pitch 0 (str "C").
(** midi/lib/note.go:55-58 *)
Definition n_C_SHARP : pitch := Pitch 1 (str "C♯").
(** midi/lib/note.go:60-63 *)
Definition n_D_FLAT : pitch := Pitch 1 (str "D♭").
(** midi/lib/note.go:65-68 *)
Definition n_D : pitch := Pitch 2 (str "D").
(** midi/lib/note.go:70-73 *)
Definition n_D_SHARP : pitch := Pitch 3 (str "D♯").
(** midi/lib/note.go:75-78 *)
Definition n_E_FLAT : pitch := Pitch 3 (str "E♭").
(** midi/lib/note.go:80-83 *)
Definition n_E : pitch := Pitch 4 (str "E").
(** midi/lib/note.go:85-88 *)
Definition n_E_SHARP : pitch := Pitch 5 (str "E♯").
(** midi/lib/note.go:90-93 *)
Definition n_F_FLAT : pitch := Pitch 4 (str "F♭").
(** midi/lib/note.go:95-98 *)
Definition n_F : pitch := Pitch 5 (str "F").
(** midi/lib/note.go:100-103 *)
Definition n_F_SHARP : pitch := Pitch 6 (str "F♯").
(** midi/lib/note.go:105-108 *)
Definition n_G_FLAT : pitch := Pitch 6 (str "G♭").
(** midi/lib/note.go:110-113 *)
Definition n_G : pitch := Pitch 7 (str "G").
(** midi/lib/note.go:115-118 *)
Definition n_G_SHARP : pitch := Pitch 8 (str "G♯").
(** midi/lib/note.go:120-123 *)
Definition n_A_FLAT : pitch := Pitch 8 (str "A♭").
(** midi/lib/note.go:125-128 *)
Definition n_A : pitch := Pitch 9 (str "A").
(** midi/lib/note.go:130-133 *)
Definition n_A_SHARP : pitch := Pitch 10 (str "A♯").
(** midi/lib/note.go:135-138 *)
Definition n_B_FLAT : pitch := Pitch 10 (str "B♭").
(** midi/lib/note.go:140-143 *)
Definition n_B : pitch := Pitch 11 (str "B").
(** midi/lib/note.go:145-148 *)
Definition n_B_SHARP : pitch := Pitch 0 (str "B♯").
(** midi/lib/note.go:150-153 *)
Definition n_C_FLAT : pitch := Pitch 11 (str "C♭").

(** midi/lib/note.go:26-48 [Notes] *)
Definition lib_notes : list pitch :=
  [n_C; n_C_SHARP; n_D_FLAT; n_D; n_D_SHARP; n_E_FLAT; n_E; n_E_SHARP; n_F_FLAT; n_F; n_F_SHARP; n_G_FLAT; n_G; n_G_SHARP; n_A_FLAT; n_A; n_A_SHARP; n_B_FLAT; n_B; n_B_SHARP; n_C_FLAT].

(** midi/lib/scales.go:9-41 [ScaleID] constants: only compared for equality in [Scale.Transpose];
    represented by their iota values. *)
Definition scale_ids : list (Z * string) :=
  [(0, "CMajor"%string); (1, "GMajor"%string); (2, "DMajor"%string); (3, "AMajor"%string); (4, "EMajor"%string); (5, "BMajor"%string); (6, "FSharpMajor"%string); (7, "CSharpMajor"%string); (8, "FMajor"%string); (9, "BFlatMajor"%string); (10, "EFlatMajor"%string); (11, "AFlatMajor"%string); (12, "DFlatMajor"%string); (13, "GFlatMajor"%string); (14, "CFlatMajor"%string); (15, "AMinor"%string); (16, "EMinor"%string); (17, "BMinor"%string); (18, "ASharpMinor"%string); (19, "DSharpMinor"%string); (20, "GSharpMinor"%string); (21, "CSharpMinor"%string); (22, "FSharpMinor"%string); (23, "DMinor"%string); (24, "GMinor"%string); (25, "CMinor"%string); (26, "FMinor"%string); (27, "BFlatMinor"%string); (28, "EFlatMinor"%string); (29, "AFlatMinor"%string)].

(** midi/lib/scales.go:43-49 [Scale] (Type: 0 = Major, 1 = Minor, midi/lib/scales.go:51-56). *)
Record scale := Scale { s_id : Z; s_name : bytes; s_acc : Z; s_type : Z; s_notes : list pitch }.
(** midi/lib/scales.go:198-204 *)
Definition C_MAJOR : scale := Scale 0 (str "C major") 0 0
  [n_C; n_D; n_E; n_F; n_G; n_A; n_B].
(** midi/lib/scales.go:206-212 *)
Definition G_MAJOR : scale := Scale 1 (str "G major") 1 0
  [n_G; n_A; n_B; n_C; n_D; n_E; n_F_SHARP].
(** midi/lib/scales.go:214-220 *)
Definition D_MAJOR : scale := Scale 2 (str "D major") 2 0
  [n_D; n_E; n_F_SHARP; n_G; n_A; n_B; n_C_SHARP].
(** midi/lib/scales.go:222-228 *)
Definition A_MAJOR : scale := Scale 3 (str "A major") 3 0
  [n_A; n_B; n_C_SHARP; n_D; n_E; n_F_SHARP; n_G_SHARP].
(** midi/lib/scales.go:230-236 *)
Definition E_MAJOR : scale := Scale 4 (str "E major") 4 0
  [n_E; n_F_SHARP; n_G_SHARP; n_A; n_B; n_C_SHARP; n_D_SHARP].
(** midi/lib/scales.go:239-245 *)
Definition B_MAJOR : scale := Scale 5 (str "B major") 5 0
  [n_B; n_C_SHARP; n_D_SHARP; n_E; n_F_SHARP; n_G_SHARP; n_A_SHARP].
(** midi/lib/scales.go:248-254 *)
Definition F_SHARP_MAJOR : scale := Scale 6 (str "F♯ major") 6 0
  [n_F_SHARP; n_G_SHARP; n_A_SHARP; n_B; n_C_SHARP; n_D_SHARP; n_E_SHARP].
(** midi/lib/scales.go:257-263 *)
Definition C_SHARP_MAJOR : scale := Scale 7 (str "C♯ major") 7 0
  [n_C_SHARP; n_D_SHARP; n_E_SHARP; n_F_SHARP; n_G_SHARP; n_A_SHARP; n_B_SHARP].
(** midi/lib/scales.go:265-271 *)
Definition F_MAJOR : scale := Scale 8 (str "F major") (-1) 0
  [n_F; n_G; n_A; n_B_FLAT; n_C; n_D; n_E].
(** midi/lib/scales.go:273-279 *)
Definition B_FLAT_MAJOR : scale := Scale 9 (str "B♭ major") (-2) 0
  [n_B_FLAT; n_C; n_D; n_E_FLAT; n_F; n_G; n_A].
(** midi/lib/scales.go:281-287 *)
Definition E_FLAT_MAJOR : scale := Scale 10 (str "E♭ major") (-3) 0
  [n_E_FLAT; n_F; n_G; n_A_FLAT; n_B_FLAT; n_C; n_D].
(** midi/lib/scales.go:289-295 *)
Definition A_FLAT_MAJOR : scale := Scale 11 (str "A♭ major") (-4) 0
  [n_A_FLAT; n_B_FLAT; n_C; n_D_FLAT; n_E_FLAT; n_F; n_G].
(** midi/lib/scales.go:298-304 *)
Definition D_FLAT_MAJOR : scale := Scale 12 (str "D♭ major") (-5) 0
  [n_D_FLAT; n_E_FLAT; n_F; n_G_FLAT; n_A_FLAT; n_B_FLAT; n_C].
(** midi/lib/scales.go:307-313 *)
Definition G_FLAT_MAJOR : scale := Scale 13 (str "G♭ major") (-6) 0
  [n_G_FLAT; n_A_FLAT; n_B_FLAT; n_C_FLAT; n_D_FLAT; n_E_FLAT; n_F].
(** midi/lib/scales.go:316-322 *)
Definition C_FLAT_MAJOR : scale := Scale 14 (str "C♭ major") (-7) 0
  [n_C_FLAT; n_D_FLAT; n_E_FLAT; n_F_FLAT; n_G_FLAT; n_A_FLAT; n_B_FLAT].
(** midi/lib/scales.go:326-332 *)
Definition A_MINOR : scale := Scale 15 (str "A minor") 0 1
  [n_A; n_B; n_C; n_D; n_E; n_F; n_G].
(** midi/lib/scales.go:334-340 *)
Definition E_MINOR : scale := Scale 16 (str "E minor") 1 1
  [n_E; n_F_SHARP; n_G; n_A; n_B; n_C; n_D].
(** midi/lib/scales.go:342-348 *)
Definition B_MINOR : scale := Scale 17 (str "B minor") 2 1
  [n_B; n_C_SHARP; n_D; n_E; n_F_SHARP; n_G; n_A].
(** midi/lib/scales.go:350-356 *)
Definition F_SHARP_MINOR : scale := Scale 22 (str "F♯ minor") 3 1
  [n_F_SHARP; n_G_SHARP; n_A; n_B; n_C_SHARP; n_D; n_E].
(** midi/lib/scales.go:358-364 *)
Definition C_SHARP_MINOR : scale := Scale 21 (str "C♯ minor") 4 1
  [n_C_SHARP; n_D_SHARP; n_E; n_F_SHARP; n_G_SHARP; n_A; n_B].
(** midi/lib/scales.go:366-372 *)
Definition G_SHARP_MINOR : scale := Scale 20 (str "G♯ minor") 5 1
  [n_G_SHARP; n_A_SHARP; n_B; n_C_SHARP; n_D_SHARP; n_E; n_F_SHARP].
(** midi/lib/scales.go:375-381 *)
Definition D_SHARP_MINOR : scale := Scale 19 (str "D♯ minor") 6 1
  [n_D_SHARP; n_E_SHARP; n_F_SHARP; n_G_SHARP; n_A_SHARP; n_B; n_C_SHARP].
(** midi/lib/scales.go:384-390 *)
Definition A_SHARP_MINOR : scale := Scale 18 (str "A♯ minor") 7 1
  [n_A_SHARP; n_B_SHARP; n_C_SHARP; n_D_SHARP; n_E_SHARP; n_F_SHARP; n_G_SHARP].
(** midi/lib/scales.go:392-398 *)
Definition D_MINOR : scale := Scale 23 (str "D minor") (-1) 1
  [n_D; n_E; n_F; n_G; n_A; n_B_FLAT; n_C].
(** midi/lib/scales.go:400-406 *)
Definition G_MINOR : scale := Scale 24 (str "G minor") (-2) 1
  [n_G; n_A; n_B_FLAT; n_C; n_D; n_E_FLAT; n_F].
(** midi/lib/scales.go:408-414 *)
Definition C_MINOR : scale := Scale 25 (str "C minor") (-3) 1
  [n_C; n_D; n_E_FLAT; n_F; n_G; n_A_FLAT; n_B_FLAT].
(** midi/lib/scales.go:416-422 *)
Definition F_MINOR : scale := Scale 26 (str "F minor") (-4) 1
  [n_F; n_G; n_A_FLAT; n_B_FLAT; n_C; n_D_FLAT; n_E_FLAT].
(** midi/lib/scales.go:425-431 *)
Definition B_FLAT_MINOR : scale := Scale 27 (str "B♭ minor") (-5) 1
  [n_B_FLAT; n_C; n_D_FLAT; n_E_FLAT; n_F; n_G_FLAT; n_A_FLAT].
(** midi/lib/scales.go:434-440 *)
Definition E_FLAT_MINOR : scale := Scale 28 (str "E♭ minor") (-6) 1
  [n_E_FLAT; n_F; n_G_FLAT; n_A_FLAT; n_B_FLAT; n_C_FLAT; n_D_FLAT].
(** midi/lib/scales.go:443-449 *)
Definition A_FLAT_MINOR : scale := Scale 29 (str "A♭ minor") (-7) 1
  [n_A_FLAT; n_B_FLAT; n_C_FLAT; n_D_FLAT; n_E_FLAT; n_F_FLAT; n_G_FLAT].
(** midi/lib/scales.go:159-175 *)
Definition MAJOR_SCALES : list scale :=
  [C_MAJOR; G_MAJOR; D_MAJOR; A_MAJOR; E_MAJOR; B_MAJOR; F_SHARP_MAJOR; C_SHARP_MAJOR; F_MAJOR; B_FLAT_MAJOR; E_FLAT_MAJOR; A_FLAT_MAJOR; D_FLAT_MAJOR; G_FLAT_MAJOR; C_FLAT_MAJOR].
(** midi/lib/scales.go:177-194 *)
Definition MINOR_SCALES : list scale :=
  [A_MINOR; E_MINOR; B_MINOR; A_SHARP_MINOR; D_SHARP_MINOR; G_SHARP_MINOR; C_SHARP_MINOR; F_SHARP_MINOR; D_MINOR; G_MINOR; C_MINOR; F_MINOR; B_FLAT_MINOR; E_FLAT_MINOR; A_FLAT_MINOR].
(** midi/lib/scales.go:135-137 [SCALE] *)
Definition SCALE : list pitch :=
  [n_C; n_C_SHARP; n_D; n_D_SHARP; n_E; n_F; n_F_SHARP; n_G; n_G_SHARP; n_A; n_A_SHARP; n_B].
(** midi/context/context.go:9-22 [Sharps] (a map from 0..11; index = key). *)
Definition Sharps : list bytes :=
  [str "C"; str "C♯"; str "D"; str "D♯"; str "E"; str "F"; str "F♯"; str "G"; str "G♯"; str "A"; str "A♯"; str "B"].
(** midi/context/context.go:24-37 [Flats] (a map from 0..11; index = key). *)
Definition Flats : list bytes :=
  [str "C"; str "D♭"; str "D"; str "E♭"; str "E"; str "F"; str "G♭"; str "G"; str "A♭"; str "A"; str "B♭"; str "B"].
(** midi/lib/controller.go:3-6 [Controller] *)
Record controller := MkController { c_id : Z; c_name : bytes }.
(** midi/lib/controller.go:18-103 [controllers] *)
Definition controllers : list (Z * controller) :=
  [(0, MkController 0 (str "Bank Select (MSB)"));
   (1, MkController 1 (str "Modulation Wheel (MSB)"));
   (2, MkController 2 (str "Breath Controller (MSB)"));
   (4, MkController 4 (str "Foot Controller (MSB)"));
   (5, MkController 5 (str "Portamento Time (MSB)"));
   (6, MkController 6 (str "Data Entry (MSB)"));
   (7, MkController 7 (str "Channel Volume (MSB)"));
   (8, MkController 8 (str "Balance (MSB)"));
   (10, MkController 10 (str "Pan (MSB)"));
   (11, MkController 11 (str "Expression Controller (MSB)"));
   (12, MkController 12 (str "Effect Control 1 (MSB)"));
   (13, MkController 13 (str "Effect Control 2 (MSB)"));
   (16, MkController 16 (str "General Purpose Controller 1 (MSB)"));
   (17, MkController 17 (str "General Purpose Controller 2 (MSB)"));
   (18, MkController 18 (str "General Purpose Controller 3 (MSB)"));
   (19, MkController 19 (str "General Purpose Controller 4 (MSB)"));
   (32, MkController 32 (str "Bank Select (LSB)"));
   (33, MkController 33 (str "Modulation Wheel (LSB)"));
   (34, MkController 34 (str "Breath Controller (LSB)"));
   (36, MkController 36 (str "Foot Controller (LSB)"));
   (37, MkController 37 (str "Portamento Time (LSB)"));
   (38, MkController 38 (str "Data Entry (LSB)"));
   (39, MkController 39 (str "Channel Volume (LSB)"));
   (40, MkController 40 (str "Balance (LSB)"));
   (42, MkController 42 (str "Pan (LSB)"));
   (43, MkController 43 (str "Expression Controller (LSB)"));
   (44, MkController 44 (str "Effect Control 1 (LSB)"));
   (45, MkController 45 (str "Effect Control 2 (LSB)"));
   (48, MkController 48 (str "General Purpose Controller 1 (LSB)"));
   (49, MkController 49 (str "General Purpose Controller 2 (LSB)"));
   (50, MkController 50 (str "General Purpose Controller 3 (LSB)"));
   (51, MkController 51 (str "General Purpose Controller 4 (LSB)"));
   (64, MkController 64 (str "Sustain On/Off"));
   (65, MkController 65 (str "Portamento On/Off"));
   (66, MkController 66 (str "Sostenuto On/Off"));
   (67, MkController 67 (str "Soft Pedal On/Off"));
   (68, MkController 68 (str "Legato On/Off"));
   (69, MkController 69 (str "Hold 2 On/Off"));
   (70, MkController 70 (str "Sound Controller 1  (TG: Sound Variation;  FX: Exciter On/Off)"));
   (71, MkController 71 (str "Sound Controller 2  (TG: Harmonic Content; FX: Compressor On/Off)"));
   (72, MkController 72 (str "Sound Controller 3  (TG: Release Time;     FX: Distortion On/Off)"));
   (73, MkController 73 (str "Sound Controller 4  (TG: Attack Time;      FX: EQ On/Off)"));
   (74, MkController 74 (str "Sound Controller 5  (TG: Brightness;       FX: Expander On/Off)"));
   (75, MkController 75 (str "Sound Controller 6  (TG: Decay Time;       FX: Reverb On/Off)"));
   (76, MkController 76 (str "Sound Controller 7  (TG: Vibrato Rate;     FX: Delay On/Off)"));
   (77, MkController 77 (str "Sound Controller 8  (TG: Vibrato Depth;    FX: Pitch Transpose On/Off)"));
   (78, MkController 78 (str "Sound Controller 9  (TG: Vibrato Delay;    FX: Flange/Chorus On/Off)"));
   (79, MkController 79 (str "Sound Controller 10 (TG: Undefined;        FX: Special Effects On/Off)"));
   (80, MkController 80 (str "General Purpose Controller 5"));
   (81, MkController 81 (str "General Purpose Controller 6"));
   (82, MkController 82 (str "General Purpose Controller 7"));
   (83, MkController 83 (str "General Purpose Controller 8"));
   (84, MkController 84 (str "Portamento Control"));
   (88, MkController 88 (str "High Resolution Velocity Prefix"));
   (91, MkController 91 (str "Effects 1 Depth (Reverb Send Level)"));
   (92, MkController 92 (str "Effects 2 Depth (Tremelo Depth)"));
   (93, MkController 93 (str "Effects 3 Depth (Chorus Send Level)"));
   (94, MkController 94 (str "Effects 4 Depth (Celeste Depth)"));
   (95, MkController 95 (str "Effects 5 Depth (Phaser Depth)"));
   (96, MkController 96 (str "Data Increment"));
   (97, MkController 97 (str "Data Decrement"));
   (98, MkController 98 (str "Non-Registered Parameter Number (LSB)"));
   (99, MkController 99 (str "Non-Registered Parameter Number (MSB)"));
   (100, MkController 100 (str "Registered Parameter Number (LSB)"));
   (101, MkController 101 (str "Registered Parameter Number (MSB)"));
   (120, MkController 120 (str "All Sound Off"));
   (121, MkController 121 (str "Reset All Controllers"));
   (122, MkController 122 (str "Local Control On/Off"));
   (123, MkController 123 (str "All Notes Off"));
   (124, MkController 124 (str "Omni Mode Off"));
   (125, MkController 125 (str "Omni Mode On "));
   (126, MkController 126 (str "Mono Mode On"));
   (127, MkController 127 (str "Poly Mode On"))].
(** midi/lib/manufacturer.go:11-15 [Manufacturer] *)
Record manufacturer := Manufacturer { m_id : bytes; m_region : bytes; m_name : bytes }.
(** midi/lib/manufacturer.go:152-241 [manufacturers] (the built-in table). *)
Definition manufacturers : list (bytes * manufacturer) :=
  [(str "7D", Manufacturer [125] (str "Special Purpose") (str "Non-Commercial"));
   (str "7E", Manufacturer [126] (str "Special Purpose") (str "Non-RealTime Extensions"));
   (str "7F", Manufacturer [126] (str "Special Purpose") (str "RealTime Extensions"));
   (str "01", Manufacturer [1] (str "American") (str "Sequential Circuits"));
   (str "04", Manufacturer [4] (str "American") (str "Moog"));
   (str "05", Manufacturer [5] (str "American") (str "Passport Designs"));
   (str "06", Manufacturer [6] (str "American") (str "Lexicon"));
   (str "07", Manufacturer [7] (str "American") (str "Kurzweil"));
   (str "08", Manufacturer [8] (str "American") (str "Fender"));
   (str "0A", Manufacturer [10] (str "American") (str "AKG Acoustics"));
   (str "0F", Manufacturer [15] (str "American") (str "Ensoniq"));
   (str "10", Manufacturer [16] (str "American") (str "Oberheim"));
   (str "11", Manufacturer [17] (str "American") (str "Apple"));
   (str "13", Manufacturer [19] (str "American") (str "Digidesign"));
   (str "18", Manufacturer [24] (str "American") (str "Emu"));
   (str "1A", Manufacturer [26] (str "American") (str "ART"));
   (str "1C", Manufacturer [28] (str "American") (str "Eventide"));
   (str "22", Manufacturer [34] (str "European") (str "Synthaxe"));
   (str "24", Manufacturer [36] (str "European") (str "Hohner"));
   (str "29", Manufacturer [41] (str "European") (str "PPG"));
   (str "2B", Manufacturer [43] (str "European") (str "SSL"));
   (str "2D", Manufacturer [45] (str "European") (str "Hinton Instruments"));
   (str "2F", Manufacturer [47] (str "European") (str "Elka / General Music"));
   (str "30", Manufacturer [48] (str "European") (str "Dynacord"));
   (str "33", Manufacturer [51] (str "European") (str "Clavia (Nord)"));
   (str "36", Manufacturer [54] (str "European") (str "Cheetah"));
   (str "3E", Manufacturer [62] (str "European") (str "Waldorf Electronics Gmbh"));
   (str "40", Manufacturer [64] (str "Japanese") (str "Kawai"));
   (str "41", Manufacturer [65] (str "Japanese") (str "Roland"));
   (str "42", Manufacturer [66] (str "Japanese") (str "Korg"));
   (str "43", Manufacturer [67] (str "Japanese") (str "Yamaha"));
   (str "44", Manufacturer [68] (str "Japanese") (str "Casio"));
   (str "47", Manufacturer [71] (str "Japanese") (str "Akai"));
   (str "48", Manufacturer [72] (str "Japanese") (str "Japan Victor (JVC)"));
   (str "4C", Manufacturer [76] (str "Japanese") (str "Sony"));
   (str "4E", Manufacturer [78] (str "Japanese") (str "Teac Corporation"));
   (str "51", Manufacturer [81] (str "Japanese") (str "Fostex"));
   (str "52", Manufacturer [82] (str "Japanese") (str "Zoom"));
   (str "0007", Manufacturer [0; 0; 7] (str "American") (str "Digital Music Corporation"));
   (str "0009", Manufacturer [0; 0; 9] (str "American") (str "New England Digital"));
   (str "000E", Manufacturer [0; 0; 14] (str "American") (str "Alesis"));
   (str "0015", Manufacturer [0; 0; 21] (str "American") (str "KAT"));
   (str "0016", Manufacturer [0; 0; 22] (str "American") (str "Opcode"));
   (str "001A", Manufacturer [0; 0; 26] (str "American") (str "Allen & Heath Brenell"));
   (str "001B", Manufacturer [0; 0; 27] (str "American") (str "Peavey Electronics"));
   (str "001C", Manufacturer [0; 0; 28] (str "American") (str "360 Systems"));
   (str "001F", Manufacturer [0; 0; 31] (str "American") (str "Zeta Systems"));
   (str "0020", Manufacturer [0; 0; 32] (str "American") (str "Axxes"));
   (str "003B", Manufacturer [0; 0; 59] (str "American") (str "Mark Of The Unicorn (MOTU)"));
   (str "004D", Manufacturer [0; 0; 77] (str "American") (str "Studio Electronics"));
   (str "0050", Manufacturer [0; 0; 80] (str "American") (str "MIDI Solutions Inc"));
   (str "0137", Manufacturer [0; 1; 55] (str "American") (str "Roger Linn Design"));
   (str "0172", Manufacturer [0; 1; 114] (str "American") (str "Kilpatrick Audio"));
   (str "0173", Manufacturer [0; 1; 115] (str "American") (str "iConnectivity"));
   (str "0214", Manufacturer [0; 2; 20] (str "American") (str "Intellijel Designs Inc"));
   (str "2011", Manufacturer [0; 32; 17] (str "European") (str "Forefront Technology"));
   (str "2013", Manufacturer [0; 32; 19] (str "European") (str "Kenton Electronics"));
   (str "201F", Manufacturer [0; 32; 31] (str "European") (str "TC Electronic"));
   (str "2020", Manufacturer [0; 32; 32] (str "European") (str "Doepfer"));
   (str "2027", Manufacturer [0; 32; 39] (str "European") (str "Acorn Computer"));
   (str "2029", Manufacturer [0; 32; 41] (str "European") (str "Focusrite / Novation"));
   (str "2032", Manufacturer [0; 32; 50] (str "European") (str "Behringer"));
   (str "2033", Manufacturer [0; 32; 51] (str "European") (str "Access Music Electronics"));
   (str "203C", Manufacturer [0; 32; 60] (str "European") (str "Elektron"));
   (str "204D", Manufacturer [0; 32; 77] (str "European") (str "Vermona"));
   (str "2052", Manufacturer [0; 32; 82] (str "European") (str "Analogue Systems"));
   (str "2069", Manufacturer [0; 32; 105] (str "European") (str "Elby Designs"));
   (str "206B", Manufacturer [0; 32; 107] (str "European") (str "Arturia"));
   (str "2076", Manufacturer [0; 32; 118] (str "European") (str "Teenage Engineering"));
   (str "2102", Manufacturer [0; 33; 2] (str "European") (str "Mutable Instruments"));
   (str "2109", Manufacturer [0; 33; 9] (str "European") (str "Native Instruments"));
   (str "2110", Manufacturer [0; 33; 16] (str "European") (str "ROLI Ltd"));
   (str "211A", Manufacturer [0; 33; 26] (str "European") (str "IK Multimedia"));
   (str "211C", Manufacturer [0; 33; 28] (str "European") (str "Modor Music"));
   (str "211D", Manufacturer [0; 33; 29] (str "European") (str "Ableton"));
   (str "2127", Manufacturer [0; 33; 39] (str "European") (str "Expert Sleepers"))].
