(** * Reference: the files that the project's own tests use, copied byte for byte. *)
From Verif Require Import Base Strings.
From Coq Require Import String.

(** Texts: lines, each ended by a line feed. *)
Definition text_lines (l : list string) : bytes := flat_map (fun s => str s ++ [10]) l.

(** ops/assemble/test-files/reference.mid, commands/test-files/reference.mid *)
Definition assembled_reference : bytes :=
  [77; 84; 104; 100; 0; 0; 0; 6; 0; 1; 0; 2; 1; 224; 77; 84; 114; 107; 0; 0; 0; 43; 0; 255;
   3; 11; 82; 101; 102; 101; 114; 101; 110; 99; 101; 45; 49; 0; 255; 81; 3; 7; 161; 32; 0; 255; 88; 4;
   4; 2; 24; 8; 0; 255; 84; 5; 45; 45; 59; 7; 39; 0; 255; 47; 0; 77; 84; 114; 107; 0; 0; 0;
   241; 0; 255; 0; 2; 0; 23; 0; 255; 1; 13; 84; 104; 105; 115; 32; 97; 110; 100; 32; 84; 104; 97; 116;
   0; 255; 2; 4; 84; 104; 101; 109; 0; 255; 3; 15; 65; 99; 111; 117; 115; 116; 105; 99; 32; 71; 117; 105;
   116; 97; 114; 0; 255; 4; 10; 68; 105; 100; 103; 101; 114; 105; 100; 111; 111; 0; 255; 5; 8; 76; 97; 45;
   108; 97; 45; 108; 97; 0; 255; 6; 15; 72; 101; 114; 101; 32; 66; 101; 32; 68; 114; 97; 103; 111; 110; 115;
   0; 255; 7; 12; 77; 111; 114; 101; 32; 99; 111; 119; 98; 101; 108; 108; 0; 255; 8; 6; 69; 115; 99; 97;
   112; 101; 0; 255; 9; 8; 84; 104; 101; 84; 104; 105; 110; 103; 0; 255; 32; 1; 13; 0; 255; 33; 1; 112;
   0; 255; 89; 2; 0; 1; 0; 255; 127; 6; 0; 0; 59; 58; 76; 94; 0; 176; 0; 5; 0; 176; 32; 33;
   0; 192; 25; 0; 176; 101; 0; 0; 160; 100; 0; 208; 7; 0; 144; 48; 72; 0; 146; 49; 72; 0; 48; 100;
   129; 112; 224; 0; 8; 131; 96; 128; 48; 64; 0; 240; 5; 126; 0; 9; 1; 247; 0; 240; 3; 67; 18; 0;
   129; 72; 247; 6; 67; 18; 0; 67; 18; 0; 100; 247; 4; 67; 18; 0; 247; 0; 247; 2; 243; 1; 0; 255;
   47; 0].

(** ops/assemble/test-files/reference.txt *)
Definition assemble_reference : bytes :=
  text_lines
  ["4D 54 68 64 00 00 00 06 00 01 00 01 01 E0   MThd length:6, format:1, tracks:0, metrical time:480 ppqn";
   "";
   "4D 54 72 6B 00 00 00 29…                    MTrk 0  length:41";
   "      00 FF 03 09 45 78 61 6D 70 6C 65 20…  tick:0          delta:0          03 TrackName              Reference-1";
   "      00 FF 51 03 07 A1 20                  tick:0          delta:0          51 Tempo                  tempo:500000";
   "      00 FF 58 04 04 02 18 08               tick:0          delta:0          58 TimeSignature          4/4, 24 ticks per click, 8/32 per quarter";
   "      00 FF 54 05 4D 2D 3B 07 27            tick:0          delta:0          54 SMPTEOffset            13 45 59 25 7 39";
   "      00 FF 2F 00                           tick:0          delta:0          2F EndOfTrack";
   "";
   "4D 54 72 6B 00 00 00 F1…                    MTrk 1  length:241";
   "      00 FF 00 02 00 17                     tick:0          delta:0          00 SequenceNumber         23";
   "      00 FF 01 0D 54 68 69 73 20 61 6E 64…  tick:0          delta:0          01 Text                   This and That";
   "      00 FF 02 04 54 68 65 6D               tick:0          delta:0          02 Copyright              Them";
   "      00 FF 03 0F 41 63 6F 75 73 74 69 63…  tick:0          delta:0          03 TrackName              Acoustic Guitar";
   "      00 FF 04 0A 44 69 64 67 65 72 69 64…  tick:0          delta:0          04 InstrumentName         Didgeridoo";
   "      00 FF 05 08 4C 61 2D 6C 61 2D 6C 61   tick:0          delta:0          05 Lyric                  La-la-la";
   "      00 FF 06 0F 48 65 72 65 20 42 65 20…  tick:0          delta:0          06 Marker                 Here Be Dragons";
   "      00 FF 07 0C 4D 6F 72 65 20 63 6F 77…  tick:0          delta:0          07 CuePoint               More cowbell";
   "      00 FF 08 06 45 73 63 61 70 65         tick:0          delta:0          08 ProgramName            Escape";
   "      00 FF 09 08 54 68 65 54 68 69 6E 67   tick:0          delta:0          09 DeviceName             TheThing";
   "      00 FF 20 01 0D                        tick:0          delta:0          20 MIDIChannelPrefix      13";
   "      00 FF 21 01 70                        tick:0          delta:0          21 MIDIPort               112";
   "      00 FF 59 02 00 01                     tick:0          delta:0          59 KeySignature           A minor";
   "      00 FF 7F 06 00 00 3B 3A 4C 5E         tick:0          delta:0          7F SequencerSpecificEvent Mark Of The Unicorn (MOTU), 3A 4C 5E";
   "      00 B0 00 05                           tick:0          delta:0          B0 Controller             channel:0  0/Bank Select (MSB), value:5";
   "      00 B0 20 21                           tick:0          delta:0          B0 Controller             channel:0  32/Bank Select (LSB), value:33";
   "      00 C0 19                              tick:0          delta:0          C0 ProgramChange          channel:0  bank:673, program:25";
   "      00 B0 65 00                           tick:0          delta:0          B0 Controller             channel:0  101/Registered Parameter Number (MSB), value:0";
   "      00 A0 64                              tick:0          delta:0          A0 PolyphonicPressure     channel:0  pressure:100";
   "      00 D0 07                              tick:0          delta:0          D0 ChannelPressure        channel:0  pressure:7";
   "      00 90 30 48                           tick:0          delta:0          90 NoteOn                 channel:0  note:C3, velocity:72";
   "      00 92 31 48                           tick:0          delta:0          92 NoteOn                 channel:2  note:C♯3, velocity:72";
   "      00 30 64                              tick:0          delta:0          92 NoteOn                 channel:2  note:C3, velocity:100";
   "   81 70 E0 00 08                           tick:240        delta:240        E0 PitchBend              channel:0  bend:8";
   "   83 60 80 30 40                           tick:720        delta:480        80 NoteOff                channel:0  note:C3, velocity:64";
   "      00 F0 05 7E 00 09 01 F7               tick:720        delta:0          F0 SysExMessage           Non-RealTime Extensions, 00 09 01";
   "      00 F0 03 43 12 00                     tick:720        delta:0          F0 SysExMessage           Yamaha, 12 00";
   "   81 48 F7 06 43 12 00 43 12 00            tick:920        delta:200        F7 SysExContinuation      43 12 00 43 12 00";
   "      64 F7 04 43 12 00 F7                  tick:1020       delta:100        F7 SysExContinuation      43 12 00";
   "      00 F7 02 F3 01                        tick:1020       delta:0          F7 SysExEscape            F3 01";
   "      00 FF 2F 00                           tick:1020       delta:0          2F EndOfTrack"]%string.

(** ops/assemble/test-files/reference.json *)
Definition json_reference : bytes :=
  text_lines
  ["{";
   "  ""header"": {";
   "    ""Tag"": ""MThd"",";
   "    ""Length"": 6,";
   "    ""Format"": 1,";
   "    ""Tracks"": 2,";
   "    ""Division"": 480,";
   "    ""PPQN"": 480,";
   "    ""SMPTETimeCode"": false,";
   "    ""SubFrames"": 0,";
   "    ""FPS"": 0,";
   "    ""DropFrame"": false";
   "  },";
   "  ""tracks"": [";
   "    {";
   "      ""tag"": ""MTrk"",";
   "      ""track-number"": 0,";
   "      ""events"": [";
   "        {";
   "          ""event"": {";
   "            ""tag"": ""TrackName"",";
   "            ""delta"": 0,";
   "            ""status"": 255,";
   "            ""type"": 3,";
   "            ""name"": ""Reference-1""";
   "          }";
   "        },";
   "        {";
   "          ""event"": {";
   "            ""tag"": ""Tempo"",";
   "            ""delta"": 0,";
   "            ""status"": 255,";
   "            ""type"": 81,";
   "            ""tempo"": 500000";
   "          }";
   "        },";
   "        {";
   "          ""event"": {";
   "            ""tag"": ""TimeSignature"",";
   "            ""delta"": 0,";
   "            ""status"": 255,";
   "            ""type"": 88,";
   "            ""numerator"": 4,";
   "            ""denominator"": 4,";
   "            ""ticks-per-click"": 24,";
   "            ""thirty-seconds-per-quarter"": 8";
   "          }";
   "        },";
   "        {";
   "          ""event"": {";
   "            ""tag"": ""SMPTEOffset"",";
   "            ""delta"": 0,";
   "            ""status"": 255,";
   "            ""type"": 84,";
   "            ""hour"": 13,";
   "            ""minute"": 45,";
   "            ""second"": 59,";
   "            ""frame-rate"": 25,";
   "            ""frames"": 7,";
   "            ""fractional-frames"": 39";
   "          }";
   "        },";
   "        {";
   "          ""event"": {";
   "            ""tag"": ""EndOfTrack"",";
   "            ""delta"": 0,";
   "            ""status"": 255,";
   "            ""type"": 47";
   "          }";
   "        }";
   "      ]";
   "    },";
   "    {";
   "      ""tag"": ""MTrk"",";
   "      ""track-number"": 1,";
   "      ""events"": [";
   "        {";
   "          ""event"": {";
   "            ""tag"": ""SequenceNumber"",";
   "            ""delta"": 0,";
   "            ""status"": 255,";
   "            ""type"": 0,";
   "            ""sequence-number"": 23";
   "          }";
   "        },";
   "        {";
   "          ""event"": {";
   "            ""tag"": ""Text"",";
   "            ""delta"": 0,";
   "            ""status"": 255,";
   "            ""type"": 1,";
   "            ""text"": ""This and That""";
   "          }";
   "        },";
   "        {";
   "          ""event"": {";
   "            ""tag"": ""Copyright"",";
   "            ""delta"": 0,";
   "            ""status"": 255,";
   "            ""type"": 2,";
   "            ""copyright"": ""Them""";
   "          }";
   "        },";
   "        {";
   "          ""event"": {";
   "            ""tag"": ""TrackName"",";
   "            ""delta"": 0,";
   "            ""status"": 255,";
   "            ""type"": 3,";
   "            ""name"": ""Acoustic Guitar""";
   "          }";
   "        },";
   "        {";
   "          ""event"": {";
   "            ""tag"": ""InstrumentName"",";
   "            ""delta"": 0,";
   "            ""status"": 255,";
   "            ""type"": 4,";
   "            ""name"": ""Didgeridoo""";
   "          }";
   "        },";
   "        {";
   "          ""event"": {";
   "            ""tag"": ""Lyric"",";
   "            ""delta"": 0,";
   "            ""status"": 255,";
   "            ""type"": 5,";
   "            ""lyric"": ""La-la-la""";
   "          }";
   "        },";
   "        {";
   "          ""event"": {";
   "            ""tag"": ""Marker"",";
   "            ""delta"": 0,";
   "            ""status"": 255,";
   "            ""type"": 6,";
   "            ""marker"": ""Here Be Dragons""";
   "          }";
   "        },";
   "        {";
   "          ""event"": {";
   "            ""tag"": ""CuePoint"",";
   "            ""delta"": 0,";
   "            ""status"": 255,";
   "            ""type"": 7,";
   "            ""cuepoint"": ""More cowbell""";
   "          }";
   "        },";
   "        {";
   "          ""event"": {";
   "            ""tag"": ""ProgramName"",";
   "            ""delta"": 0,";
   "            ""status"": 255,";
   "            ""type"": 8,";
   "            ""name"": ""Escape""";
   "          }";
   "        },";
   "        {";
   "          ""event"": {";
   "            ""tag"": ""DeviceName"",";
   "            ""delta"": 0,";
   "            ""status"": 255,";
   "            ""type"": 9,";
   "            ""name"": ""TheThing""";
   "          }";
   "        },";
   "        {";
   "          ""event"": {";
   "            ""tag"": ""MIDIChannelPrefix"",";
   "            ""delta"": 0,";
   "            ""status"": 255,";
   "            ""type"": 32,";
   "            ""channel"": 13";
   "          }";
   "        },";
   "        {";
   "          ""event"": {";
   "            ""tag"": ""MIDIPort"",";
   "            ""delta"": 0,";
   "            ""status"": 255,";
   "            ""type"": 33,";
   "            ""port"": 112";
   "          }";
   "        },";
   "        {";
   "          ""event"": {";
   "            ""tag"": ""KeySignature"",";
   "            ""delta"": 0,";
   "            ""status"": 255,";
   "            ""type"": 89,";
   "            ""accidentals"": 0,";
   "            ""key-type"": 1,";
   "            ""key"": ""A minor""";
   "          }";
   "        },";
   "        {";
   "          ""event"": {";
   "            ""tag"": ""SequencerSpecificEvent"",";
   "            ""delta"": 0,";
   "            ""status"": 255,";
   "            ""type"": 127,";
   "            ""manufacturer"": {";
   "              ""id"": [";
   "                0,";
   "                0,";
   "                59";
   "              ],";
   "              ""region"": ""American"",";
   "              ""name"": ""Mark Of The Unicorn (MOTU)""";
   "            },";
   "            ""data"": [";
   "              58,";
   "              76,";
   "              94";
   "            ]";
   "          }";
   "        },";
   "        {";
   "          ""event"": {";
   "            ""tag"": ""Controller"",";
   "            ""delta"": 0,";
   "            ""status"": 176,";
   "            ""channel"": 0,";
   "            ""controller"": {";
   "              ""id"": 0,";
   "              ""name"": ""Bank Select (MSB)""";
   "            },";
   "            ""value"": 5";
   "          }";
   "        },";
   "        {";
   "          ""event"": {";
   "            ""tag"": ""Controller"",";
   "            ""delta"": 0,";
   "            ""status"": 176,";
   "            ""channel"": 0,";
   "            ""controller"": {";
   "              ""id"": 32,";
   "              ""name"": ""Bank Select (LSB)""";
   "            },";
   "            ""value"": 33";
   "          }";
   "        },";
   "        {";
   "          ""event"": {";
   "            ""tag"": ""ProgramChange"",";
   "            ""delta"": 0,";
   "            ""status"": 192,";
   "            ""channel"": 0,";
   "            ""bank"": 673,";
   "            ""program"": 25";
   "          }";
   "        },";
   "        {";
   "          ""event"": {";
   "            ""tag"": ""Controller"",";
   "            ""delta"": 0,";
   "            ""status"": 176,";
   "            ""channel"": 0,";
   "            ""controller"": {";
   "              ""id"": 101,";
   "              ""name"": ""Registered Parameter Number (MSB)""";
   "            },";
   "            ""value"": 0";
   "          }";
   "        },";
   "        {";
   "          ""event"": {";
   "            ""tag"": ""PolyphonicPressure"",";
   "            ""delta"": 0,";
   "            ""status"": 160,";
   "            ""channel"": 0,";
   "            ""pressure"": 100";
   "          }";
   "        },";
   "        {";
   "          ""event"": {";
   "            ""tag"": ""ChannelPressure"",";
   "            ""delta"": 0,";
   "            ""status"": 208,";
   "            ""channel"": 0,";
   "            ""pressure"": 7";
   "          }";
   "        },";
   "        {";
   "          ""event"": {";
   "            ""tag"": ""NoteOn"",";
   "            ""delta"": 0,";
   "            ""status"": 144,";
   "            ""channel"": 0,";
   "            ""note"": {";
   "              ""value"": 48,";
   "              ""name"": ""C3"",";
   "              ""alias"": ""C3""";
   "            },";
   "            ""velocity"": 72";
   "          }";
   "        },";
   "        {";
   "          ""event"": {";
   "            ""tag"": ""NoteOn"",";
   "            ""delta"": 0,";
   "            ""status"": 146,";
   "            ""channel"": 2,";
   "            ""note"": {";
   "              ""value"": 49,";
   "              ""name"": ""C♯3"",";
   "              ""alias"": ""C♯3""";
   "            },";
   "            ""velocity"": 72";
   "          }";
   "        },";
   "        {";
   "          ""event"": {";
   "            ""tag"": ""NoteOn"",";
   "            ""delta"": 0,";
   "            ""status"": 146,";
   "            ""channel"": 2,";
   "            ""note"": {";
   "              ""value"": 48,";
   "              ""name"": ""C3"",";
   "              ""alias"": ""C3""";
   "            },";
   "            ""velocity"": 100";
   "          }";
   "        },";
   "        {";
   "          ""event"": {";
   "            ""tag"": ""PitchBend"",";
   "            ""delta"": 240,";
   "            ""status"": 224,";
   "            ""channel"": 0,";
   "            ""bend"": 8";
   "          }";
   "        },";
   "        {";
   "          ""event"": {";
   "            ""tag"": ""NoteOff"",";
   "            ""delta"": 480,";
   "            ""status"": 128,";
   "            ""channel"": 0,";
   "            ""note"": {";
   "              ""value"": 48,";
   "              ""name"": ""C3"",";
   "              ""alias"": ""C3""";
   "            },";
   "            ""velocity"": 64";
   "          }";
   "        },";
   "        {";
   "          ""event"": {";
   "            ""tag"": ""SysExMessage"",";
   "            ""delta"": 0,";
   "            ""status"": 240,";
   "            ""manufacturer"": {";
   "              ""id"": [";
   "                126";
   "              ],";
   "              ""region"": ""Special Purpose"",";
   "              ""name"": ""Non-RealTime Extensions""";
   "            },";
   "            ""data"": [";
   "              0,";
   "              9,";
   "              1";
   "            ],";
   "            ""single"": true";
   "          }";
   "        },";
   "        {";
   "          ""event"": {";
   "            ""tag"": ""SysExMessage"",";
   "            ""delta"": 0,";
   "            ""status"": 240,";
   "            ""manufacturer"": {";
   "              ""id"": [";
   "                67";
   "              ],";
   "              ""region"": ""Japanese"",";
   "              ""name"": ""Yamaha""";
   "            },";
   "            ""data"": [";
   "              18,";
   "              0";
   "            ],";
   "            ""single"": false";
   "          }";
   "        },";
   "        {";
   "          ""event"": {";
   "            ""tag"": ""SysExContinuation"",";
   "            ""delta"": 200,";
   "            ""status"": 247,";
   "            ""data"": [";
   "              67,";
   "              18,";
   "              0,";
   "              67,";
   "              18,";
   "              0";
   "            ],";
   "            ""end"": false";
   "          }";
   "        },";
   "        {";
   "          ""event"": {";
   "            ""tag"": ""SysExContinuation"",";
   "            ""delta"": 100,";
   "            ""status"": 247,";
   "            ""data"": [";
   "              67,";
   "              18,";
   "              0";
   "            ],";
   "            ""end"": false";
   "          }";
   "        },";
   "        {";
   "          ""event"": {";
   "            ""tag"": ""SysExEscape"",";
   "            ""delta"": 0,";
   "            ""status"": 247,";
   "            ""data"": [";
   "              243,";
   "              1";
   "            ]";
   "          }";
   "        },";
   "        {";
   "          ""event"": {";
   "            ""tag"": ""EndOfTrack"",";
   "            ""delta"": 0,";
   "            ""status"": 255,";
   "            ""type"": 47";
   "          }";
   "        }";
   "      ]";
   "    }";
   "  ]"]%string ++ str "}".

(** commands/test-files/reference.tsv *)
Definition tsv_reference : bytes :=
  text_lines
  ["Tick	Delta	Tag	Channel	Note	Velocity	Details";
   "Tick	Delta	Tag	Channel	Note	Velocity	Details	Tick	Delta	Tag	Channel	Note	Velocity	Details";
   "0	0	TrackName				Reference-1	0	0	SequenceNumber				23";
   "0	0	Tempo				500000	0	0	Text				This and That";
   "0	0	TimeSignature				4/4, 24 ticks/click, 8 32nds/quarter	0	0	Copyright				Them";
   "0	0	SMPTEOffset				offset 13:45:59  frame rate 25:7:39	0	0	TrackName				Acoustic Guitar";
   "0	0	EndOfTrack					0	0	InstrumentName				Didgeridoo";
   "							0	0	Lyric				La-la-la";
   "							0	0	Marker				Here Be Dragons";
   "							0	0	CuePoint				More cowbell";
   "							0	0	ProgramName				Escape";
   "							0	0	DeviceName				TheThing";
   "							0	0	MIDIChannelPrefix				13";
   "							0	0	MIDIPort				112";
   "							0	0	KeySignature				A minor";
   "							0	0	SequencerSpecificEvent				Mark Of The Unicorn (MOTU) [3A 4C 5E]";
   "							0	0	Controller	0			0:Bank Select (MSB), 5";
   "							0	0	Controller	0			32:Bank Select (LSB), 33";
   "							0	0	ProgramChange	0			673, 25";
   "							0	0	Controller	0			101:Registered Parameter Number (MSB), 0";
   "							0	0	PolyphonicPressure	0			100";
   "							0	0	ChannelPressure	0			7";
   "							0	0	NoteOn	0	48	72	C3";
   "							0	0	NoteOn	2	49	72	C♯3";
   "							0	0	NoteOn	2	48	100	C3";
   "							240	240	PitchBend	0			8";
   "							720	480	NoteOff	0	48	64	C3";
   "							720	0	SysExMessage				[126]:Special Purpose:Non-RealTime Extensions, 00 09 01";
   "							720	0	SysExMessage				[67]:Japanese:Yamaha, 12 00";
   "							920	200	SysExContinuation				43 12 00 43 12 00";
   "							1020	100	SysExContinuation				43 12 00";
   "							1020	0	SysExEscape				F3 01";
   "							1020	0	EndOfTrack				"]%string.

(** ops/disassemble/disassemble_test.go:24-66 *)
Definition disassembled_reference : bytes :=
  [77; 84; 104; 100; 0; 0; 0; 6; 0; 1; 0; 2; 1; 224; 77; 84; 114; 107; 0; 0; 0; 41; 0; 255;
   3; 9; 69; 120; 97; 109; 112; 108; 101; 32; 49; 0; 255; 81; 3; 7; 161; 32; 0; 255; 88; 4; 4; 2;
   24; 8; 0; 255; 84; 5; 45; 45; 59; 7; 39; 0; 255; 47; 0; 77; 84; 114; 107; 0; 0; 0; 241; 0;
   255; 0; 2; 0; 23; 0; 255; 1; 13; 84; 104; 105; 115; 32; 97; 110; 100; 32; 84; 104; 97; 116; 0; 255;
   2; 4; 84; 104; 101; 109; 0; 255; 3; 15; 65; 99; 111; 117; 115; 116; 105; 99; 32; 71; 117; 105; 116; 97;
   114; 0; 255; 4; 10; 68; 105; 100; 103; 101; 114; 105; 100; 111; 111; 0; 255; 5; 8; 76; 97; 45; 108; 97;
   45; 108; 97; 0; 255; 6; 15; 72; 101; 114; 101; 32; 66; 101; 32; 68; 114; 97; 103; 111; 110; 115; 0; 255;
   7; 12; 77; 111; 114; 101; 32; 99; 111; 119; 98; 101; 108; 108; 0; 255; 8; 6; 69; 115; 99; 97; 112; 101;
   0; 255; 9; 8; 84; 104; 101; 84; 104; 105; 110; 103; 0; 255; 32; 1; 13; 0; 255; 33; 1; 112; 0; 255;
   89; 2; 0; 1; 0; 255; 127; 6; 0; 0; 59; 58; 76; 94; 0; 176; 0; 5; 0; 176; 32; 33; 0; 192;
   25; 0; 176; 101; 0; 0; 160; 100; 0; 208; 7; 0; 144; 48; 72; 0; 146; 49; 72; 0; 48; 100; 129; 112;
   224; 0; 8; 131; 96; 128; 48; 64; 0; 240; 5; 126; 0; 9; 1; 247; 0; 240; 3; 67; 18; 0; 129; 72;
   247; 6; 67; 18; 0; 67; 18; 0; 100; 247; 4; 67; 18; 0; 247; 0; 247; 2; 243; 1; 0; 255; 47; 0].

(** ops/disassemble/test-files/reference.txt *)
Definition disassemble_reference : bytes :=
  text_lines
  ["4D 54 68 64 00 00 00 06 00 01 00 02 01 E0   MThd length:6, format:1, tracks:2, metrical time:480 ppqn";
   "";
   "4D 54 72 6B 00 00 00 29…                    MTrk 0  length:41";
   "      00 FF 03 09 45 78 61 6D 70 6C 65 20…  tick:0          delta:0          03 TrackName              Example 1";
   "      00 FF 51 03 07 A1 20                  tick:0          delta:0          51 Tempo                  tempo:500000";
   "      00 FF 58 04 04 02 18 08               tick:0          delta:0          58 TimeSignature          4/4, 24 ticks per click, 8/32 per quarter";
   "      00 FF 54 05 2D 2D 3B 07 27            tick:0          delta:0          54 SMPTEOffset            13 45 59 25 7 39";
   "      00 FF 2F 00                           tick:0          delta:0          2F EndOfTrack";
   "";
   "4D 54 72 6B 00 00 00 F1…                    MTrk 1  length:241";
   "      00 FF 00 02 00 17                     tick:0          delta:0          00 SequenceNumber         23";
   "      00 FF 01 0D 54 68 69 73 20 61 6E 64…  tick:0          delta:0          01 Text                   This and That";
   "      00 FF 02 04 54 68 65 6D               tick:0          delta:0          02 Copyright              Them";
   "      00 FF 03 0F 41 63 6F 75 73 74 69 63…  tick:0          delta:0          03 TrackName              Acoustic Guitar";
   "      00 FF 04 0A 44 69 64 67 65 72 69 64…  tick:0          delta:0          04 InstrumentName         Didgeridoo";
   "      00 FF 05 08 4C 61 2D 6C 61 2D 6C 61   tick:0          delta:0          05 Lyric                  La-la-la";
   "      00 FF 06 0F 48 65 72 65 20 42 65 20…  tick:0          delta:0          06 Marker                 Here Be Dragons";
   "      00 FF 07 0C 4D 6F 72 65 20 63 6F 77…  tick:0          delta:0          07 CuePoint               More cowbell";
   "      00 FF 08 06 45 73 63 61 70 65         tick:0          delta:0          08 ProgramName            Escape";
   "      00 FF 09 08 54 68 65 54 68 69 6E 67   tick:0          delta:0          09 DeviceName             TheThing";
   "      00 FF 20 01 0D                        tick:0          delta:0          20 MIDIChannelPrefix      13";
   "      00 FF 21 01 70                        tick:0          delta:0          21 MIDIPort               112";
   "      00 FF 59 02 00 01                     tick:0          delta:0          59 KeySignature           A minor";
   "      00 FF 7F 06 00 00 3B 3A 4C 5E         tick:0          delta:0          7F SequencerSpecificEvent Mark Of The Unicorn (MOTU), 3A 4C 5E";
   "      00 B0 00 05                           tick:0          delta:0          B0 Controller             channel:0  0/Bank Select (MSB), value:5";
   "      00 B0 20 21                           tick:0          delta:0          B0 Controller             channel:0  32/Bank Select (LSB), value:33";
   "      00 C0 19                              tick:0          delta:0          C0 ProgramChange          channel:0  bank:673, program:25";
   "      00 B0 65 00                           tick:0          delta:0          B0 Controller             channel:0  101/Registered Parameter Number (MSB), value:0";
   "      00 A0 64                              tick:0          delta:0          A0 PolyphonicPressure     channel:0  pressure:100";
   "      00 D0 07                              tick:0          delta:0          D0 ChannelPressure        channel:0  pressure:7";
   "      00 90 30 48                           tick:0          delta:0          90 NoteOn                 channel:0  note:C3, velocity:72";
   "      00 92 31 48                           tick:0          delta:0          92 NoteOn                 channel:2  note:C♯3, velocity:72";
   "      00 30 64                              tick:0          delta:0          92 NoteOn                 channel:2  note:C3, velocity:100";
   "   81 70 E0 00 08                           tick:240        delta:240        E0 PitchBend              channel:0  bend:8";
   "   83 60 80 30 40                           tick:720        delta:480        80 NoteOff                channel:0  note:C3, velocity:64";
   "      00 F0 05 7E 00 09 01 F7               tick:720        delta:0          F0 SysExMessage           Non-RealTime Extensions, 00 09 01";
   "      00 F0 03 43 12 00                     tick:720        delta:0          F0 SysExMessage           Yamaha, 12 00";
   "   81 48 F7 06 43 12 00 43 12 00            tick:920        delta:200        F7 SysExContinuation      43 12 00 43 12 00";
   "      64 F7 04 43 12 00 F7                  tick:1020       delta:100        F7 SysExContinuation      43 12 00";
   "      00 F7 02 F3 01                        tick:1020       delta:0          F7 SysExEscape            F3 01";
   "      00 FF 2F 00                           tick:1020       delta:0          2F EndOfTrack"]%string.

(** ops/disassemble/disassemble_test.go:91-129 *)
Definition templated_file : bytes :=
  [77; 84; 104; 100; 0; 0; 0; 6; 0; 1; 0; 2; 1; 224; 77; 84; 114; 107; 0; 0; 0; 41; 0; 255;
   3; 9; 69; 120; 97; 109; 112; 108; 101; 32; 49; 0; 255; 81; 3; 7; 161; 32; 0; 255; 88; 4; 4; 2;
   24; 8; 0; 255; 84; 5; 45; 45; 59; 7; 39; 0; 255; 47; 0; 77; 84; 114; 107; 0; 0; 0; 234; 0;
   255; 0; 2; 0; 23; 0; 255; 1; 13; 84; 104; 105; 115; 32; 97; 110; 100; 32; 84; 104; 97; 116; 0; 255;
   2; 4; 84; 104; 101; 109; 0; 255; 3; 15; 65; 99; 111; 117; 115; 116; 105; 99; 32; 71; 117; 105; 116; 97;
   114; 0; 255; 4; 10; 68; 105; 100; 103; 101; 114; 105; 100; 111; 111; 0; 255; 5; 8; 76; 97; 45; 108; 97;
   45; 108; 97; 0; 255; 6; 15; 72; 101; 114; 101; 32; 66; 101; 32; 68; 114; 97; 103; 111; 110; 115; 0; 255;
   7; 12; 77; 111; 114; 101; 32; 99; 111; 119; 98; 101; 108; 108; 0; 255; 8; 6; 69; 115; 99; 97; 112; 101;
   0; 255; 9; 8; 84; 104; 101; 84; 104; 105; 110; 103; 0; 255; 32; 1; 13; 0; 255; 33; 1; 112; 0; 255;
   89; 2; 0; 1; 0; 255; 127; 6; 0; 0; 59; 58; 76; 94; 0; 176; 0; 5; 0; 176; 32; 33; 0; 192;
   25; 0; 176; 101; 0; 0; 160; 100; 0; 208; 7; 0; 144; 48; 72; 129; 112; 224; 0; 8; 131; 96; 128; 48;
   64; 0; 240; 5; 126; 0; 9; 1; 247; 0; 240; 3; 67; 18; 0; 129; 72; 247; 6; 67; 18; 0; 67; 18;
   0; 100; 247; 4; 67; 18; 0; 247; 0; 247; 2; 243; 1; 0; 255; 47; 0].

(** ops/disassemble/test-files/reference-template.txt *)
Definition templated_reference : bytes :=
  text_lines
  ["4D 54 68 64 00 00 00 06 00 01 00 02 01 E0   MThd length:6, format:1, tracks:2, metrical time:480 ppqn";
   "";
   "4D 54 72 6B 00 00 00 29…                    MTrk 0  length:41";
   "      00 FF 03 09 45 78 61 6D 70 6C 65 20…  tick:0          delta:0          03 TrackName              >>> Example 1";
   "      00 FF 51 03 07 A1 20                  tick:0          delta:0          51 Tempo                  tempo:500000";
   "      00 FF 58 04 04 02 18 08               tick:0          delta:0          58 TimeSignature          4/4, 24 ticks per click, 8/32 per quarter";
   "      00 FF 54 05 2D 2D 3B 07 27            tick:0          delta:0          54 SMPTEOffset            13 45 59 25 7 39";
   "      00 FF 2F 00                           tick:0          delta:0          2F EndOfTrack";
   "";
   "4D 54 72 6B 00 00 00 EA…                    MTrk 1  length:234";
   "      00 FF 00 02 00 17                     tick:0          delta:0          00 SequenceNumber         23";
   "      00 FF 01 0D 54 68 69 73 20 61 6E 64…  tick:0          delta:0          01 Text                   This and That";
   "      00 FF 02 04 54 68 65 6D               tick:0          delta:0          02 Copyright              Them";
   "      00 FF 03 0F 41 63 6F 75 73 74 69 63…  tick:0          delta:0          03 TrackName              >>> Acoustic Guitar";
   "      00 FF 04 0A 44 69 64 67 65 72 69 64…  tick:0          delta:0          04 InstrumentName         Didgeridoo";
   "      00 FF 05 08 4C 61 2D 6C 61 2D 6C 61   tick:0          delta:0          05 Lyric                  La-la-la";
   "      00 FF 06 0F 48 65 72 65 20 42 65 20…  tick:0          delta:0          06 Marker                 Here Be Dragons";
   "      00 FF 07 0C 4D 6F 72 65 20 63 6F 77…  tick:0          delta:0          07 CuePoint               More cowbell";
   "      00 FF 08 06 45 73 63 61 70 65         tick:0          delta:0          08 ProgramName            Escape";
   "      00 FF 09 08 54 68 65 54 68 69 6E 67   tick:0          delta:0          09 DeviceName             TheThing";
   "      00 FF 20 01 0D                        tick:0          delta:0          20 MIDIChannelPrefix      13";
   "      00 FF 21 01 70                        tick:0          delta:0          21 MIDIPort               112";
   "      00 FF 59 02 00 01                     tick:0          delta:0          59 KeySignature           A minor";
   "      00 FF 7F 06 00 00 3B 3A 4C 5E         tick:0          delta:0          7F SequencerSpecificEvent Mark Of The Unicorn (MOTU), 3A 4C 5E";
   "      00 B0 00 05                           tick:0          delta:0          B0 Controller             channel:0  0/Bank Select (MSB), value:5";
   "      00 B0 20 21                           tick:0          delta:0          B0 Controller             channel:0  32/Bank Select (LSB), value:33";
   "      00 C0 19                              tick:0          delta:0          C0 ProgramChange          channel:0  bank:673, program:25";
   "      00 B0 65 00                           tick:0          delta:0          B0 Controller             channel:0  101/Registered Parameter Number (MSB), value:0";
   "      00 A0 64                              tick:0          delta:0          A0 PolyphonicPressure     channel:0  pressure:100";
   "      00 D0 07                              tick:0          delta:0          D0 ChannelPressure        channel:0  pressure:7";
   "      00 90 30 48                           tick:0          delta:0          90 NoteOn                 channel:0  note:C3, velocity:72";
   "   81 70 E0 00 08                           tick:240        delta:240        E0 PitchBend              channel:0  bend:8";
   "   83 60 80 30 40                           tick:720        delta:480        80 NoteOff                channel:0  note:C3, velocity:64";
   "      00 F0 05 7E 00 09 01 F7               tick:720        delta:0          F0 SysExMessage           Non-RealTime Extensions, 00 09 01";
   "      00 F0 03 43 12 00                     tick:720        delta:0          F0 SysExMessage           Yamaha, 12 00";
   "   81 48 F7 06 43 12 00 43 12 00            tick:920        delta:200        F7 SysExContinuation      43 12 00 43 12 00";
   "      64 F7 04 43 12 00 F7                  tick:1020       delta:100        F7 SysExContinuation      43 12 00";
   "      00 F7 02 F3 01                        tick:1020       delta:0          F7 SysExEscape            F3 01";
   "      00 FF 2F 00                           tick:1020       delta:0          2F EndOfTrack"]%string.

(** ops/notes/test-files/notes.mid *)
Definition notes_file : bytes :=
  [77; 84; 104; 100; 0; 0; 0; 6; 0; 1; 0; 2; 1; 224; 77; 84; 114; 107; 0; 0; 0; 67; 0; 255;
   81; 3; 7; 161; 32; 0; 255; 88; 4; 4; 2; 24; 8; 0; 255; 3; 20; 78; 111; 116; 101; 32; 69; 120;
   116; 114; 97; 99; 116; 105; 111; 110; 32; 84; 101; 115; 116; 143; 0; 255; 81; 3; 11; 113; 176; 143; 0; 255;
   81; 3; 15; 66; 64; 143; 0; 255; 81; 3; 7; 161; 32; 0; 255; 47; 0; 77; 84; 114; 107; 0; 0; 1;
   24; 0; 144; 48; 76; 0; 255; 3; 15; 65; 99; 111; 117; 115; 116; 105; 99; 32; 71; 117; 105; 116; 97; 114;
   0; 192; 25; 0; 255; 89; 2; 0; 0; 0; 176; 101; 0; 0; 176; 100; 0; 0; 176; 6; 6; 135; 64; 128;
   48; 64; 0; 144; 50; 76; 129; 112; 128; 50; 64; 0; 144; 52; 76; 129; 112; 128; 52; 64; 0; 144; 53; 76;
   120; 128; 53; 64; 0; 144; 55; 76; 120; 128; 55; 64; 0; 144; 57; 76; 120; 128; 57; 64; 0; 144; 59; 76;
   120; 128; 59; 64; 0; 144; 48; 76; 135; 64; 128; 48; 64; 0; 144; 50; 76; 129; 112; 128; 50; 64; 0; 144;
   52; 76; 129; 112; 128; 52; 64; 0; 144; 53; 76; 120; 128; 53; 64; 0; 144; 55; 76; 120; 128; 55; 64; 0;
   144; 57; 76; 120; 128; 57; 64; 0; 144; 59; 76; 120; 128; 59; 64; 0; 144; 48; 76; 135; 64; 128; 48; 64;
   0; 144; 50; 76; 129; 112; 128; 50; 64; 0; 144; 52; 76; 129; 112; 128; 52; 64; 0; 144; 53; 76; 120; 128;
   53; 64; 0; 144; 55; 76; 120; 128; 55; 64; 0; 144; 57; 76; 120; 128; 57; 64; 0; 144; 59; 76; 120; 128;
   59; 64; 0; 144; 48; 76; 135; 64; 128; 48; 64; 0; 144; 50; 76; 129; 112; 128; 50; 64; 0; 144; 52; 76;
   129; 112; 128; 52; 64; 0; 144; 53; 76; 120; 128; 53; 64; 0; 144; 55; 76; 120; 128; 55; 64; 0; 144; 57;
   76; 120; 128; 57; 64; 0; 144; 59; 76; 120; 128; 59; 64; 0; 255; 47; 0].

(** ops/notes/test-files/notes.txt *)
Definition notes_reference : bytes :=
  text_lines
  ["C3   channel:0   note:30  velocity:76   start:0s         end:1s         duration:1s";
   "D3   channel:0   note:32  velocity:76   start:1s         end:1.25s      duration:250ms";
   "E3   channel:0   note:34  velocity:76   start:1.25s      end:1.5s       duration:250ms";
   "F3   channel:0   note:35  velocity:76   start:1.5s       end:1.625s     duration:125ms";
   "G3   channel:0   note:37  velocity:76   start:1.625s     end:1.75s      duration:125ms";
   "A3   channel:0   note:39  velocity:76   start:1.75s      end:1.875s     duration:125ms";
   "B3   channel:0   note:3B  velocity:76   start:1.875s     end:2s         duration:125ms";
   "C3   channel:0   note:30  velocity:76   start:2s         end:3.5s       duration:1.5s";
   "D3   channel:0   note:32  velocity:76   start:3.5s       end:3.875s     duration:375ms";
   "E3   channel:0   note:34  velocity:76   start:3.875s     end:4.25s      duration:375ms";
   "F3   channel:0   note:35  velocity:76   start:4.25s      end:4.438s     duration:188ms";
   "G3   channel:0   note:37  velocity:76   start:4.438s     end:4.625s     duration:187ms";
   "A3   channel:0   note:39  velocity:76   start:4.625s     end:4.813s     duration:188ms";
   "B3   channel:0   note:3B  velocity:76   start:4.813s     end:5s         duration:187ms";
   "C3   channel:0   note:30  velocity:76   start:5s         end:7s         duration:2s";
   "D3   channel:0   note:32  velocity:76   start:7s         end:7.5s       duration:500ms";
   "E3   channel:0   note:34  velocity:76   start:7.5s       end:8s         duration:500ms";
   "F3   channel:0   note:35  velocity:76   start:8s         end:8.25s      duration:250ms";
   "G3   channel:0   note:37  velocity:76   start:8.25s      end:8.5s       duration:250ms";
   "A3   channel:0   note:39  velocity:76   start:8.5s       end:8.75s      duration:250ms";
   "B3   channel:0   note:3B  velocity:76   start:8.75s      end:9s         duration:250ms";
   "C3   channel:0   note:30  velocity:76   start:9s         end:10s        duration:1s";
   "D3   channel:0   note:32  velocity:76   start:10s        end:10.25s     duration:250ms";
   "E3   channel:0   note:34  velocity:76   start:10.25s     end:10.5s      duration:250ms";
   "F3   channel:0   note:35  velocity:76   start:10.5s      end:10.625s    duration:125ms";
   "G3   channel:0   note:37  velocity:76   start:10.625s    end:10.75s     duration:125ms";
   "A3   channel:0   note:39  velocity:76   start:10.75s     end:10.875s    duration:125ms";
   "B3   channel:0   note:3B  velocity:76   start:10.875s    end:11s        duration:125ms"]%string.

(** ops/notes/test-files/notes-with-missing-note-offs.mid *)
Definition missing_file : bytes :=
  [77; 84; 104; 100; 0; 0; 0; 6; 0; 1; 0; 2; 1; 224; 77; 84; 114; 107; 0; 0; 0; 61; 0; 255;
   81; 3; 7; 161; 32; 0; 255; 88; 4; 4; 2; 24; 8; 0; 255; 3; 38; 78; 111; 116; 101; 32; 69; 120;
   116; 114; 97; 99; 116; 105; 111; 110; 32; 87; 105; 116; 104; 32; 77; 105; 115; 115; 105; 110; 103; 32; 78; 111;
   116; 101; 32; 79; 102; 102; 115; 0; 255; 47; 0; 77; 84; 114; 107; 0; 0; 0; 99; 0; 144; 48; 76; 0;
   255; 3; 15; 65; 99; 111; 117; 115; 116; 105; 99; 32; 71; 117; 105; 116; 97; 114; 0; 192; 25; 0; 255; 89;
   2; 0; 1; 0; 176; 101; 0; 0; 176; 100; 0; 0; 176; 6; 6; 135; 64; 144; 50; 76; 129; 112; 128; 50;
   64; 0; 144; 52; 76; 129; 112; 144; 53; 76; 120; 128; 53; 64; 0; 144; 55; 76; 120; 128; 55; 64; 0; 144;
   57; 76; 120; 128; 57; 64; 0; 144; 59; 76; 120; 128; 48; 64; 0; 128; 52; 64; 0; 255; 47; 0].

(** ops/notes/test-files/notes-with-missing-note-offs.txt *)
Definition missing_reference : bytes :=
  text_lines
  ["D3   channel:0   note:32  velocity:76   start:1s         end:1.25s      duration:250ms";
   "F3   channel:0   note:35  velocity:76   start:1.5s       end:1.625s     duration:125ms";
   "G3   channel:0   note:37  velocity:76   start:1.625s     end:1.75s      duration:125ms";
   "A3   channel:0   note:39  velocity:76   start:1.75s      end:1.875s     duration:125ms";
   "C3   channel:0   note:30  velocity:76   start:0s         end:2s         duration:2s";
   "E3   channel:0   note:34  velocity:76   start:1.25s      end:2s         duration:750ms";
   "B3   channel:0   note:3B  velocity:76   start:1.875s     end:2s         duration:125ms"]%string.
