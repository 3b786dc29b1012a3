(** * Help: the texts that `midiasm help` and `midiasm version` print (cmd/midiasm/help.go, cmd/midiasm/version.go, the Help methods in commands/*.go). *)
From Verif Require Import Base Strings.

(** fmt.Println of each string *)
Definition printed (ls : list string) : bytes := concat (map (fun l => str l ++ [10]) ls).

(** commands/disassemble.go:30-49 *)
Definition disassemble_help : bytes := printed
  ["";
   "  Disassembles a MIDI file and displays the tracks in a human readable format.";
   "";
   "    midiasm [--debug] [--verbose] [--C4] [--split] [--out <file>] <MIDI file>";
   "";
   "      --out <file>  Writes the disassembly to a file. Default is to write to stdout.";
   "      --split       Writes each track to a separate file. Default is `false`.";
   "";
   "    Options:";
   "";
   "      --C4       Uses C4 as middle C (Yamaha convention). Defaults to C3.";
   "      --debug    Displays internal information while processing a MIDI file. Defaults to false";
   "      --verbose  Enables 'verbose' logging. Defaults to false";
   "";
   "    Example:";
   "";
   "      midiasm --debug --verbose --out one-time.txt one-time.mid";
   ""]%string.

(** commands/assemble.go:26-44 *)
Definition assemble_help : bytes := printed
  ["";
   "  Assembles a MIDI file from a text or JSON source.";
   "";
   "    midiasm assemble [--debug] [--verbose] [--C4] [--out <MIDI file>] <file>";
   "";
   "      --out <file>  Output MIDI file. Default is to use the input file name with a .midi extension.";
   "";
   "    Options:";
   "";
   "      --C4       Uses C4 as middle C (Yamaha convention). Defaults to C3.";
   "      --debug    Displays internal information while processing a MIDI file. Defaults to false";
   "      --verbose  Enables 'verbose' logging. Defaults to false";
   "";
   "    Example:";
   "";
   "      midiasm assemble --debug --verbose --out one-time.midi one-time.txt";
   ""]%string.

(** commands/notes.go:28-46 *)
Definition notes_help : bytes := printed
  ["";
   "  Extracts the NoteOn and NoteOff events to generate a list of notes with start times and durations.";
   "";
   "    midiasm notes [--debug] [--verbose] [--C4] [--out <file>] <MIDI file>";
   "";
   "      --out <file>  Writes the notes to a file. Default is to write to stdout.";
   "";
   "    Options:";
   "";
   "      --C4       Uses C4 as middle C (Yamaha convention). Defaults to C3.";
   "      --debug    Displays internal information while processing a MIDI file. Defaults to false";
   "      --verbose  Enables 'verbose' logging. Defaults to false";
   "";
   "    Example:";
   "";
   "      midiasm notes --debug --verbose --out one-time.notes one-time.mid";
   ""]%string.

(** commands/click.go:24-42 *)
Definition click_help : bytes := printed
  ["";
   "  Extracts the _beats_ from the MIDI file in a format that can be used to create a click track.";
   "";
   "    midiasm click [--debug] [--verbose] [--C4] [--out <file>] <MIDI file>`";
   "";
   "      --out <file>  Writes the click track to a file. Default is to write to stdout.";
   "";
   "    Options:";
   "";
   "      --C4       Uses C4 as middle C (Yamaha convention). Defaults to C3.";
   "      --debug    Displays internal information while processing a MIDI file. Defaults to false";
   "      --verbose  Enables 'verbose' logging. Defaults to false";
   "";
   "    Example:";
   "";
   "      midiasm click --debug --verbose --out one-time.click one-time.mid";
   ""]%string.

(** commands/export.go:24-43 *)
Definition export_help : bytes := printed
  ["";
   "  Extracts the MIDI information as JSON for use with other tools (e.g. jq).";
   "";
   "    midiasm export [--debug] [--verbose] [--C4] [--out <file>] <MIDI file>";
   "";
   "      <MIDI file>  MIDI file to export as JSON.";
   "";
   "    Options:";
   "";
   "      --out <file>  Writes the JSON to a file. Default is to write to stdout.";
   "      --C4          Uses C4 as middle C (Yamaha convention). Defaults to C3.";
   "      --debug       Displays internal information while processing a MIDI file. Defaults to false";
   "      --verbose     Enables 'verbose' logging. Defaults to false";
   "";
   "    Example:";
   "";
   "      midiasm export --debug --verbose --out one-time.json one-time.mid";
   ""]%string.

(** commands/transpose.go:26-45 *)
Definition transpose_help : bytes := printed
  ["";
   "  Transposes the key of the notes (and key signature) and writes it back as MIDI file.";
   "";
   "    midiasm transpose [--debug] [--verbose] [--C4] --semitones <steps> --out <file> <MIDI file>";
   "";
   "      --semitones <N>  Number of semitones to transpose up or down. Defaults to 0.";
   "      --out <file>     (required) Destination file for the transposed MIDI. ";
   "";
   "    Options:";
   "";
   "      --C4       Uses C4 as middle C (Yamaha convention). Defaults to C3.";
   "      --debug    Displays internal information while processing a MIDI file. Defaults to false";
   "      --verbose  Enables 'verbose' logging. Defaults to false";
   "";
   "    Example:";
   "";
   "      midiasm transpose --debug --verbose --semitones +5 --out one-time+5.mid one-time.mid";
   ""]%string.

(** commands/tsv.go:36-57 *)
Definition tsv_help : bytes := printed
  ["";
   "  Extracts the MIDI information as TSV for use with e.g. a spreadsheet.";
   "";
   "    midiasm tsv [--debug] [--verbose] [--C4] [--out <file>] [--delimiter <string>] <MIDI file>";
   "";
   "      <MIDI file>  MIDI file to export as JSON.";
   "";
   "    Options:";
   "";
   "      --out <file>          Writes the TSV to a file. Default is to write to stdout.";
   "      --delimiter <string>  Column separator (defaults to TAB).";
   "      --tabular             Formats the output as fixed width columns.";
   "      --C4                  Uses C4 as middle C (Yamaha convention). Defaults to C3.";
   "      --debug               Displays internal information while processing a MIDI file. Defaults to false";
   "      --verbose             Enables 'verbose' logging. Defaults to false";
   "";
   "    Example:";
   "";
   "      midiasm tsv --debug --verbose --out one-time.tsv one-time.mid";
   ""]%string.

(** commands/humanise.go:26-45 *)
Definition humanise_help : bytes := printed
  ["";
   "  Randomises the MIDI event timing";
   "";
   "    midiasm humanise [--debug] [--verbose] [--C4] [--out <file>] <MIDI file>";
   "";
   "      <MIDI file>  MIDI file to 'humanise'.";
   "";
   "    Options:";
   "";
   "      --out <file>          Writes the TSV to a file. Default is to write to stdout.";
   "      --C4                  Uses C4 as middle C (Yamaha convention). Defaults to C3.";
   "      --debug               Displays internal information while processing a MIDI file. Defaults to false";
   "      --verbose             Enables 'verbose' logging. Defaults to false";
   "";
   "    Example:";
   "";
   "      midiasm humanise --debug --verbose --out gnossienes.mid";
   ""]%string.

(** cmd/midiasm/help.go:33-48 [help]; [names]: the commands *)
Definition usage_help (names : list bytes) : bytes :=
  printed [""; "  Usage: midiasm <command> <options>"; ""; "  Supported commands:"]%string
  ++ concat (map (fun n => str "    " ++ n ++ [10]) names)
  ++ printed [""; "  Defaults to 'disassemble' if the command is not provided."; ""; "  Use 'midiasm help <command>' for command specific information."; ""]%string.

(** cmd/midiasm/version.go:20-24 with main.go:37 *)
Definition version_text : bytes := str "midiasm " ++ str "v0.3.x" ++ [10].
