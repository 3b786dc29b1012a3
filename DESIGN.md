# Design of the model and the proofs

Subject: transcriptaze/midiasm (Go), pinned source in `/repo`, read as text.
Tool: Coq 8.16.1, standard library only.  Project: `/verif/rocq`, logical name `Verif`.

## 1. How the code is modelled

* Bytes and Go integers are `Z`; byte strings (and Go strings, which are byte
  strings) are `list Z`.  Wrap-around is written explicitly (`mod 2^32`,
  `mod 256`) at the places where the code can wrap and a property talks about it.
* A Go result `(T, error)` that may also panic or never come is `outcome T :=
  Ok t | Err | Eof | Panic | Loop`.  `Eof` is the error value `io.EOF`, kept
  apart from other errors because `MTrk.UnmarshalBinary` and `chunker.next`
  branch on it.  `Loop` is a loop that never ends.  Error *texts* are not
  modelled (except validation errors, an inductive type, which are the
  observable result of validation).
* A reader is the list of bytes still to be read; reading returns the rest.
* Loops are structural recursion; loops without structural measure use fuel
  with an explicit out-of-fuel outcome, and the theorems show that it is never
  the result for the fuel used (or that no fuel suffices, for real
  non-termination).
* Go's `map` iteration order is a parameter (a permutation), goroutines are a
  small-step state machine.
* Events are records (delta, tick, raw bytes) with an inductive body of the 28
  kinds.

## 2. Layout

Model, in order of dependency (every definition cites the lines it models):

| file | code |
|---|---|
| `Base.v`, `Strings.v` | outcomes, bytes, decimal and hexadecimal printing and parsing (strconv, fmt) |
| `Tables.v` | tables of `midi/lib` (notes, scales, controllers, manufacturers), conf file entries |
| `Vlq.v` | `midi/lib/delta.go`, `midi/lib/types.go`, all readers of variable length quantities |
| `Event.v`, `Marshal.v`, `Parse.v` | events, `midi/context`, constructors and decoders of the 28 kinds, `MarshalBinary` |
| `Track.v`, `File.v` | `midi/MTrk.go`, `midi/MThd.go`, `midi/smf.go`, `encoding/midi` |
| `Memory.v` | sizes of the buffers requested by `chunker.next` and `VLF` |
| `TransposeWork.v` | passes of the loop of `lib.transpose` |
| `Unmarshal.v` | `midi/events/binary.go` and `UnmarshalBinary` of the events |
| `Typed.v` | `UnmarshalBinary` of the 28 event types, called directly |
| `Manufacturer.v`, `Hex.v` | `midi/lib/manufacturer.go` with the iteration order of its maps, `midi/lib/hex.go` |
| `Validate.v`, `ValidateText.v`, `Transpose.v` | `SMF.Validate` and its messages, `ops/transpose`, `Transpose` of events and scales |
| `Notes.v`, `NotesPrint.v`, `Float.v`, `NotesJson.v` | `ops/notes` (time arithmetic, tempo map, pairing, listing, JSON with float64), `ops/click` |
| `Log.v`, `NotesLog.v` | `log` (levels, lines), what `ops/notes` logs |
| `Utf8.v`, `Disassemble.v`, `Tsv.v`, `Csv.v` | `ops/disassemble` with the built-in templates, `commands/tsv.go`, the writer of encoding/csv |
| `Template.v`, `TemplateLoad.v` | `ops/disassemble/template` and user templates (`LoadTemplates`), the part of text/template they need |
| `Regex.v`, `TextEvent.v`, `Assemble.v`, `TextAssemble.v`, `Pipeline.v` | `midi/events/text.go`, `UnmarshalText` of the events, `ops/assemble` (text), its goroutines |
| `LibText.v` | texts of `midi/lib` and of tempo and time signature that no command uses |
| `Conf.v` | the configuration file (`LoadManufacturers`), from its text on |
| `Json.v`, `JsonText.v` | `MarshalJSON`/`UnmarshalJSON`, `ops/export`, `ops/assemble/json.go`, the text level of encoding/json |
| `Flags.v`, `Paths.v`, `Help.v`, `Cli.v`, `Stderr.v`, `Stdout.v` | package flag, path functions, `cmd/midiasm/*.go`, `commands/*.go` with their effects on files, stdout and stderr |

Specifications (`Spec*.v`) do not use the functions of the model, only its data
types; proofs are in `*Proofs.v`; sample files for examples and witnesses in
`*Samples.v`; `Prop*.v` hold only the theorems of the properties, each closed by
`exact` and followed by `Print Assumptions`, and examples that show that the
hypotheses can be met.

`Reference.v` and the `Conformance*.v` files replay the project's own
tests on the model: the reference files of the assembler, disassembler, TSV and
notes tests and 177 unit tests of single events, plus those of `midi`,
`midi/context`, `midi/lib`, `encoding/midi`, `ops/transpose` and `ops/notes`.  The
inputs and expected results are those in `/repo`; each test is a checked Example.

## 3. Properties: what is modelled and how it is proved

| id | modelled | method |
|---|---|---|
| C01 | `Delta.MarshalBinary`, `VLQ` | arithmetic + induction; minimality from the spec value function |
| C02 | same, all of uint32 | refutation by witness (2^28), plus characterisation of failures |
| C03 | the VLQ readers | induction on the stream, spec = positional value of 7-bit groups |
| C04 | `vlf2bin`, `VLF`, `vlf` | C01 + list lemmas |
| C05 | `MThd.{Un,M}arshalBinary` | case analysis over the 14 bytes |
| C06 | `Encode`, `EncodeMTrk` | induction over tracks; spec parser of chunks |
| C07 | `Decode`, `chunker` | induction over chunks |
| C08-C13 | per-event `MarshalBinary` / `Parse` | algebra; refutations where the code loses data |
| C14-C16 | `EncodeMTrk`, `UnmarshalBinary`, `Encode`, `Decode` | simulation invariant between encoder's `last` chunk and decoder's running status |
| C17 | `parse` | case analysis for every reader state |
| C18, C19, C54 | `UnmarshalBinary` loop | induction over the loop |
| C20, C21 | whole decoder | refutation by witnesses + sufficient conditions |
| C75 | whole decoder | exact reading of every accepted message, track and file, as inductive relations; equivalence in both directions |
| C76 | buffers requested by the decoder | bound by induction over messages and chunks; refuted by witnesses of 8 and 30 bytes |
| C77 | reading of event lines (`UnmarshalText`) | grammar of the 28 kinds of line as an inductive relation; soundness for all lines by inversion of the regular expressions, completeness for lines whose parts are the first of their kind |
| C78 | note and key names in lines | from C77; refuted by witnesses |
| C79 | reading of events from JSON values (`UnmarshalJSON`) | independent relation between values and events; equivalence for all values |
| C80 | ranges of events read from JSON | from C79; refuted by witnesses |
| C81, C82 | `JSONAssembler`, `TextAssembler` from the source to the decoded file | relation between documents or texts and files over C79 and C77; composed with the round trip of the encoder (C16); refuted by witnesses |
| C22, C23 | `Validate` | boolean reflection against an independent declarative spec |
| C24, C25 | `Transpose` on notes and tracks; two runs of `Transpose.Execute` against one, byte by byte | `lia`, induction over tracks; the encoder depends on header and contents only |
| C26-C28 | scale tables, `Scale.Transpose` | finite tables lifted with `forallb_forall`, periodicity in n by mod 12 |
| C29, C31, C32 | decoder context | invariant over the event history; spec is a function of the history |
| C30 | `FormatNote`, `ParseNote` | finite domain, lifted |
| C33, C34 | JSON tree (un)marshalling | per-kind algebra, induction over the file; C62, C63 add the text level |
| C35-C37 | text templates and regular-expression parsers | matching functions over byte strings |
| C38 | goroutine pipeline | state machine over explicit steps, invariant over all schedules |
| C39-C41 | `ops/notes` | induction over the event list against a declarative matching spec |
| C42 | `ops/click` | the type switch never fires on decoded events |
| C43-C45 | table building, padding | list induction |
| C46-C48 | hex, lookup tables | induction / finite sweep lifted |
| C49 | time signature loops | fuelled loop, divergence proved for all fuel |
| C50 | `fixups` | induction over events |
| C51 | encode/decode/encode | consequence of C16 + decoder range lemma |
| C52 | `Transpose.Execute` with nil context | case analysis |
| C53 | `Decode` | per-track function |
| C54 | `UnmarshalBinary` loop | decoding of a concatenation as continuation from the state |
| C55, C64 | `writeTSV`, encoding/csv | grammar of delimited text, with one reading |
| C56 | disassembly, then text assembly | grammar of assembly text; every line printed is in it; the assembler reads all of it |
| C83-C85 | the template text, user templates, text/template | symbolic execution of the parsed template against the listing; user templates by invariance of the trees of the layout; refuted by witnesses |
| C86, C87 | `run` from the command line to the disk | composition: flags (C72) to settings, settings to the command's arguments, the commands' results by C24, C33, C39, C43, C44, C62-C65, C71, C81-C84 |
| C88-C90 | `export`, `disassemble` read back by specification | the exported tree and every printed line against the readings of C79-C82; uniqueness of the readings; refuted by pairs of files |
| C91, C92 | `transpose` followed by `notes` or validation | relation between the runs over two files whose contents differ in pitch only; note matching and validation by induction over both; refuted by witnesses |
| C93 | `help`, the Help methods | the texts, line by line, against the flag sets; the examples through the flag parser (C73) |
| C94 | listing, JSON document, encoder | what each assembler encodes (C34, C56) has the same header and contents; the decoder never puts a continuation after a complete message |
| C95 | idle lines in assembly text | the chunks of the two texts have the same lines but for idle ones; the orders of the manufacturers are moved along with the lines |
| C96 | members of JSON documents | every reader gives the same for values that say the same; texts through C74 |
| C97 | middle C | two runs of every reader and operation are compared; results are equal after names are removed |
| C98 | configurations of manufacturers | as C97, for tables in which the IDs that occur in files stand for themselves |
| C99 | work of transposing | the passes of the loop are counted beside the model and compared with the number of key signatures |
| C100 | templates of the user | a grammar of templates with the texts they stand for (`SpecUserTemplate.v`); the lexer gives its tokens, the parser its nodes, the execution its text; then the whole listing as for C84 |
| C101 | warnings about pairing | complaints due by `sounds` and `down_before` of C39, compared with the lines; the loop invariant of C39 |
| C102 | warnings about precision | time lost by exact arithmetic; refuted both ways, holds if the ticks divide the tempos |
| C103 | levels of logging | the text is cut into lines again and sorted by level; the NoteOff lines by the order of the track |
| C104 | text of the validation report | findings by position from the file alone, strictly sorted; lines injective, so unique reading |
| C105 | what a run writes to stderr | run of the command line composed with C104 and C101 |
| C106 | how a run ends | outcome of each command on decoded files (C20, C23, C41, C42, C64), composed with the command line |
| C107 | tags, channels, middle C from texts | search in any permutation of the table; inversion of the pattern; exactly one name assumed for tags |
| C108 | tempo and time signature as text | error bound of the rounded quotient, exactness of halves |
| C109 | columns of the notes listing | widths of numerals, names and durations; counterexample from 610 s on |
| C110 | how the assembly of a JSON document ends, exactly | equivalences for the four outcomes, step by step: fields, events, tracks, header, text, command line |
| C111 | how the assembly of a text ends, exactly | shapes of the patterns, leftmost reading with greedy and lazy choices resolved, equivalences for the four outcomes of lines, chunks, texts and runs |
| C112 | members and layout of the exported document | an automaton for the layout through which every written text runs, status bytes by cases over the decoder, header from the 14 bytes |
| C113 | the decoder of a kind reads its own kind only | one lemma per group of methods against the decoder for all events, tables of kinds checked by computation, all paths to a result |
| C114 | the way a file writes its messages does not matter | induction over the common list of messages; every operation factors through the file without its bytes |
| C115 | the manufacturer table decides only what a manufacturer is called | the readings with two tables related step by step; names put in afterwards |
| C116 | a file written anew is treated like the file it was made of | induction over both readings with the empty table; every operation factors through what is left |
| C117 | no channel is special | both readings related message by message; notes as permutations of the renamed ones |
| C118 | when and what are independent; only the ratio of delta times to the resolution counts | both readings related message by message; time arithmetic without wrap-around |
| C119 | results and error reports on standard output | cases of the commands and of the ways they end |
| C120 | events that make no sound do not move notes | stable sorting commutes with filtering; refuted for silent events with a delta time |
| C121 | controllers and manufacturers are named as the MIDI specification numbers them | sweep over the controller numbers and over an independently written register; keys of IDs are injective; ranges of decoded events |
| C122 | slower tempi make nothing earlier | growing delays along the merged events (induction), rounding to milliseconds, matching up to the order of maps |
| C123 | the order of the tracks after the first one does not matter | chunks are decoded one by one (C53); permutations of lists of tracks |
| C124 | velocities change nothing but velocities; note on of velocity 0 is note off | simulation of the note list, for any relation between velocities |
| C125 | a track added to a file changes nothing about the others | chunks are decoded one by one (C53); everything made of a list of tracks is made track by track |
| C126 | a rest before all tracks delays all notes | the rest is one event of the sorted list, only tempo changes come before it; simulation of the times and of the notes after it; refuted for one common delay |
| C127 | a track divided by channels has the same notes | sorting keeps the division; the pending keys are divided like the events; times from C40 where they are right, refuted in general |
| C128 | a tempo set again changes nothing | the sorted list is a merge of track and tempo map (C40); the event added has no delta time there and leaves time and tempo |
| C129 | all tempi k times as long: all times k times as long | simulation of the two time stamp runs with the invariant k a <= b <= k a + k m after m events; nothing takes time before the first tempo |
| C130 | key signatures change names of notes and nothing else | simulation through sorting, time stamps and pairing with a relation that forgets the key; equality if the signs agree |
| C131 | channels taken out of a file leave the notes of the others | from the division of C127 and that every note is on the channel of a NoteOn event of its track; times refuted by a witness |
| C132 | notes end the same way by NoteOff and by NoteOn with velocity 0 | equality of the runs over lists that differ only in such messages; pending notes are the same throughout |
| C57, C58 | text and JSON assembler on any input | sufficient conditions, refutations by witness |
| C59-C61 | `Event.UnmarshalBinary` | agreement with the stream decoder, refutations |
| C62, C63, C74 | text level of JSON | RFC 8259 as inductive grammar; writer in it, reader accepts all of it and, for files in UTF-8, nothing else |
| C65, C71 | listing and JSON form of the notes | grammars of the texts with one reading; for float64 a bound of 2^-53 per rounding, combined over the rationals |
| C72 | `LoadManufacturers`, `Manufacturer.UnmarshalJSON` | every entry made comes from a lookup; table sweep; refutations |
| C66-C70, C73 | command line and commands | a run as a function of the files; command lines as inductive grammar, which the parser accepts exactly |

Method common to round trips: an inductive grammar of the well-formed texts (or
byte strings) with their values; the encoder's output is in it; the decoder
reads everything in it with the right value.  Statements that are false of the
code are proved false (`_refuted`, by witness), and the part that holds is
proved as `_partial` with the full statement in the comment.

## 4. Trusted base

* Coq 8.16.1: its kernel, including `vm_compute` for the examples, witnesses and
  finite tables.  No axioms: `Print Assumptions` says "Closed under the global
  context" for every theorem.  (The seven axioms of `Coq.ssr.ssrunder` that
  `coqchk` may list belong to the standard library, are loaded by `lia`'s
  preprocessing and are used by no theorem.)
* The reading of the Go code, function by function, in the model files above.  It
  gives the expected result of every test of the project that it can state
  (`Conformance*.v`; left out are tests of two
  functions the program does not use).
* The reading of the parts of the Go library used, from its documentation:
  encoding/json (Go 1.23), encoding/csv (writer), regexp (leftmost-first
  matching of the expressions in the code), text/template (lexer, parser and
  execution for the actions listed in `Template.v`), strconv, fmt verbs used, bufio
  line reading, flag, path, time.Duration (`String`, `Round`, `Truncate`,
  `Seconds`), float64 arithmetic and shortest decimal printing.

Not modelled:

* texts of errors and usage; the report around an error is in `Stdout.v` (the log of `ops/notes` is in `NotesLog.v`, the warnings
  after validation are in `ValidateText.v`);
* of text/template: comments, variables, `with`, `block`, `break`, methods and functions
  other than those in `Template.v`; a user template that needs them is outside of C84
  and C85 (like one that is rejected, it parses to no value, or its execution is `Open`);
* reading and writing of open files never fails; no other program changes
  files during a run; file permissions are only "can be created or not";
* the program never sets `options.conf`, so runs have the built-in manufacturers;
  other theorems allow arbitrary additional ones;
* running out of memory, and integer sizes where no property can see them (`int`
  is 64 bits);
* in JSON documents with two lists under one key, what the second list leaves out:
  Go's decoder keeps the elements of the first where the second has null or no value;
* the JSON number -0, which is an error here and in Go except for the accidentals of a
  key signature;
* `commands/humanise.go` beyond its exit status (it does nothing else).

## 5. Findings

Behaviour that the proofs turned up (each with a `_refuted` theorem or a stated
condition of a `_partial` one):

* delta times of 2^28 and more are written as other delta times (C02);
* pitch bends of 128 and more change, the bytes are in the wrong order (C09);
* texts of 128 bytes and more get a one-byte length and cannot be read (C10); a text
  of 256 bytes can come back as 64 notes (C14, C16, and in `transpose`, C87);
* continuation and one-byte SysEx messages are changed or crash (C12, C20);
* errors of event parsers crash the decoder instead of being returned, a chunk
  that is only a header is dropped, a track that ends within an event is
  accepted (C20, C21);
* lengths in a file are trusted: 8 bytes make the decoder ask for 4 GiB (C76);
* validation crashes on files without tracks (C23);
* time signatures with exponent 8 or more lose their denominator, and encoding
  a denominator of 0 never ends (C11, C49, C57, C58);
* transposing a file twice in memory crashes (C52);
* the default tempo of the notes command is ten times too fast, and the click
  track is always empty (C40, C42);
* an event at the same tick as a tempo change comes before it and is timed with the tempo before, so a rest put before
  a piece delays its tracks by different times (C126);
* a delta time across tempo changes is timed with the last of them, so the time of a note depends on the other
  channels' events in its track (C127, C131);
* the text assembler can leave a goroutine behind (C38);
* note names printed with `--C4` are read without it, an octave apart (C30);
* B♯4 is read as 60 and C♭4 as 71, an octave off; G♯9 to B9 are accepted and
  written as status bytes; key names that no key has are read as C major (C78);
* notes and velocities above 127 in JSON are written as status bytes, data bytes and
  IDs are taken modulo 256, missing values are zero (C80);
* a comment that mentions MTrk ends the track in an assembly text: the lines after it
  are dropped without an error, and so are events before the first track (C82);
* Latin 1 texts are exported with U+FFFD for every accented letter, so different files give
  the same document; files with different messages can have the same listing (C90);
* notes limited to 127 by `transpose` fall together and one is lost to `notes`, which limits at 255 itself (C91);
* transposing a valid file with a text of 300 bytes, even by 0, can give an invalid one (C92);
* `help notes` does not explain `--json` and `--transpose`, `help disassemble` not `--templates`; the example
  for humanise has no input file; `help help` prints nothing (C93);
* a system exclusive message at the very end of a track loses its end mark through the listing but not through JSON (C94);
* a user template of white space is ignored without an error, and if one user
  template defines another, the listing depends on the iteration order of a map
  (C84, C85);
* an error of a single track's listing is reported with its arguments swapped
  (`commands/disassemble.go:146`, no theorem: messages of errors are not modelled);
* the tag read from a text with two names of tags (`TrackName Tempo`) depends on the iteration order of a map (C107; no command
  uses the function);
* the columns of the notes listing are nine characters wide for times, too few from ten minutes and ten seconds on
  (`10m10.125s`), so the labels behind move (C109);
* SMPTE time divisions become PPQN 0 through JSON (C34);
* `assemble` without `--out` writes nothing; failing runs of notes, click, tsv
  and split disassembly damage the existing output (C67);
* a text event between a tempo change and the end of a note moves the end of the note (C120);
* errors are reported on standard output instead of stderr, and click prints three empty lines there even if its result goes
  to a file (C119);
* a configuration file cannot define a manufacturer, region and name in it are
  ignored (C72);
* a configuration that lists a manufacturer 09 7F 01 makes the decoder take 00 7F 01 for it, and the file is
  written with the other ID (C98);
* `transpose --semitones -9223372036854775808` does not end in practice on a file with a key signature: the loop that adds
  octaves runs 5 * 10^18 times; 9223372036854775807 overflows and does the same (C99);
* the warning "loss of precision" of `notes` has nothing to do with losses: half a second exactly gives one, two thirds of a
  nanosecond lost give none (C102);
* `notes --debug` logs NoteOff events but no NoteOn event, and writes channel 10 as 3130 (C103); warnings show a note as
  `{3C 4334 4334}`, its name in hexadecimal (C101);
* `notes --json` prints 1.118 s as 1.1179999999999999 (C71).
