{"id": "C01", "title": "Delta times survive a write/read cycle", "statement": "Every delta time the SMF standard allows (0..0x0FFFFFFF), when written to a MIDI file and read back, comes back as the same number; reading consumes exactly the bytes that were written whatever bytes follow them, and the bytes written are the shortest possible encoding (1 to 4 bytes).", "quantifier": "all 2^28 delta times, all byte strings that may follow", "why_tests_cant": "268 million values times arbitrary suffixes; unit tests sample half a dozen.", "anchors": ["midi/lib/delta.go:Delta.MarshalBinary", "midi/lib/types.go:vlq2bin", "midi/events/event.go:VLQ", "midi/events/binary.go:vlq"]}
{"id": "C02", "title": "No delta time the API accepts is silently corrupted", "statement": "Any delta time the API lets a user specify (text or JSON source: 0..2^32-1) is either rejected or comes back unchanged after writing the MIDI file and reading it again.", "quantifier": "all 2^32 delta values", "why_tests_cant": "The domain is 2^32 values and the failing half-open interval is only reached by values no ordinary test uses.", "anchors": ["midi/lib/delta.go:ParseDelta", "midi/lib/delta.go:Delta.MarshalBinary", "midi/events/event.go:VLQ"]}
{"id": "C03", "title": "Variable-length quantity reader: value, extent and failure", "statement": "Reading a variable-length quantity from any byte stream stops at the first byte with the top bit clear, consumes exactly the bytes up to and including it, and returns the big-endian base-128 value of the 7-bit groups (modulo 2^32); it fails with end-of-input exactly when the stream has no such byte. All the copies of the reader in the code agree.", "quantifier": "all byte streams of any length", "why_tests_cant": "Infinite input domain including over-long encodings.", "anchors": ["midi/events/event.go:VLQ", "midi/events/binary.go:vlq", "midi/events/meta/metaevent.go:vlq", "midi/events/midi/midievent.go:vlq", "midi/events/sysex/sysex.go:vlq"]}
{"id": "C04", "title": "Length-prefixed data survives a write/read cycle", "statement": "Any block of data shorter than 2^28 bytes written with a variable-length length prefix is read back unchanged and exactly its own bytes are consumed, whatever follows.", "quantifier": "all byte blocks of length < 2^28 and all suffixes", "why_tests_cant": "Unbounded data; length-prefix boundary cases (127/128, 16383/16384, ...) are combinatorial with suffixes.", "anchors": ["midi/lib/types.go:vlf2bin", "midi/events/event.go:VLF", "midi/events/sysex/sysex.go:vlf"]}
{"id": "C05", "title": "File header decode accepts exactly the well-formed headers", "statement": "Decoding a file header succeeds exactly for 14 bytes 'MThd', length 6, format 0, 1 or 2, and a division that is metrical or has one of the four SMPTE frame rates; the decoded fields are the header's big-endian fields, and re-encoding the decoded header reproduces the 14 bytes.", "quantifier": "all byte strings", "why_tests_cant": "2^112 possible headers.", "anchors": ["midi/MThd.go:MThd.UnmarshalBinary", "midi/MThd.go:MThd.MarshalBinary", "midi/MThd.go:MakeMThd"]}
{"id": "C06", "title": "Written files are correctly framed", "statement": "Whatever the encoder writes without error is an MThd chunk followed by exactly one MTrk chunk per track in order; each chunk's length field equals the number of payload bytes that follow it (payload < 2^32); the header's track count equals the number of tracks; the header is the one supplied.", "quantifier": "all SMF values (any number of tracks, any events)", "why_tests_cant": "Must hold for every list of tracks and events.", "anchors": ["encoding/midi/encoder.go:encoder.Encode", "encoding/midi/encoder.go:EncodeMTrk"]}
{"id": "C07", "title": "Unknown chunks do not change what is decoded", "statement": "Inserting or removing complete non-MTrk chunks anywhere after the header does not change the decoded header or tracks; decoded track i is the i-th MTrk chunk decoded on its own, and a track count different from the header's is an error.", "quantifier": "all sequences of chunks, all chunk contents", "why_tests_cant": "Arbitrary chunk sequences and contents.", "anchors": ["encoding/midi/decoder.go:decoder.Decode", "encoding/midi/decoder.go:chunker.next"]}
{"id": "C08", "title": "Channel voice events survive a write/read cycle", "statement": "NoteOn, NoteOff, PolyphonicPressure, Controller, ProgramChange and ChannelPressure events with any legal channel and 7-bit data are decoded from their own encoding to the same kind, channel and values.", "quantifier": "all channels x all 7-bit data values x all deltas < 2^28", "why_tests_cant": "Cross product of kinds, channels, values and deltas.", "anchors": ["midi/events/midi/note_on.go", "midi/events/midi/note_off.go", "midi/events/midi/controller.go", "midi/events/midi/program_change.go", "midi/events/midi/channel_pressure.go", "midi/events/midi/polyphonic_pressure.go"]}
{"id": "C09", "title": "Pitch bend survives a write/read cycle", "statement": "A PitchBend event with any 14-bit bend value read from a MIDI file and written out again carries the same bend value.", "quantifier": "all 16384 bend values, all channels", "why_tests_cant": "The existing tests use bend 8, for which the two incompatible byte layouts coincide.", "anchors": ["midi/events/midi/pitch_bend.go:PitchBend.unmarshal", "midi/events/midi/pitch_bend.go:PitchBend.MarshalBinary"]}
{"id": "C10", "title": "Textual meta events survive a write/read cycle", "statement": "Text, Copyright, TrackName, InstrumentName, Lyric, Marker, CuePoint, ProgramName and DeviceName events with any text are decoded from their own encoding to the same kind and text.", "quantifier": "all texts of any length, all nine kinds", "why_tests_cant": "Unbounded text; a one-byte length field only breaks at 128 bytes.", "anchors": ["midi/events/meta/text.go", "midi/events/meta/copyright.go", "midi/events/meta/track_name.go", "midi/events/meta/lyric.go", "midi/events/meta/marker.go", "midi/events/meta/cue_point.go", "midi/events/meta/instrument_name.go", "midi/events/meta/program_name.go", "midi/events/meta/device_name.go"]}
{"id": "C11", "title": "Numeric meta events survive a write/read cycle", "statement": "SequenceNumber, MIDIChannelPrefix, MIDIPort, EndOfTrack, Tempo, SMPTEOffset, TimeSignature and KeySignature events with any value the standard allows are decoded from their own encoding to the same kind and values.", "quantifier": "all legal field values of the eight kinds", "why_tests_cant": "Cross product of field values (e.g. 2^24 tempos, all SMPTE offsets).", "anchors": ["midi/events/meta/tempo.go", "midi/events/meta/smpte_offset.go", "midi/events/meta/time_signature.go", "midi/events/meta/key_signature.go", "midi/events/meta/sequence_number.go", "midi/events/meta/midi_channel_prefix.go", "midi/events/meta/midi_port.go", "midi/events/meta/end_of_track.go"]}
{"id": "C12", "title": "System exclusive data survives a write/read cycle", "statement": "SysEx messages (any manufacturer ID, any data, single or multi-packet), continuation packets and escape packets read from a MIDI file and written out again carry the same bytes, including the F7 terminator.", "quantifier": "all manufacturer IDs and data of any length, all three packet kinds", "why_tests_cant": "Unbounded data, 256 + 65536 manufacturer IDs, history-dependent packet kind.", "anchors": ["midi/events/sysex/message.go", "midi/events/sysex/continuation_message.go", "midi/events/sysex/escape_message.go", "midi/lib/manufacturer.go:LookupManufacturer"]}
{"id": "C13", "title": "Sequencer specific events survive a write/read cycle", "statement": "A SequencerSpecificEvent with any manufacturer ID and data is decoded from its own encoding to the same manufacturer ID and data.", "quantifier": "all manufacturer IDs, all data", "why_tests_cant": "Unbounded data, table lookup over all IDs.", "anchors": ["midi/events/meta/sequencer_specific.go", "midi/lib/manufacturer.go:LookupManufacturer"]}
{"id": "C14", "title": "A whole track survives a write/read cycle", "statement": "Encoding a track of well-formed events (any length, any mix of kinds) and decoding the result gives the same events in the same order with the same delta times, and ticks equal to the running sum of the deltas.", "quantifier": "all event lists of any length", "why_tests_cant": "Interaction of running status, context and event kinds over unbounded sequences.", "anchors": ["encoding/midi/encoder.go:EncodeMTrk", "midi/MTrk.go:MTrk.UnmarshalBinary", "midi/MTrk.go:parse"]}
{"id": "C15", "title": "Running status compression on write is transparent", "statement": "The status bytes the encoder omits never change what a reader sees: decoding the compressed track gives the same events as decoding the same track with every status byte written out.", "quantifier": "all event lists of any length", "why_tests_cant": "Omission depends on the whole preceding history; omission patterns are unbounded.", "anchors": ["encoding/midi/encoder.go:EncodeMTrk"]}
{"id": "C16", "title": "A whole file survives a write/read cycle", "statement": "Encoding any well-formed SMF (header plus tracks of well-formed events) and decoding the bytes gives an SMF with the same header fields and the same events per track.", "quantifier": "all well-formed SMF values, any number of tracks and events", "why_tests_cant": "Unbounded structures.", "anchors": ["encoding/midi/encoder.go:encoder.Encode", "encoding/midi/decoder.go:decoder.Decode"]}
{"id": "C17", "title": "Running status is cancelled by meta and SysEx events", "statement": "After a meta event or a SysEx event a data byte without a status byte is an error; after a channel event with status s, an event starting with a data byte is decoded exactly as if s had been written before it.", "quantifier": "all track prefixes, all data bytes", "why_tests_cant": "Must hold after every history of events.", "anchors": ["midi/MTrk.go:parse"]}
{"id": "C18", "title": "Ticks are the running sum of delta times", "statement": "Each event of a decoded track has a tick equal to the sum of all the delta times up to and including its own (while that sum is below 2^32), so ticks never decrease along a track.", "quantifier": "all decodable tracks of any length", "why_tests_cant": "Induction over unbounded event sequences.", "anchors": ["midi/MTrk.go:MTrk.UnmarshalBinary"]}
{"id": "C19", "title": "Decoding accounts for every byte", "statement": "The raw bytes attached to the decoded events of a track, concatenated, are exactly the track's payload from its first byte: no byte is skipped, duplicated or attributed to two events (up to a possible incomplete final event).", "quantifier": "all decodable tracks", "why_tests_cant": "Unbounded sequences and every combination of event kinds.", "anchors": ["midi/MTrk.go:MTrk.UnmarshalBinary", "midi/reader.go:reader"]}
{"id": "C20", "title": "The decoder never crashes on malformed input", "statement": "Decoding any byte string either returns an SMF or returns an error; it never panics.", "quantifier": "all byte strings", "why_tests_cant": "Universal over all inputs; fuzzing samples.", "anchors": ["encoding/midi/decoder.go:decoder.Decode", "midi/MTrk.go:parse", "midi/events/event.go:NewEvent", "midi/events/sysex/message.go", "midi/events/meta/sequencer_specific.go"]}
{"id": "C21", "title": "Truncated tracks are reported", "statement": "If a file is cut off so that a track's payload ends in the middle of an event (or a chunk's payload is missing), decoding returns an error rather than silently dropping the incomplete event or chunk.", "quantifier": "every truncation point of every file", "why_tests_cant": "Every crash/truncation point of every input.", "anchors": ["midi/MTrk.go:MTrk.UnmarshalBinary", "encoding/midi/decoder.go:chunker.next"]}
{"id": "C22", "title": "Validation reports exactly the rule violations", "statement": "Validation reports nothing exactly when: a format 0 file has exactly one track; in a format 1 file track 0 contains only tempo-map events and the other tracks contain no Tempo or SMPTEOffset; every track ends with its only EndOfTrack; and every Bank Select MSB is immediately followed by a Bank Select LSB on the same channel and vice versa.", "quantifier": "all SMF values", "why_tests_cant": "Unbounded tracks and events, rules about adjacency and uniqueness.", "anchors": ["midi/smf.go:SMF.Validate", "midi/smf.go:SMF.validateFormat0", "midi/smf.go:SMF.validateFormat1"]}
{"id": "C23", "title": "Validation never crashes on a decoded file", "statement": "Validating any SMF that the decoder returned terminates with a list of errors, never a panic.", "quantifier": "all decodable files", "why_tests_cant": "Universal over all inputs.", "anchors": ["midi/smf.go:SMF.Validate", "midi/smf.go:SMF.validateFormat1", "encoding/midi/decoder.go:decoder.Decode"]}
{"id": "C24", "title": "Transposition moves every note by the requested amount and nothing else", "statement": "Transposing an SMF by n semitones changes each NoteOn/NoteOff note value v to v+n limited to 0..127 and keeps channel, velocity, delta and tick; every other event except KeySignature is passed through unchanged; track count, track order, event count, event order and header are unchanged.", "quantifier": "all SMF values, all integers n", "why_tests_cant": "All event sequences times all n.", "anchors": ["ops/transpose/transpose.go:Transpose.Execute", "midi/events/midi/note_on.go:NoteOn.Transpose", "midi/events/midi/note_off.go:NoteOff.Transpose"]}
{"id": "C25", "title": "Transpositions compose and invert when nothing is clipped", "statement": "As long as no note leaves 0..127, transposing by a then by b has the same note values as transposing by a+b, and transposing by n then -n restores every note value; relative intervals between notes are preserved; and transposing a legal file by a, writing it, reading it back and transposing by b writes exactly the bytes that transposing by a+b writes.", "quantifier": "all note values, all a, b; all legal files", "why_tests_cant": "Two-parameter family over all integers.", "anchors": ["midi/events/midi/note_on.go:NoteOn.Transpose", "midi/events/midi/note_off.go:NoteOff.Transpose"]}
{"id": "C26", "title": "Key signatures transpose to the right key", "statement": "Transposing a key signature by n gives a key signature of the same mode whose tonic is n semitones away modulo 12, with an accidental count in -7..7 that is the correct signature of that key; transposing by a multiple of 12 preserves the tonic's pitch class, and transposing by a then b gives the same key as a+b.", "quantifier": "all 30 keys, all integers n", "why_tests_cant": "Infinite range of n (including negatives and multiples of 12).", "anchors": ["midi/lib/scales.go:Scale.Transpose", "midi/events/meta/key_signature.go:KeySignature.Transpose"]}
{"id": "C27", "title": "A key signature is unchanged by transposing zero semitones", "statement": "Transposing by 0 semitones leaves a file's key signatures unchanged.", "quantifier": "all 30 key signatures", "why_tests_cant": "Existing tests only cover canonical spellings.", "anchors": ["midi/lib/scales.go:Scale.Transpose", "midi/events/meta/key_signature.go:KeySignature.Transpose"]}
{"id": "C28", "title": "The scale tables are musically right", "statement": "Each of the 15 major and 15 natural minor scales has a pattern of whole and half steps of its mode, uses each letter name once, has exactly the number of sharps or flats its key signature announces, and there is exactly one scale per accidental count -7..7 and mode.", "quantifier": "all 30 scales", "why_tests_cant": "Whole-table semantic constraint.", "anchors": ["midi/lib/scales.go:MajorScale", "midi/lib/scales.go:MinorScale", "midi/lib/note.go"]}
{"id": "C29", "title": "A NoteOff is named like the NoteOn it ends", "statement": "In a decoded track a NoteOff's displayed name is the name displayed for the latest preceding NoteOn of the same channel and note, even if the key signature changed in between; if there was none it is the name under the key signature in force.", "quantifier": "all tracks, all histories of key signatures and notes", "why_tests_cant": "History-dependent over unbounded sequences.", "anchors": ["midi/context/context.go:Context.GetNoteOff", "midi/context/context.go:Context.PutNoteOn", "midi/MTrk.go:MTrk.UnmarshalBinary"]}
{"id": "C30", "title": "Note names denote note values", "statement": "For every note value 0..127 and either sharps or flats naming, the displayed name parsed back gives the same note value.", "quantifier": "all 128 notes, both naming tables, both middle C conventions", "why_tests_cant": "Names are produced and consumed by different code with different conventions.", "anchors": ["midi/context/context.go:Context.FormatNote", "midi/events/midi/midievent.go:FormatNote", "midi/events/midi/note_on.go:ParseNote", "midi/events/midi/note_on.go:NoteOn.UnmarshalText"]}
{"id": "C31", "title": "ProgramChange reports the selected bank", "statement": "The bank shown for a ProgramChange is 128 x MSB + LSB of the latest Bank Select MSB and LSB controllers on the same channel of the track (0 where none), and is not affected by other channels.", "quantifier": "all tracks, all histories of controllers on 16 channels", "why_tests_cant": "History-dependent, value-dependent (fails only for values >= 64).", "anchors": ["midi/MTrk.go:MTrk.UnmarshalBinary", "midi/events/midi/program_change.go:ProgramChange.SetBank"]}
{"id": "C32", "title": "Multi-packet SysEx is recognised from history", "statement": "An F7 packet is decoded as a continuation exactly when the most recent SysEx packet sequence in the track was opened by an F0 packet that did not end in F7 and has not been closed by a packet ending in F7; otherwise it is an escape packet. An F0 packet inside an open sequence is an error.", "quantifier": "all histories of SysEx and other events", "why_tests_cant": "Depends on the whole preceding sequence.", "anchors": ["midi/MTrk.go:parse", "midi/events/sysex/sysex.go:Parse"]}
{"id": "C33", "title": "Events survive JSON export and import", "statement": "Exporting an event as JSON and importing it again gives the same kind of event with the same delta and values.", "quantifier": "all events of all kinds", "why_tests_cant": "28 kinds x all values.", "anchors": ["midi/events/json.go:Event.UnmarshalJSON", "midi/events/meta", "midi/events/midi", "midi/events/sysex"]}
{"id": "C34", "title": "A file survives JSON export and assembly", "statement": "Exporting a decoded file as JSON and assembling the JSON gives back a file with the same header and the same events.", "quantifier": "all decodable files", "why_tests_cant": "Unbounded files; time-division variants.", "anchors": ["ops/export/export.go:Export.Export", "ops/assemble/json.go:JSONAssembler.Assemble", "midi/MThd.go"]}
{"id": "C35", "title": "A line of assembly text is read as the kind of event it names", "statement": "A disassembled event line is parsed as the event kind it was produced from, whatever the text it carries contains.", "quantifier": "all events, all texts", "why_tests_cant": "The text payload is arbitrary and may contain any other tag.", "anchors": ["midi/events/text.go:Event.UnmarshalText"]}
{"id": "C36", "title": "Events survive disassembly and assembly as text", "statement": "The text line produced for an event, parsed again, gives the same kind of event with the same delta and values.", "quantifier": "all events of all kinds", "why_tests_cant": "All values and texts; regular expressions that silently stop early or reject.", "anchors": ["ops/disassemble/template", "midi/events/text.go:Event.UnmarshalText", "midi/events/meta", "midi/events/midi", "midi/events/sysex"]}
{"id": "C37", "title": "Assembly text is divided into header and tracks line by line", "statement": "In assembly text each 'MThd' or 'MTrk' line starts a new chunk that contains every following non-empty, non-comment line up to the next such line, in order and without loss.", "quantifier": "all texts", "why_tests_cant": "Unbounded texts.", "anchors": ["ops/assemble/text.go:TextAssembler.read", "ops/assemble/text.go:TextAssembler.scan", "ops/assemble/text.go:TextAssembler.chunkify"]}
{"id": "C38", "title": "The text assembler pipeline delivers every chunk and terminates", "statement": "Under every scheduling of the reader, scanner and chunker goroutines, an assembly that runs to the end delivers each line exactly once in order and all goroutines terminate; an early error return leaves no goroutine blocked forever.", "quantifier": "all inputs, all interleavings", "why_tests_cant": "Schedules; goroutine leaks are invisible to unit tests.", "anchors": ["ops/assemble/text.go:TextAssembler.Assemble", "ops/assemble/text.go:TextAssembler.read", "ops/assemble/text.go:TextAssembler.chunkify"]}
{"id": "C39", "title": "Every sounding note is listed once with the right pitch and order", "statement": "In the notes listing of a track each listed note corresponds to one NoteOn (velocity > 0) and the first matching NoteOff (or zero-velocity NoteOn, or EndOfTrack) after it on the same channel and note; its end is not before its start; no NoteOn that starts a note is lost or listed twice.", "quantifier": "all event sequences", "why_tests_cant": "Matching over unbounded histories.", "anchors": ["ops/notes/notes.go:buildNoteList"]}
{"id": "C40", "title": "Note times follow the tempo map", "statement": "The time reported for an event is the sum over the tempo segments before it of ticks x tempo / ppqn.", "quantifier": "all tempo maps, all tracks", "why_tests_cant": "Interleaving of tempo changes and track events.", "anchors": ["ops/notes/notes.go:buildTrackEvents", "ops/notes/notes.go:buildTempoMap"]}
{"id": "C41", "title": "Note extraction never crashes", "statement": "Extracting notes from any decoded file returns a result or an error, never a panic, and lists the notes of every track including those of a single-track (format 0) file.", "quantifier": "all decodable files", "why_tests_cant": "Universal over all files incl. SMPTE division, PPQN 0, no tracks.", "anchors": ["ops/notes/notes.go:Notes.Execute", "ops/notes/notes.go:extract"]}
{"id": "C42", "title": "The click track contains the beats of the file", "statement": "The click command reports at least one beat for a file with tempo, time signature and notes.", "quantifier": "all decodable files", "why_tests_cant": "Depends on dynamic type tests that no test exercises.", "anchors": ["ops/click/click.go:ClickTrack.Execute"]}
{"id": "C43", "title": "The TSV table shows every event in its own cells", "statement": "In the TSV table, track i event j occupies row j+1, columns 7i..7i+6 with its tick, delta, tag, channel, note, velocity, details; row 0 holds the column titles; every other cell is empty; all rows have equal length.", "quantifier": "all SMF values", "why_tests_cant": "Unbounded tables, index arithmetic.", "anchors": ["commands/tsv.go:tsv.export", "commands/tsv.go:fields"]}
{"id": "C44", "title": "Tabular output columns are aligned", "statement": "In the fixed width table every cell of a column is padded to the same width, wide enough for the longest cell (up to characters that take more than one byte).", "quantifier": "all tables", "why_tests_cant": "All sizes and contents.", "anchors": ["commands/tsv.go:writeTable"]}
{"id": "C45", "title": "Disassembly hex columns have a fixed width", "statement": "The hex column of each disassembled event is exactly 42 characters wide, shows a prefix of the event's bytes and marks any omission with an ellipsis.", "quantifier": "all events with any number of bytes", "why_tests_cant": "Unbounded byte strings and variable-length deltas.", "anchors": ["ops/disassemble/disassemble.go:ellipsize", "ops/disassemble/disassemble.go:pad", "ops/disassemble/disassemble.go:valign"]}
{"id": "C46", "title": "Hex strings denote their bytes", "statement": "Formatting any byte string as hex and parsing it gives the same bytes; the JSON form likewise.", "quantifier": "all byte strings", "why_tests_cant": "Unbounded.", "anchors": ["midi/lib/hex.go:Hex.String", "midi/lib/hex.go:ParseHex", "midi/lib/hex.go:Hex.MarshalJSON", "midi/lib/hex.go:Hex.UnmarshalJSON"]}
{"id": "C47", "title": "Looking up a manufacturer or controller never changes its ID", "statement": "The ID of the manufacturer (or controller) attached to a decoded event is the ID that was in the file.", "quantifier": "all 1-byte and 3-byte manufacturer IDs, all controller numbers", "why_tests_cant": "65,792 IDs against a hand-written table.", "anchors": ["midi/lib/manufacturer.go:LookupManufacturer", "midi/lib/controller.go:LookupController"]}
{"id": "C48", "title": "Manufacturer names identify manufacturers independently of map order", "statement": "Looking a manufacturer up by the name that is displayed gives the same manufacturer whatever the iteration order of Go maps.", "quantifier": "all table entries, all iteration orders", "why_tests_cant": "Go randomises map order; a test sees one order.", "anchors": ["midi/lib/manufacturer.go:FindManufacturer"]}
{"id": "C49", "title": "Time signatures of any denominator are handled", "statement": "Creating or writing a time signature terminates for every denominator and writes the exponent of the denominator.", "quantifier": "all 256 denominators", "why_tests_cant": "The failing values loop forever rather than fail.", "anchors": ["midi/events/meta/time_signature.go:MakeTimeSignature", "midi/events/meta/time_signature.go:TimeSignature.MarshalBinary"]}
{"id": "C50", "title": "The assembler closes SysEx messages", "statement": "After assembly, a SysEx message or continuation not followed by a continuation is written with its F7 terminator and one that is followed by a continuation is written without, for every event list.", "quantifier": "all event lists", "why_tests_cant": "Adjacency over unbounded lists including empty and last-event cases.", "anchors": ["ops/assemble/assemble.go:fixups"]}
{"id": "C51", "title": "Re-encoding is stable", "statement": "Decoding a file, encoding it and decoding the result gives the same events as the first decode, so that repeated decode/encode cycles reach a fixed point after one step.", "quantifier": "all decodable files", "why_tests_cant": "Universal over decodable inputs, including non-canonical encodings.", "anchors": ["encoding/midi/decoder.go", "encoding/midi/encoder.go"]}
{"id": "C52", "title": "A transposed file can be transposed again", "statement": "Transposition can be applied repeatedly to the same in-memory file without failing.", "quantifier": "all files with a key signature, all n", "why_tests_cant": "State carried between operations on the same object.", "anchors": ["ops/transpose/transpose.go:Transpose.Execute", "midi/events/meta/key_signature.go:KeySignature.Transpose"]}
{"id": "C53", "title": "Tracks are decoded independently", "statement": "The decoding of a track depends only on its own bytes and its position, never on other tracks.", "quantifier": "all files, all permutations of tracks", "why_tests_cant": "Shared mutable context between tracks would only show for particular orders.", "anchors": ["encoding/midi/decoder.go:decoder.Decode", "midi/context/context.go:NewContext"]}
{"id": "C54", "title": "Decoding is prefix-compositional", "statement": "If the first part of a track decodes to events E and leaves decoder state s, then decoding the whole track gives E followed by the events of the rest decoded from state s: earlier events are never changed by later bytes.", "quantifier": "all tracks and split points at event boundaries", "why_tests_cant": "All split points of all inputs.", "anchors": ["midi/MTrk.go:MTrk.UnmarshalBinary", "midi/MTrk.go:parse"]}
{"id": "C55", "title": "The TSV file holds the rows of the table", "statement": "The records written to a TSV file are the rows of the table: the row of column titles for all tracks once, then one row per event index, all with the same number of fields.", "quantifier": "all SMF values", "why_tests_cant": "All numbers of tracks and events.", "anchors": ["commands/tsv.go:writeTSV", "commands/tsv.go:tsv.export"]}
{"id": "C56", "title": "A file survives disassembly and assembly of the text", "statement": "Disassembling a decoded file to text and assembling that text gives a file that decodes to the same header, the same tracks and the same events (delta times and values).", "quantifier": "all files that decode, all manufacturer search orders", "why_tests_cant": "All combinations of events, texts, names and packet sequences.", "anchors": ["ops/disassemble/disassemble.go:Disassemble.Print", "ops/assemble/text.go:TextAssembler.Assemble", "encoding/midi/encoder.go:encoder.Encode"]}
{"id": "C57", "title": "Assembling any text ends with a file or an error", "statement": "For every text the text assembler ends, without a crash, with an encoded file or with an error.", "quantifier": "all byte strings, all manufacturer search orders", "why_tests_cant": "All texts; crashes and endless loops hide in rare combinations of values.", "anchors": ["ops/assemble/text.go:TextAssembler.Assemble", "midi/events/text.go:Event.UnmarshalText", "ops/assemble/assemble.go:fixups"]}
{"id": "C58", "title": "Assembling any JSON document ends with a file or an error", "statement": "For every JSON document the JSON assembler ends, without a crash, with an encoded file or with an error.", "quantifier": "all JSON documents", "why_tests_cant": "All documents; crashes and endless loops hide in rare values.", "anchors": ["ops/assemble/json.go:JSONAssembler.Assemble", "midi/events/json.go:Event.UnmarshalJSON", "midi/events/meta", "midi/events/midi"]}
{"id": "C59", "title": "A free-standing event is read back", "statement": "For every event that can be written as a Standard MIDI File event, Event.UnmarshalBinary, given its delta time and complete bytes, returns an event with the same delta time and content; in particular everything MarshalBinary writes is read back.", "quantifier": "all events of every type, all delta times, all payloads", "why_tests_cant": "Unit tests decode one sample per event type; the claim covers all payloads and delta encodings, including non-minimal ones.", "anchors": ["midi/events/binary.go:Event.UnmarshalBinary", "midi/events/meta", "midi/events/midi", "midi/events/sysex"]}
{"id": "C60", "title": "The two event decoders agree", "statement": "Event.UnmarshalBinary and the track decoder accept the same single events and read the same status, type, delta time and content from them.", "quantifier": "all byte strings", "why_tests_cant": "Two independent implementations of the same format; tests never compare them, and differences sit in rare lengths and values.", "anchors": ["midi/events/binary.go:Event.UnmarshalBinary", "midi/MTrk.go:parse"]}
{"id": "C61", "title": "Reading a free-standing event never crashes", "statement": "For every byte string Event.UnmarshalBinary returns an event or an error.", "quantifier": "all byte strings", "why_tests_cant": "All byte strings; crashes hide in inconsistent length fields.", "anchors": ["midi/events/binary.go:Event.UnmarshalBinary", "midi/events/meta", "midi/events/sysex", "midi/events/meta/metaevent.go:vlf"]}
{"id": "C62", "title": "Exported JSON is JSON", "statement": "The text written by export for a decoded file is JSON text as RFC 8259 defines it and stands for the exported tree and no other.", "quantifier": "all decoded files, all user manufacturer lists", "why_tests_cant": "Texts and names may contain quotes, control characters, invalid UTF-8 and line separators; only a few ASCII files are tested.", "anchors": ["ops/export/export.go:Export.Export", "midi/smf.go:SMF", "midi/MTrk.go:MTrk"]}
{"id": "C63", "title": "All JSON texts are read", "statement": "The JSON assembler reads every JSON text as the tree it stands for, whatever white space, escapes and key order it uses.", "quantifier": "all trees and all texts for them", "why_tests_cant": "Infinitely many texts for each tree; tests only use the layout that export writes.", "anchors": ["ops/assemble/json.go:JSONAssembler.Assemble"]}
{"id": "C64", "title": "The TSV file can be read back", "statement": "The TSV file written for a decoded file is delimiter separated text that stands for the exported table and no other, whatever delimiter is chosen and whatever the texts in the file contain.", "quantifier": "all decoded files, all delimiter options", "why_tests_cant": "Texts may hold delimiters, quotes, line ends and invalid UTF-8, and the delimiter may be any character; there are no tests of this command.", "anchors": ["commands/tsv.go:writeTSV", "commands/tsv.go:tsv.Execute"]}
{"id": "C65", "title": "The notes listing says what the notes are, and can be read in one way only", "statement": "For every file from which the notes command extracts notes, the printed listing has exactly one line per note, in order, each giving the note's name, channel, note number in hexadecimal, velocity, and start, end and duration; the times in Go duration notation denote exactly the listed times (which are whole milliseconds, short of the end of the 64-bit range). The text determines the list of values: no two different lists have the same listing.", "quantifier": "all files, transpositions, map iteration orders and all 64-bit times (every duration text, every unit combination, negative values)", "why_tests_cant": "The claim ranges over every 64-bit duration (fractions, unit changes at 1us/1ms/1s/1m/1h, zero stripping) and over pairs of listings; padding shorter than the value could make two different lists print alike and only a proof excludes that.", "anchors": ["ops/notes/notes.go:282-292", "ops/notes/notes.go:119-145", "ops/notes/notes.go:187-256"]}
{"id": "C66", "title": "A run changes only the output files", "statement": "Whatever the command line and the files, a run of the program changes no file except the one named with -out (in any spelling the flag package accepts) and, with -split, files whose names end in .MThd or .MTrk.", "quantifier": "all command lines, all file systems (contents, writability, links between names), all input files, all map iteration orders and template files", "why_tests_cant": "Argument lists and file systems are unbounded; a test can only check that the files it looks at are unchanged for the command lines it tries.", "anchors": ["cmd/midiasm/main.go:39-117", "commands/disassemble.go:51-153", "commands/assemble.go:46-78", "commands/notes.go:48-87", "commands/tsv.go:59-87", "commands/transpose.go:47-89", "commands/export.go:45-90", "commands/click.go:44-79"]}
{"id": "C67", "title": "A run that fails leaves all files as they were", "statement": "If a run ends with an error, a crash or an endless loop, no file has been changed.", "quantifier": "all commands, command lines, file systems and input files", "why_tests_cant": "Whether the output file is already truncated when a failure is found depends on where in the command each kind of failure occurs, for arbitrary malformed input.", "anchors": ["commands/assemble.go:46-78", "commands/transpose.go:67-89", "commands/export.go:45-90", "commands/disassemble.go:94-153", "commands/notes.go:66-87", "commands/click.go:64-79", "commands/tsv.go:59-87"]}
{"id": "C68", "title": "What a command line means", "statement": "Spelling of options (one or two dashes, value after = or as next argument, integers in any Go base, any accepted boolean), their order and whatever follows the file name make no difference; the last value given counts; no command name means disassemble; an unknown option ends the program with exit code 2 and no effect; outputs default as documented.", "quantifier": "all argument lists of the option grammar, for every command", "why_tests_cant": "There are unboundedly many spellings and orders of the same settings.", "anchors": ["cmd/midiasm/main.go:14-28", "cmd/midiasm/main.go:90-117", "commands/assemble.go:20-42"]}
{"id": "C69", "title": "Runs undo each other", "statement": "A MIDI file that one run disassembles (or exports as JSON) to a file and another run assembles from that file decodes to the same header and events as the original, and no other file changes.", "quantifier": "all MIDI files, all file names, all file systems", "why_tests_cant": "Needs every file, name and combination of commands; depends on the choice of assembler by extension, on options and on both formats.", "anchors": ["commands/disassemble.go:51-109", "commands/export.go:45-90", "commands/assemble.go:46-78", "ops/assemble/text.go", "ops/assemble/json.go"]}
{"id": "C70", "title": "Split output is the whole output", "statement": "With -split, disassemble writes one file for the header and one per track, numbered 0 to n-1 and with the same prefix; put together in this order they are exactly the text printed without -split; no other file changes; a file dirs/stem.ext gives dirs/stem.MThd and dirs/stem-i.MTrk beside it, an output directory dirs/d gives dirs/d/d.MThd and dirs/d/d-i.MTrk.", "quantifier": "all decodable MIDI files with tracks, all file names and output directories", "why_tests_cant": "File names go through path.Base, path.Ext, path.Dir, path.Join for arbitrary names; numbers of tracks are unbounded up to 65535 and names must not collide.", "anchors": ["commands/disassemble.go:84-153"]}
{"id": "C71", "title": "The JSON form of the notes is valid, complete and unambiguous", "statement": "For every file whose notes can be extracted, `notes --json` writes an RFC 8259 text: an object with the field notes, null without notes, otherwise an array with one object per note in order, whose fields channel, midi-note, note, velocity, start, end and duration hold the values of the note. The times are decimal numbers within ten microseconds of the time in seconds, so the whole milliseconds (and with them the whole list) can be told from the text. That the numbers are the times exactly is refuted: 1.118 s is written as 1.1179999999999999.", "quantifier": "all files and transpositions for which extraction succeeds, all iteration orders of the map of sounding notes, all times of 64 bits in whole milliseconds (float64 rounding modelled exactly)", "why_tests_cant": "The times go through two float64 roundings and a shortest-digits search; there are about 1.8e13 whole-millisecond durations, and the error bound must hold for each of them. Tests with round times (0.5 s) never see a rounding.", "anchors": ["ops/notes/notes.go:294-332", "ops/notes/notes.go:47-59", "midi/lib/channel.go:42-46"]}
{"id": "C72", "title": "A configuration file defines manufacturers", "statement": "The manufacturers listed in a configuration file of the documented form are known after it has been loaded, by the regions and names that it gives, and no other manufacturer changes.", "quantifier": "all configuration files (any JSON text), all manufacturer IDs", "why_tests_cant": "the files and IDs are unbounded; the test of the reader only uses a manufacturer that is built in, for which a lookup and the file agree", "anchors": ["midi/lib/manufacturer.go:LoadManufacturers", "midi/lib/manufacturer.go:UnmarshalJSON", "midi/lib/manufacturer.go:AddManufacturers"]}
{"id": "C73", "title": "A command line means one thing or nothing happens", "statement": "A command line is read in at most one way as options of its command followed by arguments. If it cannot be read that way (an unknown option, a value that is no integer or boolean, a missing value), the program stops with exit code 2, or 0 if help was asked for, prints no result and changes no file.", "quantifier": "all commands, all argument lists, all files", "why_tests_cant": "argument lists and integer spellings (bases, signs, underscores, 64-bit limits) are unbounded, and a test shows only that a particular wrong spelling is refused", "anchors": ["cmd/midiasm/main.go:parse", "commands/*.go:Flagset"]}
{"id": "C74", "title": "The JSON reader accepts JSON and nothing else", "statement": "A file in UTF-8 is read as a tree exactly if it is a JSON text (RFC 8259) for that tree with white space around it and at most 10000 levels of nesting. In files that are not UTF-8, bytes that belong to no character are accepted inside strings only and stand for U+FFFD, as half a surrogate pair does; a file that the JSON assembler turns into a MIDI file starts with such a text.", "quantifier": "all byte strings, all trees", "why_tests_cant": "rejection of everything that is not JSON is a statement about all byte strings; encodings, escapes, number forms and nesting combine without bound", "anchors": ["ops/assemble/json.go:JSONAssembler.Assemble"]}
{"id": "C75", "title": "Every accepted message is reported as what it says", "statement": "Decoding a track yields a list of delta times and contents exactly if the track is a run of complete messages that are read so, one by one, under the running status and the state of system exclusive messages that the messages before them leave, followed by less than a complete message. The reading of each message is given in full, also for messages outside the standard that the program accepts: controller values above 127, pitch bends with the top bit of the first byte set, type bytes above 127, SMPTE hours with the top bit set, time signature exponents above 7 (denominator 0), end of track events with data, manufacturers renamed by the table. A file decodes to a header and tracks exactly if its chunks are readable, the first is that header, there are as many MTrk chunks as it says, and each is read so; no file has two readings.", "quantifier": "all byte strings, all manufacturer tables, all lists of events", "why_tests_cant": "an exact description of the accepted inputs and of what each is read as speaks of every byte string, not only of the files one has", "anchors": ["midi/MTrk.go:parse", "midi/events/midi/midievent.go:Parse", "midi/events/meta/metaevent.go:Parse", "midi/events/sysex/sysex.go:Parse", "encoding/midi/decoder.go:decoder.Decode"]}
{"id": "C76", "title": "Decoding asks for memory in proportion to the file", "statement": "The sizes of all buffers that decoding a file asks for sum up to at most twice the size of the file.", "quantifier": "all byte strings, all manufacturer tables", "why_tests_cant": "a test sees the memory used for its own files; the bound is about every length field in every file, and a violation needs gigabytes to show", "anchors": ["encoding/midi/decoder.go:chunker.next", "midi/events/event.go:VLF"]}
{"id": "C77", "title": "A line of assembly text is read as what it says", "statement": "An event is read from a line only if the line contains, in this order, 'delta:' with the event's delta time as a decimal number below 2^32, the name of the event's kind, and the values of the event with the words, commas and white space that its kind prescribes (letters in either case); every number is the whole run of digits, texts reach to the end of the line, data bytes are pairs of hexadecimal digits, manufacturers are the first of that name in the table, values out of range are refused, and the kind is the first in the list of 28 names that occurs in the line. Conversely, a line that contains these parts, with no earlier 'delta:' and no earlier name of the kind, and for controllers one 'channel:' and one 'value:', is accepted and gives exactly that event.", "quantifier": "all byte strings, all manufacturer tables, all events", "why_tests_cant": "the lines are matched with 28 patterns that search and backtrack: which lines match, and with what values, is a statement about every text", "anchors": ["midi/events/text.go:Event.UnmarshalText", "midi/events/midi/note_on.go:NoteOn.UnmarshalText", "midi/events/midi/controller.go:Controller.UnmarshalText", "midi/events/meta/time_signature.go:TimeSignature.UnmarshalText", "midi/events/sysex/message.go:SysExMessage.UnmarshalText"]}
{"id": "C78", "title": "Names of notes and keys in assembly text stand for those notes and keys", "statement": "A note name in a line stands for the note of that letter, sign and octave, and notes above 127 are refused; a key name in a line stands for that key, and names that no key has are refused.", "quantifier": "all byte strings, all manufacturer tables", "why_tests_cant": "names come in every mixture of signs, octaves, cases and white space; the wrong ones are those at the edges of an octave or of the table", "anchors": ["midi/events/midi/note_on.go:ParseNote", "midi/lib/note.go:LookupNote", "midi/events/meta/key_signature.go:KeySignature.UnmarshalText"]}
{"id": "C79", "title": "A JSON value is read as the event it says", "statement": "A JSON value is read as an event if and only if it says that event: it is an object whose last non-null 'event' object names a kind of event in 'tag' (keys in any case, the last of several keys counts, null leaves the value before it) and gives under the keys of that kind numbers, strings and lists of the right type and range (delta below 2^32, channel 0 to 15, controllers and notes as objects merged over all their occurrences, data bytes modulo 256, manufacturers by ID from the table, the note name from the number, keys from their accidentals and mode); missing values are zero or empty.", "quantifier": "all JSON values, all environments (manufacturer table, middle octave), all events", "why_tests_cant": "duplicate keys, other cases, nulls, missing and extra keys combine freely; the characterisation holds for every document", "anchors": ["midi/events/json.go:Event.UnmarshalJSON", "midi/events/midi/note_on.go:NoteOn.UnmarshalJSON", "midi/events/midi/controller.go:Controller.UnmarshalJSON", "midi/events/meta/key_signature.go:KeySignature.UnmarshalJSON", "midi/events/sysex/message.go:SysExMessage.UnmarshalJSON", "midi/lib/manufacturer.go:Manufacturer.UnmarshalJSON"]}
{"id": "C80", "title": "JSON events outside the range of MIDI are refused", "statement": "Values that the MIDI message cannot hold (data bytes over 127, octets over 255, missing values) are refused when an event is read from JSON. False: notes and velocities to 255 are accepted and written as status bytes, octets are taken modulo 256 and missing values are zero; what is proved is the range that every accepted event does respect.", "quantifier": "all JSON values, all environments", "why_tests_cant": "the range of every field of every kind of event, for every document", "anchors": ["midi/events/midi/note_on.go:NoteOn.UnmarshalJSON", "midi/events/midi/note_off.go:NoteOff.UnmarshalJSON", "midi/lib/hex.go:Hex.UnmarshalJSON", "midi/lib/manufacturer.go:Manufacturer.UnmarshalJSON"]}
{"id": "C81", "title": "A JSON document assembles to the file it says", "statement": "The file assembled from a JSON document decodes to what the document says: the format and division of all its header objects taken together, as many tracks as its last list of tracks has, and in each track the events of its values (C79) in order, a system exclusive message being closed when no continuation follows. Every document that says a header and writable events is accepted. Partial: for events that the file format can hold, manufacturers that are read back as written, and less than 4 GiB.", "quantifier": "all JSON values and all JSON texts, all environments (manufacturer table, middle octave)", "why_tests_cant": "all documents, with keys repeated, missing or in other cases, any number of tracks and any sequence of events", "anchors": ["ops/assemble/json.go:JSONAssembler.Assemble", "ops/assemble/json.go:parseMThd", "ops/assemble/json.go:parseMTrk", "ops/assemble/assemble.go:fixups", "encoding/midi/encoder.go:Encode", "encoding/midi/decoder.go:Decode"]}
{"id": "C82", "title": "An assembly text assembles to the file it says", "statement": "The file assembled from a text decodes to what the text says: the format and division of its last header line, and the events of the lines of each track (C77) in order without comments and blank lines. Texts whose lines say their events plainly are accepted. Partial as C81, and false for texts with a comment that mentions MTrk or MThd, or with events before the first track: the lines up to the next tag are dropped without an error.", "quantifier": "all texts, all orders in which the manufacturer table is searched", "why_tests_cant": "all texts: every way of cutting them into lines and chunks, with comments and blank lines anywhere", "anchors": ["ops/assemble/text.go:TextAssembler.Assemble", "ops/assemble/text.go:TextAssembler.read", "ops/assemble/text.go:parseMThd", "ops/assemble/text.go:parseMTrk", "ops/assemble/assemble.go:fixups", "encoding/midi/encoder.go:Encode", "encoding/midi/decoder.go:Decode"]}
{"id": "C83", "title": "The embedded template writes the listing", "statement": "The template text that is part of the program parses, and what its execution writes for a file, for a header alone and for a track alone is the listing in fixed columns: the header line, then for every track its line and a line for every event with its bytes, tick, delta time and the text of its kind. Execution fails only where the listing has no value (a file without a header, an event whose bytes do not begin with a delta time), and never for a decoded file.", "quantifier": "all files in memory, headers and tracks; all byte strings that decode", "why_tests_cant": "the template has branches for 28 kinds of events and nested conditionals; the tests list two files", "anchors": ["ops/disassemble/disassemble.go:NewDisassemble", "ops/disassemble/disassemble.go:Disassemble.Print", "ops/disassemble/disassemble.go:ellipsize", "ops/disassemble/disassemble.go:pad", "ops/disassemble/disassemble.go:valign"]}
{"id": "C84", "title": "User templates replace the text of their kind of event and nothing else", "statement": "With a template file the listing has the same lines, and in each line the same columns; only the text at the end of an event's line is that of the user's template named after the kind of the event, when there is one. Plain text stands for itself. Partial: for files that leave the templates of the layout alone and define no others; false for templates of white space, which are ignored.", "quantifier": "all template files (JSON texts) of that form, all files in memory", "why_tests_cant": "all template texts and all files; one template is tested with one file", "anchors": ["ops/disassemble/disassemble.go:Disassemble.LoadTemplates", "ops/disassemble/disassemble.go:Disassemble.Print"]}
{"id": "C85", "title": "The listing does not depend on the order of the map of templates", "statement": "Whatever the order in which the map of user templates is iterated, the same is printed, or the template file is rejected with every order. Partial: when none of the texts defines a further template; false otherwise.", "quantifier": "all template files, all pairs of orders, all templates printed and all values", "why_tests_cant": "the order of iteration is random, and the dependence only shows with two templates of one name", "anchors": ["ops/disassemble/disassemble.go:Disassemble.LoadTemplates"]}
{"id": "C86", "title": "What a run prints or writes, from the command line on", "statement": "For every command line with the documented options: a run on a file that cannot be opened or decoded ends with exit status 1 (or as the decoder does) having changed nothing and printed nothing but the report of the error (C119); otherwise disassemble, export, notes, tsv and click deliver - on standard output, or in the file named with --out and no other - exactly the template's listing, the JSON document, the sounding notes moved by --transpose, the table in the form that --delimiter/--tabular ask for, or nothing (click prints three line feeds, wherever its output goes); humanise fails; help and version change nothing. Options not given have their documented values. (notes: for files with a division other than 0 and all 64-bit numbers of semitones but the 255 largest; disassemble: without --split, which is C70; tsv files: for delimiters the writer accepts; user templates: those of C84.)", "quantifier": "all worlds (file names, file creation, map orders), all contents of the disk, all argument lists, all decodable files", "why_tests_cant": "no test of the project runs a command; the product of options, files and states of the disk is unbounded", "anchors": ["commands/disassemble.go:Disassemble.execute", "commands/export.go:Export.Execute", "commands/notes.go:Notes.Execute", "commands/tsv.go:TSV.Execute", "commands/click.go:Click.Execute", "commands/humanise.go:Humanise.Execute", "cmd/midiasm/main.go:main"]}
{"id": "C87", "title": "What transpose and assemble leave in the output file", "statement": "A run of transpose --semitones n leaves a file that decodes to the events of the input with the notes and keys moved by n semitones, and touches no other file; a run of assemble leaves the file that the JSON document (source named .json) or the assembly text (otherwise) says, or fails having changed nothing. Partial: what the file decodes to is proved for events that can be written faithfully (C08-C16).", "quantifier": "all worlds, all contents of the disk, all argument lists, all input files", "why_tests_cant": "no test of the project runs a command; an option that is parsed and then ignored passes all of them", "anchors": ["commands/transpose.go:Transpose.Execute", "commands/assemble.go:Assemble.Execute", "commands/assemble.go:Assemble.Flagset", "cmd/midiasm/main.go:main"]}
{"id": "C88", "title": "The exported document says the file", "statement": "What export writes for a decoded file is JSON text for a document that says, by the rules the assembler's JSON format has, the format of the file, its pulses per quarter note (0 for an SMPTE time code) and for every track all of its events in order, with delta time, kind and values; every byte of a text that belongs to no UTF-8 character is U+FFFD in it. The document says nothing else.", "quantifier": "all decodable byte sequences; both names of middle C; all manufacturer lists of a configuration", "why_tests_cant": "export_test.go compares one exported file; whether a document says a file has to hold for every kind of event with all values, all texts and all manufacturer lists", "anchors": ["ops/export/export.go:Export.Export", "midi/smf.go:SMF", "midi/MThd.go:MThd", "midi/MTrk.go:MTrk", "ops/assemble/json.go:JSONAssembler.Assemble"]}
{"id": "C89", "title": "The listing says the file", "statement": "The listing that disassemble prints for a decoded file says, by the rules of assembly text, the format and the division of the file and for every track all of its events in order, with delta time, kind and values.", "quantifier": "all decodable byte sequences, all tables of manufacturers", "why_tests_cant": "disassemble_test.go compares single listings; texts that look like other events, tags or lines are not in them", "anchors": ["ops/disassemble/disassemble.go:Disassemble.Print", "ops/assemble/text.go:TextAssembler.Assemble", "ops/assemble/text.go:TextAssembler.read"]}
{"id": "C90", "title": "Documents and listings tell files apart", "statement": "Two files that are exported to the same document have the same format, division, number of tracks and events (delta times, kinds, values); so do two files with the same listing.", "quantifier": "all pairs of decodable byte sequences", "why_tests_cant": "a statement about all pairs of files", "anchors": ["ops/export/export.go:Export.Export", "ops/disassemble/disassemble.go:Disassemble.Print", "ops/disassemble/disassemble.go:ellipsize"]}
{"id": "C91", "title": "Transposing and listing notes agree", "statement": "The notes that `notes --transpose m` lists for the file that transpose writes for n semitones are those that `notes --transpose n+m` lists for the original: the same tracks, channels, pitches, velocities, ticks and times. With m = 0 and m = -n: transposing moves every listed note by n, and the notes command undoes it.", "quantifier": "all decodable files, all n and m, every order in which a Go map is walked", "why_tests_cant": "no test runs one command on the output of another; the statement is about all pairs of step counts and all files", "anchors": ["ops/notes/notes.go:extract", "ops/notes/notes.go:transpose", "ops/transpose/transpose.go:Transpose.Execute", "midi/events/midi/note_on.go:NoteOn.Transpose", "midi/events/midi/note_off.go:NoteOff.Transpose"]}
{"id": "C92", "title": "Validation does not depend on pitch", "statement": "The validation reports the same problems at the same tracks and positions for the file that transpose writes as for the original, and in general for any two decoded files with the same format and the same events but for the pitch of notes and the accidentals of keys, whatever their delta times, manufacturers and middle C.", "quantifier": "all decodable files, all step counts; all pairs of decodable files", "why_tests_cant": "a statement about all pairs of files with the same events; the tests validate single files", "anchors": ["midi/smf.go:SMF.Validate", "ops/transpose/transpose.go:Transpose.Execute"]}
{"id": "C93", "title": "The help texts explain the options", "statement": "`midiasm help <command>` explains exactly the options that the command takes, and the command lines it gives as examples are accepted and name a file; `midiasm help` with anything else lists exactly the commands there are.", "quantifier": "all command lines that ask for help, all commands, all names of options", "why_tests_cant": "nothing tests the help texts; they and the flag sets are written down separately in nine files", "anchors": ["cmd/midiasm/help.go:help.Execute", "cmd/midiasm/help.go:help.help", "commands/notes.go:notes.Help", "commands/notes.go:notes.Flagset", "commands/disassemble.go:disassemble.Help", "commands/humanise.go:humanise.Help"]}
{"id": "C94", "title": "Listing, document and encoder give the same file", "statement": "Assembling the listing of a decoded file, assembling its exported JSON document and encoding it give the same bytes; in particular a file as the program writes it comes back byte for byte from its listing and from its document.", "quantifier": "all decodable files, all manufacturer configurations, all orders in which the manufacturers are met", "why_tests_cant": "the tests compare a few hand-written events per format; this relates two complete write-and-read pipelines for every file", "anchors": ["ops/assemble/text.go:TextAssembler.Assemble", "ops/assemble/json.go:JSONAssembler.Assemble", "ops/export/export.go:Export.Export", "midi/events/sysex/sysex.go:Parse"]}
{"id": "C95", "title": "Comments, blank lines and line ends do not matter", "statement": "Two assembly texts that differ only in comments that mention no chunk tag, in blank lines (any Unicode white space) and in whether lines end with LF or CR LF assemble to the same bytes, or both fail in the same way.", "quantifier": "all texts without over-long lines, any number of idle lines anywhere, all orders in which the manufacturers are met", "why_tests_cant": "the tests assemble a few fixed texts; this is about every placement of idle lines in every text", "anchors": ["ops/assemble/text.go:TextAssembler.Assemble", "ops/assemble/text.go:TextAssembler.chunkify", "ops/assemble/text.go:TextAssembler.parseMThd", "ops/assemble/text.go:TextAssembler.parseMTrk"]}
{"id": "C96", "title": "The order of members, their spelling and further members of a JSON document do not matter", "statement": "Documents with the same values under every name that means something to the assembler are assembled to the same bytes, or fail in the same way: members may come in any order, names in any mixture of cases, other members are ignored, and the text may use any white space and any escapes.", "quantifier": "all documents, at every level of nesting, all texts of them, all manufacturer tables", "why_tests_cant": "the tests read documents as the exporter writes them; this is about every other way to write every document", "anchors": ["ops/assemble/json.go:JSONAssembler.Assemble", "midi/events/json.go:Event.UnmarshalJSON", "midi/events/midi/note_on.go:NoteOn.UnmarshalJSON", "midi/lib/manufacturer.go:Manufacturer.UnmarshalJSON"]}
{"id": "C97", "title": "The option for middle C changes the names of notes and nothing else", "statement": "A file is read as the same events with and without C4 as middle C, but for the names of notes; writing, validating, transposing, the notes and their times, the click track and the assembly of JSON documents do not depend on the setting at all, and transpose, assemble, click and humanise give the same result with --C4 and without it.", "quantifier": "all files, all JSON documents, all arguments, all states of the file system", "why_tests_cant": "the tests set middle C only for the names; that nothing else depends on a global variable is a statement about all inputs and two runs", "anchors": ["midi/context/context.go:SetMiddleC", "midi/events/midi/midievent.go:FormatNote", "encoding/midi/decoder.go:Decoder.Decode", "ops/transpose/transpose.go:Transpose.Execute", "cmd/midiasm/main.go:main"]}
{"id": "C98", "title": "A configuration of manufacturers changes names of manufacturers and nothing else", "statement": "Under any two configuration files a MIDI file is read as the same events but for regions and names of manufacturers, and transposing it gives the same file.", "quantifier": "all pairs of configuration files, all MIDI files", "why_tests_cant": "the tests load one configuration; the statement compares two runs with any configurations on any file", "anchors": ["midi/lib/manufacturer.go:LoadManufacturers", "midi/lib/manufacturer.go:AddManufacturers", "midi/lib/manufacturer.go:LookupManufacturer", "midi/events/meta/sequencer_specific.go:UnmarshalBinary"]}
{"id": "C99", "title": "The work of transposing is bounded by the file", "statement": "How often the loop of the scale arithmetic runs when a file is transposed is bounded by the number of its key signatures, whatever the number of semitones.", "quantifier": "all files that can be decoded, all numbers of semitones of the type int", "why_tests_cant": "tests transpose by a few semitones; how the work grows over the whole range of the option is a statement about all of them, and the worst cases do not end", "anchors": ["midi/lib/scales.go:transpose", "midi/lib/scales.go:Scale.Transpose", "midi/events/meta/key_signature.go:KeySignature.Transpose", "ops/transpose/transpose.go:Transpose.Execute"]}
{"id": "C100", "title": "A user's template writes what it says", "statement": "A template made of words, fields of the event, pad, ellipsize, len, valign and choices by a field (if/else with a field, not, eq, ne) can be read, and for every event that has the fields it asks for it writes exactly one text: the words as they stand, each field in the notation for its type, padded, cut off, measured or aligned as asked, and of each choice the side that applies. With a file of such templates the listing shows each event so, events of other kinds (or whose template is all white space) as without the file, and changes nothing else, in whatever order the templates are loaded. Pipelines that are accepted have only function calls after a pipe, in parentheses too.", "quantifier": "all templates of that grammar (any nesting, any words), all kinds of events and field values, all files in memory, all orders of the map", "why_tests_cant": "one test loads one template with three fields for one kind of event; lexer, parser and execution for all templates of the grammar are beyond examples", "anchors": ["ops/disassemble/disassemble.go:Disassemble.LoadTemplates", "ops/disassemble/disassemble.go:Disassemble.Print", "ops/disassemble/disassemble.go:pad", "ops/disassemble/disassemble.go:ellipsize"]}
{"id": "C101", "title": "The notes command complains about exactly the notes that are not paired", "statement": "Without --debug, listing notes writes one line to stderr for each start of a note that sounds already, each end of a note that does not sound, each note that is ended by the end of the track only and each note that is never ended, in the order in which they turn out, naming channel, note and (for started notes) tick and time; apart from lines about precision nothing else is written, and nothing at all if every start has an end of its own.", "quantifier": "all lists of note events, all files that can be decoded, all iteration orders of the maps of pending notes", "why_tests_cant": "the tests do not look at the log; pairing over all sequences of events and all map orders cannot be enumerated", "anchors": ["ops/notes/notes.go:buildNoteList", "ops/notes/notes.go:extract", "ops/notes/notes.go:warnf", "log/log.go:log"]}
{"id": "C102", "title": "Loss of precision is reported exactly where time is lost", "statement": "Listing notes reports a loss of precision at an event exactly if the time from the event before it is not a whole number of nanoseconds.", "quantifier": "all files that can be decoded: all delta times, tempo maps and ticks per quarter note", "why_tests_cant": "the tests do not look at the log; the arithmetic is in 64 bits over all delta times, tempos and divisions", "anchors": ["ops/notes/notes.go:buildTrackEvents", "ops/notes/notes.go:warnf"]}
{"id": "C103", "title": "More logging adds lines and changes none", "statement": "The lines of warnings of the notes command are the same with and without --debug and --verbose; --debug adds one line for each NoteOn and NoteOff event, with channel and note in two hexadecimal digits; every message is one line.", "quantifier": "all files that can be decoded, all combinations of the two options, all iteration orders of the maps", "why_tests_cant": "the tests do not look at the log; the statement is about all events and names that a file can contain", "anchors": ["log/log.go:log", "log/log.go:SetLogLevel", "ops/notes/notes.go:debugf", "ops/notes/notes.go:buildNoteList", "cmd/midiasm/main.go:main"]}
{"id": "C104", "title": "The warning about a file says exactly what is wrong with it", "statement": "The warning that the commands write to stderr after validation has exactly one line for each thing that is wrong with the file (the number of tracks, an event of a kind that does not belong into its track, an EndOfTrack before the end, a missing EndOfTrack, half a bank select without the other half or with the other half on another channel), with the number of the track, the place and the kind of the event, sorted by section, track and event; nothing is written exactly for valid files; and no report can be read as a report of anything else.", "quantifier": "all files that can be decoded and validated; all lists of findings for the unique reading", "why_tests_cant": "the tests do not look at the warnings; completeness, order and unique reading are about all combinations of faults, tracks and places", "anchors": ["midi/smf.go:Validate", "midi/smf.go:validateFormat0", "midi/smf.go:validateFormat1", "midi/events/event.go:Clean", "commands/disassemble.go:Execute", "commands/tsv.go:validate", "commands/humanise.go:validate"]}
{"id": "C105", "title": "What a run writes to stderr", "statement": "Whatever the options, a command that reads a MIDI file writes the report of the file's faults to stderr and nothing else, so nothing exactly if the file is valid; notes adds, track by track, the complaints about unpaired note events and lines about precision, but not if its output file cannot be created; assemble, help, version and runs without a file that can be decoded write nothing.", "quantifier": "all command lines that the flag package accepts, all disks and all files; for notes all steps that fit, without --debug", "why_tests_cant": "no test runs the program; that no option changes the warnings is about all command lines", "anchors": ["cmd/midiasm/main.go:main", "commands/notes.go:Execute", "commands/notes.go:execute", "commands/disassemble.go:Execute", "commands/click.go:Execute", "commands/export.go:Execute", "commands/transpose.go:Execute", "commands/tsv.go:Execute", "commands/humanise.go:Execute", "midi/smf.go:Validate", "ops/notes/notes.go:Execute"]}
{"id": "C106", "title": "How a run ends", "statement": "Every command that reads a MIDI file ends, whatever the file contains: with a file that can be decoded it crashes exactly if the file has format 1 and no tracks or, once the output can be written, if click is given a file without tracks or notes one without tracks or without pulses per quarter note where a time is needed; it exits with 0 exactly if it does not crash, is not humanise or tsv with a delimiter that is none, and the output (with -split all the files and their directory) can be created; otherwise it exits with 1. With any other file it changes nothing and exits with 1 or crashes as the decoder does; transposed files can always be written.", "quantifier": "all command lines that the flag package accepts for these commands without --templates, all disks, all file contents, all steps that fit", "why_tests_cant": "no test runs the program; the absence of hanging and crashing runs is about all files", "anchors": ["cmd/midiasm/main.go:main", "commands/command.go:decode", "commands/notes.go:Execute", "commands/disassemble.go:Execute", "commands/disassemble.go:separate", "commands/click.go:Execute", "commands/export.go:Execute", "commands/transpose.go:Execute", "commands/tsv.go:Execute", "commands/humanise.go:Execute", "encoding/midi/encoder.go:Encode"]}
{"id": "C107", "title": "Tags, channels and middle C in texts", "statement": "Reading a tag from a text gives the tag whose name is in it, whatever the order in which the map of names is iterated, and an error exactly if no name is in it; every tag can be read back from its name and every kind of event has one. Reading a channel gives the number behind the first 'channel:' with digits if it is at most 15 and an error otherwise. The conventions for middle C can be read back from their names, and nothing else is accepted but lower case.", "quantifier": "all texts, all iteration orders of the map", "why_tests_cant": "the tests try 27 names alone and four channels; a test sees one iteration order at a time", "anchors": ["midi/lib/tag.go:String", "midi/lib/tag.go:UnmarshalText", "midi/lib/channel.go:UnmarshalText", "midi/lib/middlec.go:String", "midi/lib/middlec.go:Set"]}
{"id": "C108", "title": "Tempo and time signature as text", "statement": "A tempo is printed as the decimal number of quarter notes in a minute, rounded to the nearest whole number with halves up, although 60000000 is divided by it in floating point; a time signature is printed as numerator, slash, denominator.", "quantifier": "all positive tempi, all time signatures", "why_tests_cant": "that two roundings (of the quotient to 53 bits and to an integer) never give a neighbour is about all tempi; no test prints one", "anchors": ["midi/events/meta/tempo.go:String", "midi/events/meta/time_signature.go:String"]}
{"id": "C109", "title": "The columns of the notes listing line up", "statement": "Whatever the notes of a file, the lines of the printed listing have each label (channel, note, velocity, start, end, duration) behind the same number of characters.", "quantifier": "all files, transpositions, map iteration orders and conventions for middle C", "why_tests_cant": "the two golden files have notes of the first seconds only; the claim is about every name, channel, velocity and every text of a time up to the width of its column", "anchors": ["ops/notes/notes.go:print"]}
{"id": "C110", "title": "How the assembly of a JSON document ends", "statement": "A JSON document is assembled exactly if its header says a format and a division, every track is tagged MTrk and has events, every event says an event (C79), and there are fewer than 65536 tracks. The program crashes exactly if the first thing wrong behind the header, in the order of the document, is a track without events or an event whose fields can all be read but whose values its kind cannot have: a NoteOn velocity or a pressure above 127, a key signature with more than seven accidentals or another mode than 0 and 1, a SMPTE offset out of range. It never ends exactly if the first thing wrong is a time signature with a denominator above 128. All other documents are refused with status 1. For a run of the assemble command on a file called .json, status 0 means in addition that the output file can be created.", "quantifier": "all JSON values, all files, all command lines of the assemble command, all environments", "why_tests_cant": "an equivalence over all documents, in which several faults compete and the first one decides; tests never include a crash or an endless loop", "anchors": ["ops/assemble/json.go:JSONAssembler.Assemble", "ops/assemble/json.go:parseMThd", "ops/assemble/json.go:parseMTrk", "midi/events/json.go:Event.UnmarshalJSON", "midi/events/meta/key_signature.go:MakeKeySignature", "midi/events/meta/smpte_offset.go:MakeSMPTEOffset", "midi/events/meta/time_signature.go:MakeTimeSignature", "midi/events/midi/note_on.go:MakeNoteOn", "commands/assemble.go:Execute"]}
{"id": "C111", "title": "How the assembly of a text ends", "statement": "A line of assembly text is read as an event exactly if its first reading says that event: the kind is the first in the list of names whose name occurs; of all ways to take the line apart into a delta, the name and a text of the shape of the kind, the one that starts earliest counts, and of those the one with the earliest name; for a controller the last channel that fits and the last value behind it. Reading crashes exactly if that reading is an SMPTE offset with an hour, minute, second or frame out of range (frame rate and fractional frames in range), and never ends exactly if it is a time signature with a denominator above 128. A text is assembled exactly if its chunks, those with commented tag lines left out, are headers, at least one, and then fewer than 65536 tracks with at least one event, all lines read. The program crashes exactly if the first thing wrong is a track before the header, a track without events or a line that crashes; it never ends exactly if the first thing wrong is a line that never ends; all other texts are refused with status 1. The order in which the map of manufacturers is iterated has no influence. For a run of the assemble command, status 0 means in addition that the output file can be created.", "quantifier": "all lines, all texts of bytes, all iteration orders of the manufacturers, all command lines of the assemble command on a file not called .json", "why_tests_cant": "equivalences over all texts, in which several readings of a line and several faults of a text compete; tests never include a crash or an endless loop", "anchors": ["midi/events/text.go:Event.UnmarshalText", "midi/events/midi/controller.go:UnmarshalText", "midi/events/meta/smpte_offset.go:UnmarshalText", "midi/events/meta/time_signature.go:UnmarshalText", "ops/assemble/text.go:TextAssembler.Assemble", "ops/assemble/text.go:parseMThd", "ops/assemble/text.go:parseMTrk", "ops/assemble/assemble.go:fixups", "commands/assemble.go:Execute"]}
{"id": "C112", "title": "Members and layout of the exported document", "statement": "What export writes for a decoded file is JSON text for a document with exactly these members in this order: a header with tag, length 6, format, number of tracks, division, pulses per quarter note and the parts of the SMPTE time code as the 14 bytes of the file's header say; the tracks, numbered from 0, each with tag, number and its events; every event with its kind, delta time, the status byte of its kind and channel, the type byte of a meta event, and its values under the names of its kind, texts repaired to UTF-8. The text is laid out in lines: after every comma and every opening bracket and before every closing bracket a new line begins, nowhere else, with two spaces for each bracket that is open (empty brackets stay together); one space follows each colon; there is no other white space outside strings, no empty line and no line feed at the end.", "quantifier": "all files that are decoded, both settings of middle C, all manufacturer configurations, and for the layout all trees", "why_tests_cant": "every byte of all documents; tests compare one or two documents", "anchors": ["ops/export/export.go:Export", "midi/MThd.go:MThd", "midi/MTrk.go:MTrk", "midi/events/event.go:Event", "midi/events/midi/note_on.go:MarshalJSON", "midi/events/meta/tempo.go:MarshalJSON", "midi/events/sysex/message.go:MarshalJSON"]}
{"id": "C113", "title": "The decoder of a kind reads its own kind only", "statement": "Called directly, the UnmarshalBinary method of an event type reads a message of its kind exactly as the decoder for all events does, and returns an error on every message of another kind and on everything without delta time, status and one more byte. It never returns an event of another kind, and it returns every event of its kind that the decoder for all events returns. The method for escapes, which that decoder never calls, reads every escape, among them what MarshalBinary writes. The UnmarshalJSON method of a type takes an object exactly if the decoder for all events takes it as an event of that kind, with the same result. The UnmarshalText method of a type returns events of that kind only, and the decoder for all lines returns nothing but what the method of the kind returns, whose name occurs in the line.", "quantifier": "all 28 event types, all byte strings, all JSON objects, all lines, all manufacturer tables, both settings of middle C", "why_tests_cant": "28 decoders in three formats against all inputs of all other kinds; tests give each decoder one message of its own kind", "anchors": ["midi/events/binary.go:UnmarshalBinary", "midi/events/json.go:UnmarshalJSON", "midi/events/text.go:UnmarshalText", "midi/events/meta/tempo.go:UnmarshalBinary", "midi/events/midi/note_on.go:UnmarshalBinary", "midi/events/sysex/escape_message.go:UnmarshalBinary"]}
{"id": "C114", "title": "The way a file writes its messages does not matter", "statement": "Two files with the same header and the same tracks of the same messages with the same delta times are read alike, whether a status byte is written or implied by running status, however many bytes a number takes, whatever chunks of other kinds lie between the tracks, and whatever incomplete bytes the tracks have in common at their ends: both fail the same way, or the events, names, ticks and banks are the same. All that is made of them is then the same byte for byte: the file written, the transposition, the notes, the JSON export, the table, the validation warnings. In particular every run of transpose, notes, click, export, tsv and humanise on disks that differ in the encoding of MIDI files only ends the same way, prints the same and leaves the same files.", "quantifier": "all pairs of files with the same messages (valid or not), all manufacturer tables, both settings of middle C, all command lines", "why_tests_cant": "a relation between two arbitrary files; tests read single files, and the bytes are kept with every event and track, so any operation could depend on them", "anchors": ["midi/MTrk.go:parse", "encoding/midi/decoder.go:Decode", "encoding/midi/encoder.go:Encode", "ops/transpose/transpose.go:Execute", "ops/notes/notes.go:Execute", "ops/export/export.go:Export", "commands/tsv.go:export", "midi/smf.go:Validate"]}
{"id": "C115", "title": "The manufacturer table decides only what a manufacturer is called", "statement": "Reading a file with any manufacturer table gives what reading it with the empty table gives, each manufacturer of a system exclusive message or sequencer specific event replaced by the first entry under its ID (or left as an unknown one with that ID). So the table has no influence on where messages begin and end, on ticks, notes, banks or the data, nor on whether the file can be read and how reading fails.", "quantifier": "all files, all manufacturer tables (with repeated or odd entries), both settings of middle C", "why_tests_cant": "tables come from a user's configuration; a relation between readings with two arbitrary tables cannot be enumerated", "anchors": ["midi/events/sysex/message.go:unmarshal", "midi/events/meta/sequencer_specific.go:unmarshal", "midi/lib/manufacturer.go:LookupManufacturer", "encoding/midi/decoder.go:Decode", "midi/MTrk.go:UnmarshalBinary"]}
{"id": "C116", "title": "A file written anew is treated like the file it was made of", "statement": "Header, delta times and event contents determine all that the program reads from a file: note names, ticks, banks, manufacturers, everything but the raw bytes kept with the events. The file that the program writes for a file it has read (with whatever running status, number lengths, foreign chunks and leftovers the original had) therefore gives the same JSON export, notes, table, click listing, validation warnings and transpositions, byte for byte, and every run of transpose, notes, click, export, tsv and humanise on disks where some files are replaced so ends the same way and prints the same. The same holds for the file assembled from its listing or from its JSON export, where these give back the file (C94).", "quantifier": "all files that can be read and written, whose manufacturers are filed under their own IDs, all transpositions, all command lines", "why_tests_cant": "a relation between an arbitrary file, its rewritten form and the output of every command on both", "anchors": ["encoding/midi/encoder.go:Encode", "encoding/midi/decoder.go:Decode", "midi/MTrk.go:parse", "ops/transpose/transpose.go:Execute", "ops/notes/notes.go:extract", "ops/export/export.go:Export", "commands/tsv.go:export", "midi/smf.go:Validate"]}
{"id": "C117", "title": "No channel is special", "statement": "The sixteen channels are treated alike. Take a file made of whole messages and another with the same messages on rearranged channels (with whatever running status, number lengths and foreign chunks): both are read or fail alike, and what is read is the same but for the channels of the channel messages (ticks, note names, banks, programs, data). Validation gives the same warnings, transposition succeeds or fails alike with results that again differ only in the channels, and the notes listed are the same on the new channels, in whatever orders Go visits its maps.", "quantifier": "all files made of whole messages, all rearrangements of the channels, both settings of middle C, all manufacturer tables, all transpositions, all map orders", "why_tests_cant": "there are 16! rearrangements, and the relation is between two arbitrary files and everything made of them; a percussion channel handled separately or a table shared between two channels shows only on some", "anchors": ["encoding/midi/decoder.go:Decode", "midi/MTrk.go:UnmarshalBinary", "midi/context/context.go:PutNoteOn", "midi/smf.go:Validate", "ops/transpose/transpose.go:Execute", "ops/notes/notes.go:extract"]}
{"id": "C118", "title": "When and what are independent, and only the ratio of delta times to the resolution counts", "statement": "Delta times decide only when things happen: files with the same header and messages at any other times are read or fail alike, and the same is read but for ticks and delta times; they give the same validation warnings and are transposed alike. Multiplying the ticks per quarter note and all delta times by the same number (tracks shorter than 2^30 ticks) multiplies the ticks and changes nothing else: the notes are listed at the same times to the nanosecond.", "quantifier": "all files made of whole messages, all delta times, all factors, all resolutions up to 32767, both settings of middle C, all manufacturer tables, all transpositions, all map orders", "why_tests_cant": "a relation between two arbitrary files and everything made of them; rounding and overflow in the time arithmetic show only for some delta times, tempos and resolutions", "anchors": ["encoding/midi/decoder.go:Decode", "midi/MTrk.go:UnmarshalBinary", "midi/MThd.go:UnmarshalBinary", "midi/smf.go:Validate", "ops/transpose/transpose.go:Execute", "ops/notes/notes.go:buildTrackEvents"]}
{"id": "C119", "title": "Results and error reports are kept apart", "statement": "Standard output holds what the command prints if the run succeeds; the report of the error and nothing else if it fails with exit status 1; and nothing if it crashes, hangs or the command line is not understood. If a file is named for the result, nothing of the result is printed, however the run ends. (disassemble: without --templates, where a template that fails can have printed a part.)", "quantifier": "all command lines, file systems (contents, names, what can be created) and error messages", "why_tests_cant": "no test of the project runs a command; depends on the order of opening, computing and printing in every command and for every way to fail", "anchors": ["cmd/midiasm/main.go:main", "commands/disassemble.go:disassemble.write", "commands/notes.go:notes.execute", "commands/click.go:click.execute", "commands/export.go:export.write", "commands/tsv.go:tsv.Execute", "ops/click/click.go:ClickTrack.Execute"]}
{"id": "C120", "title": "Events that make no sound do not move notes", "statement": "Two files with the same resolution, the same tempo changes and, in the tracks after the first one, the same notes, tempo changes, key signatures and ends of tracks at the same ticks give the same notes at the same times, whatever texts, controllers, programs, pressures or system exclusive messages lie between them.", "quantifier": "all pairs of files that differ in silent events, all transpositions, both settings of middle C, all map orders", "why_tests_cant": "a relation between two arbitrary files; the influence of a silent event shows only if a tempo changes within a delta time", "anchors": ["ops/notes/notes.go:buildTrackEvents", "ops/notes/notes.go:buildNoteList", "ops/notes/notes.go:extract"]}
{"id": "C121", "title": "Controllers and manufacturers are named as the MIDI specification numbers them", "statement": "Every controller number has the name the MIDI specification gives it (the least significant byte of a 14 bit controller the name of the most significant byte 32 below), numbers that are not assigned are unknown and no two known controllers share a name. Every manufacturer ID of the built-in table names its owner and the region its range belongs to, any other ID is unknown. All controllers and manufacturers in a file that is read are numbered that way.", "quantifier": "all controller numbers, all manufacturer IDs of one and three bytes, all files", "why_tests_cant": "256 controller numbers, 65791 manufacturer IDs and arbitrary files; a slip in one line of a table shows only in files with that number", "anchors": ["midi/lib/controller.go:LookupController", "midi/lib/manufacturer.go:LookupManufacturer"]}
{"id": "C122", "title": "Slower tempi make nothing earlier", "statement": "If a file differs from another one only in tempo changes to longer quarter notes, the same notes are found at the same ticks; none starts or ends earlier, and none is shorter by more than the millisecond times are rounded to (tracks of fewer than 536000000 ticks, beyond which times may wrap around).", "quantifier": "all pairs of files with pointwise slower tempi, all transpositions, both settings of middle C, all map orders", "why_tests_cant": "monotonicity is a relation between two arbitrary files; rounding and the merging of the tempo map act on every note in another way", "anchors": ["ops/notes/notes.go:buildTrackEvents", "ops/notes/notes.go:buildNoteList", "ops/notes/notes.go:buildTempoMap"]}
{"id": "C123", "title": "The order of the tracks after the first one does not matter", "statement": "Files with the same header, the same first track and the same other tracks in another order (whatever chunks of other kinds lie between) are read as the same tracks but for their numbers, have the same notes, break the same rules in the same number (but for the track numbers) and are transposed alike.", "quantifier": "all pairs of files with reordered tracks, all transpositions, both settings of middle C, all map orders", "why_tests_cant": "a relation between a file and all rearrangements of its chunks; leaks of state from one track into the next show only in combinations of tracks", "anchors": ["encoding/midi/decoder.go:Decode", "ops/notes/notes.go:extract", "midi/smf.go:Validate", "ops/transpose/transpose.go:Execute"]}
{"id": "C124", "title": "Velocities change nothing but velocities", "statement": "If two files differ only in the velocities keys are struck with (other than 0) and in how keys are released (note off of any velocity, or note on of velocity 0), the same notes are found at the same ticks and times; any relation between the velocities of the keys struck holds between those of the notes, and if they are equal the notes are equal.", "quantifier": "all pairs of such files, all relations between velocities, all transpositions, both settings of middle C, all map orders", "why_tests_cant": "a relation between two arbitrary files, with running status changing the bytes as well; tests have single files", "anchors": ["ops/notes/notes.go:buildNoteList", "ops/notes/notes.go:buildTrackEvents", "ops/notes/notes.go:extract"]}
{"id": "C125", "title": "The tracks of two files put together", "statement": "A file made of the tracks of two files with the same format, resolution and first track is read as the tracks of both (only their numbers differ), its notes are those of the first followed by those of the second, it breaks the rules both break (those of the common first track once, format 1 and 2), and transposing it gives the transposed files put together; so a track added to a file changes nothing about the others.", "quantifier": "all pairs of files with a common first track, with any other chunks between the tracks, all transpositions, both settings of middle C, all map orders", "why_tests_cant": "a relation between three arbitrary files; state that leaks from one track into another shows only in combinations of tracks", "anchors": ["encoding/midi/decoder.go:Decode", "ops/notes/notes.go:extract", "midi/smf.go:Validate", "ops/transpose/transpose.go:Execute"]}
{"id": "C126", "title": "A rest at the beginning delays the piece", "statement": "If every track of a file begins k ticks later (the first delta time is k more), the same notes are found: same channel, key, name and velocity, start and end k ticks later, no start time earlier, durations the same to the millisecond. In full all notes would be later by one and the same time; that is false, since a rest that ends together with the first tempo event is timed with the default tempo in one track and with the tempo itself in another.", "quantifier": "all files that decode, all rests k with less than 536000000 ticks per track in total, both settings of middle C, all map orders", "why_tests_cant": "a relation between two arbitrary files; wrong starting values, wrong merging of the tempo map and rounding show only for some pairs", "anchors": ["ops/notes/notes.go:buildTrackEvents", "ops/notes/notes.go:extract"]}
{"id": "C127", "title": "A track divided by channels has the same notes", "statement": "If the channels of a track (not the first) are divided between two tracks, each event at the tick it had, tempi, key signatures and the end of the track in both, the same notes are found: channel, key, name, velocity, start and end tick. Where the tempo changes only at events of the tracks the times are the same to a millisecond and two nanoseconds for each event. In full they would be for all tracks; that is false with other tempo changes, since the time of a note depends on the ticks of the other channels' events in its track.", "quantifier": "all files, all tracks but the first, all choices of channels, both settings of middle C, all map orders", "why_tests_cant": "a relation between two arbitrary files for all ways to divide a track; state shared between channels shows only in certain interleavings", "anchors": ["ops/notes/notes.go:buildTrackEvents", "ops/notes/notes.go:buildNoteList", "ops/notes/notes.go:extract"]}
{"id": "C128", "title": "A tempo set again changes nothing", "statement": "A tempo event added to the first track that sets the tempo already set there changes nothing about the notes, not even a nanosecond of their times, if the other tracks have no tempo events of their own (as the standard demands for format 1).", "quantifier": "all pairs of files that decode and differ by such an event, wherever it is, with ticks that fit in 32 bits; both settings of middle C, all map orders", "why_tests_cant": "a relation between two arbitrary files for all places of the event; an event of the tempo map that is given time of its own shows only in some merges", "anchors": ["ops/notes/notes.go:buildTempoMap", "ops/notes/notes.go:buildTrackEvents"]}
{"id": "C129", "title": "All tempi k times as long: all times k times as long", "statement": "If all tempi of a file are multiplied by k and the first track sets one at tick 0, exactly the same notes are found (ticks, names, velocities), at k times the start and end times up to 500000 (k + 1) + 2 k n nanoseconds: half a millisecond of rounding in each of the two files and a nanosecond for each event of tracks with at most n events.", "quantifier": "all pairs of files that decode and differ by the factor k in their tempi, for all k > 0; tracks whose ticks add up to less than 536000000; both settings of middle C, all map orders", "why_tests_cant": "a relation between two arbitrary files with an explicit bound of the error for every factor and length; truncation per event adds up and only a proof over all tempo maps shows by how much", "anchors": ["ops/notes/notes.go:buildTrackEvents", "ops/notes/notes.go:buildTempoMap"]}
{"id": "C130", "title": "Key signatures change names of notes and nothing else", "statement": "Two files that differ only in their key signatures (and what notes are called because of them) have the same notes: channel, pitch, velocity, ticks, start, end and duration are exactly the same, only names can differ; and if each key signature has flats exactly when its counterpart has, the lists are the same, names included. This includes that both end alike (a list, or a crash).", "quantifier": "all pairs of files, decoded or not, with such a difference; all transpositions, settings of middle C and map orders", "why_tests_cant": "a relation between two arbitrary files; a key signature that delays an event or leaks into another track or field shows only in some of them", "anchors": ["ops/notes/notes.go:buildTrackEvents", "ops/notes/notes.go:buildNoteList"]}
{"id": "C131", "title": "Channels taken out of a file leave the notes of the others", "statement": "If the notes of some channels are taken out of the tracks of a file (and other messages that make no sound, but no tempo, key or end of track), exactly the notes on the other channels are left: same channel, pitch, name, velocity and ticks, none more and none less. Their times are meant to stay the same, too; this is false if a tempo changes between events of the track.", "quantifier": "all files whose notes can be listed, decoded or not, and all sets of channels; all transpositions, settings of middle C and map orders", "why_tests_cant": "a relation between two arbitrary files for all sets of channels; a note that is ended or held by an event of another channel shows only in some of them", "anchors": ["ops/notes/notes.go:buildNoteList", "ops/notes/notes.go:buildTrackEvents"]}
{"id": "C132", "title": "Notes end the same way by NoteOff and by NoteOn with velocity 0", "statement": "If in a file any messages that end notes are exchanged for others that end the same note (NoteOff with any velocity, NoteOn with velocity 0, same channel and key), the list of notes, with all names, velocities and times and in the same order, is the same.", "quantifier": "all pairs of files, decoded or not, with such a difference, at any number of places; all transpositions, settings of middle C and map orders", "why_tests_cant": "a relation between two arbitrary files; the two messages are handled in different places of the code, which must agree in every state of the pending notes", "anchors": ["ops/notes/notes.go:buildNoteList"]}
