{
 "claims": [
  {
   "property": "C01",
   "status": "proved",
   "theorems": [
    "C01_delta_roundtrip"
   ],
   "note": "All deltas below 2^28, any following bytes."
  },
  {
   "property": "C02",
   "status": "partial",
   "theorems": [
    "C02_every_delta_partial",
    "C02_large_deltas_corrupted",
    "C02_every_delta_refuted"
   ],
   "note": "False above 2^28-1: proved below, and every larger delta is proved to be corrupted; refuted by witness."
  },
  {
   "property": "C03",
   "status": "proved",
   "theorems": [
    "C03_vlq_reader"
   ],
   "note": "All byte strings, including over-long and truncated quantities."
  },
  {
   "property": "C04",
   "status": "proved",
   "theorems": [
    "C04_vlf_roundtrip"
   ],
   "note": "Lengths below 2^28 (what four bytes can express)."
  },
  {
   "property": "C05",
   "status": "proved",
   "theorems": [
    "C05_header"
   ],
   "note": "All byte strings; also that header decoding never panics on a chunk."
  },
  {
   "property": "C06",
   "status": "proved",
   "theorems": [
    "C06_framing"
   ],
   "note": "All SMF values; payload grammar for legal events, chunk lengths below 2^32 as stated."
  },
  {
   "property": "C07",
   "status": "proved",
   "theorems": [
    "C07_unknown_chunks",
    "C07_tracks_in_order"
   ],
   "note": "All chunk sequences."
  },
  {
   "property": "C08",
   "status": "proved",
   "theorems": [
    "C08_channel_events"
   ],
   "note": "All values; polyphonic pressure as the program reads it (one data byte)."
  },
  {
   "property": "C09",
   "status": "partial",
   "theorems": [
    "C09_pitch_bend_partial",
    "C09_pitch_bend_value",
    "C09_pitch_bend_refuted"
   ],
   "note": "False: a bend survives exactly when it is below 128 (proved both ways); refuted by witness."
  },
  {
   "property": "C10",
   "status": "partial",
   "theorems": [
    "C10_textual_meta_partial",
    "C10_long_texts_lost",
    "C10_textual_meta_refuted"
   ],
   "note": "False for texts of 128 bytes and more other than track names (every such text is proved lost); proved for all others."
  },
  {
   "property": "C11",
   "status": "partial",
   "theorems": [
    "C11_numeric_meta_partial",
    "C11_time_signature_refuted"
   ],
   "note": "Everything but time signatures with denominator 2^8 or more, which do not fit the program's uint8 (refuted by witness)."
  },
  {
   "property": "C12",
   "status": "partial",
   "theorems": [
    "C12_sysex_partial",
    "C12_packets_partial",
    "C12_realtime_refuted",
    "C12_last_packet_refuted"
   ],
   "note": "Proved for messages, packets and escapes up to the flag of the last packet, which the decoder loses (refuted), and the ID 7F entry filed under another ID (refuted)."
  },
  {
   "property": "C13",
   "status": "partial",
   "theorems": [
    "C13_sequencer_specific_partial",
    "C13_long_events_lost",
    "C13_sequencer_specific_refuted"
   ],
   "note": "Proved below 128 bytes; every longer event is proved lost; refuted by witness."
  },
  {
   "property": "C14",
   "status": "partial",
   "theorems": [
    "C14_track_roundtrip_partial",
    "C14_text_refuted"
   ],
   "note": "All event lists without the events that do not survive on their own (C09, C10, C12, C13). Counterexample: a text of 256 bytes is read back as an empty text and 64 notes."
  },
  {
   "property": "C15",
   "status": "partial",
   "theorems": [
    "C15_running_status_partial",
    "C15_legal_tracks",
    "C15_running_status_refuted"
   ],
   "note": "All event lists whose events are written with correct lengths; refuted by witness when a text length is wrong (C10)."
  },
  {
   "property": "C16",
   "status": "partial",
   "theorems": [
    "C16_file_roundtrip_partial",
    "C16_encodable",
    "C16_text_refuted"
   ],
   "note": "All legal files; excludes the events of C14. Counterexample: the file with the text of C14."
  },
  {
   "property": "C17",
   "status": "proved",
   "theorems": [
    "C17_running_status"
   ],
   "note": "All prefixes of complete events, all data bytes."
  },
  {
   "property": "C18",
   "status": "proved",
   "theorems": [
    "C18_ticks",
    "C18_ticks_wrapped"
   ],
   "note": "All decodable tracks; also the exact wrapped value without the bound."
  },
  {
   "property": "C19",
   "status": "proved",
   "theorems": [
    "C19_bytes_accounted"
   ],
   "note": "All decodable tracks; the rest is proved not to start with a complete message."
  },
  {
   "property": "C20",
   "status": "partial",
   "theorems": [
    "C20_tracks_partial",
    "C20_track_outcomes_partial",
    "C20_files_partial",
    "C20_never_panics_refuted"
   ],
   "note": "False (refuted by witness). Proved exactly which inputs end in a panic, an error or a file, for every track payload and every file."
  },
  {
   "property": "C21",
   "status": "partial",
   "theorems": [
    "C21_truncation_partial",
    "C21_incomplete_event_dropped",
    "C21_truncation_refuted"
   ],
   "note": "False in general (refuted). Proved: no prefix decodes to anything else, every cut before the end of a track chunk is refused; and that incomplete trailing events of complete chunks are silently dropped."
  },
  {
   "property": "C22",
   "status": "proved",
   "theorems": [
    "C22_nothing_reported",
    "C22_reports"
   ],
   "note": "All SMF values: nothing reported iff valid; and each report with its position iff due."
  },
  {
   "property": "C23",
   "status": "partial",
   "theorems": [
    "C23_validation_panics_partial",
    "C23_validation_panics_refuted"
   ],
   "note": "False for format 1 files without tracks (refuted); proved for all other decodable files, and that exactly those panic."
  },
  {
   "property": "C24",
   "status": "partial",
   "theorems": [
    "C24_transposed_partial",
    "C24_written_partial",
    "C24_any_file_partial",
    "C24_overflow_refuted"
   ],
   "note": "Proved for every decodable file and every step count for which the 64-bit sum does not overflow (also as read back from the written file); refuted for step counts near 2^63, where note values wrap around."
  },
  {
   "property": "C25",
   "status": "proved",
   "theorems": [
    "C25_compose",
    "C25_invert",
    "C25_intervals",
    "C25_through_files",
    "C25_two_runs"
   ],
   "note": "For steps that keep every note in 0..127 the values after two transpositions are those of one, and a file written, read and transposed again has the bytes of one transposition by the sum. Steps within 2^63 minus a note value, as for C24."
  },
  {
   "property": "C26",
   "status": "partial",
   "theorems": [
    "C26_right_key_partial",
    "C26_compose_partial",
    "C26_overflow_refuted"
   ],
   "note": "Proved for all 30 keys and all step counts that do not overflow the 64-bit index; refuted near 2^63."
  },
  {
   "property": "C27",
   "status": "partial",
   "theorems": [
    "C27_zero_partial",
    "C27_zero_refuted"
   ],
   "note": "Refuted for six keys (C♯, G♭, C♭ major; A♭, E♭, A♯ minor are respelled); proved that exactly the other 24 are unchanged."
  },
  {
   "property": "C28",
   "status": "proved",
   "theorems": [
    "C28_scales",
    "C28_one_each"
   ],
   "note": "All 30 scales against a circle-of-fifths specification; one per accidental count and mode."
  },
  {
   "property": "C29",
   "status": "proved",
   "theorems": [
    "C29_note_names"
   ],
   "note": "All tracks and histories; names specified independently (SpecNote.v)."
  },
  {
   "property": "C30",
   "status": "partial",
   "theorems": [
    "C30_names_parsed_partial",
    "C30_displayed_partial",
    "C30_middle_c_refuted",
    "C30_line_refuted"
   ],
   "note": "Exact: names with middle C in octave 4 (default) are read back to the same value for all 128 notes and both scales. With --C4 the parser reads the note an octave lower (refuted). NoteOn/NoteOff lines reject the negative octave names of notes 0..11 (refuted)."
  },
  {
   "property": "C31",
   "status": "partial",
   "theorems": [
    "C31_bank_partial",
    "C31_bank_refuted"
   ],
   "note": "False for bank values of 64 and more; exact value proved for all; refuted by witness."
  },
  {
   "property": "C32",
   "status": "proved",
   "theorems": [
    "C32_sysex_packets",
    "C32_sysex_interrupted"
   ],
   "note": "All histories; F0 inside an open sequence is proved an error."
  },
  {
   "property": "C33",
   "status": "partial",
   "theorems": [
    "C33_events_partial",
    "C33_text_refuted"
   ],
   "note": "Proved for all events of all decoded files, with any manufacturers loaded by the user: import always succeeds and keeps kind and delta; the values survive exactly when the text is valid UTF-8. Counterexample: Latin-1 text."
  },
  {
   "property": "C34",
   "status": "partial",
   "theorems": [
    "C34_json_roundtrip_partial",
    "C34_reassembled_partial",
    "C34_timecode_refuted",
    "C34_text_refuted",
    "C34_packets_refuted",
    "C34_empty_track_refuted",
    "C34_text_roundtrip_partial"
   ],
   "note": "Proved for all files with a metrical header, UTF-8 text, no empty tracks and consecutive SysEx packets, both for the tree and for the bytes of the JSON file. Counterexamples: SMPTE headers silently become 0 pulses per quarter, Latin-1 text is replaced, packets with an event between them change, an empty track panics."
  },
  {
   "property": "C35",
   "status": "partial",
   "theorems": [
    "C35_kind_partial",
    "C35_marker_refuted"
   ],
   "note": "Exact characterisation: an event line of a decoded file is read as its own kind iff its text does not contain the name of a kind that the assembler looks for earlier; a marker with text 'Text A' is read as a text event (refuted)."
  },
  {
   "property": "C36",
   "status": "partial",
   "theorems": [
    "C36_line_partial",
    "C36_text_refuted",
    "C36_rejected_refuted"
   ],
   "note": "Proved for every event of every decoded file that is not misleading and readable (SpecRead.v): delta and values return. Counterexamples for each missing hypothesis: leading white space and further lines of texts are lost; notes below 12, time signatures with 0 or 19 thirty-seconds or denominator 0, and unlisted manufacturers are rejected."
  },
  {
   "property": "C37",
   "status": "partial",
   "theorems": [
    "C37_chunks_partial",
    "C37_error",
    "C37_track_before_header_refuted"
   ],
   "note": "Proved: exactly which chunks are read from any text (unique division of its lines), and that an error is returned exactly for lines longer than 65535 bytes. Refuted: an MTrk line before the first MThd line is dropped silently."
  },
  {
   "property": "C38",
   "status": "partial",
   "theorems": [
    "C38_reading",
    "C38_track",
    "C38_track_ends",
    "C38_track_error_partial",
    "C38_track_outcome",
    "C38_track_goroutine",
    "C38_goroutine_leak_refuted"
   ],
   "note": "Reading: every interleaving ends with exactly the chunks of the text. Tracks: with the real parser of event lines, parseMTrk always returns and gets every line when none is rejected; the goroutine ends unless two or more lines follow a rejected one. Refuted for those: the goroutine stays blocked."
  },
  {
   "property": "C39",
   "status": "proved",
   "theorems": [
    "C39_notes_paired",
    "C39_file_notes",
    "C39_note_order"
   ],
   "note": "Pairing proved for all event lists (channels and note numbers as decoded) and carried to decoded files; order and durations under a bound that excludes 64-bit overflow of the times. A note that never ends (no NoteOff and no EndOfTrack) does not sound in this sense and is not listed."
  },
  {
   "property": "C40",
   "status": "partial",
   "theorems": [
    "C40_note_times_partial",
    "C40_default_tempo_refuted",
    "C40_tempo_change_refuted"
   ],
   "note": "False in general: default tempo 50000 instead of 500000 us, and a tempo change inside a delta applies to the whole delta. Proved for maps that start at tick 0 and change only at events of the track."
  },
  {
   "property": "C41",
   "status": "partial",
   "theorems": [
    "C41_extract_outcome_partial",
    "C41_panics_refuted",
    "C41_format0_refuted"
   ],
   "note": "False: panics for files without tracks and for SMPTE timing; the notes of single-track files are never listed. The exact outcome of every decoded file is proved."
  },
  {
   "property": "C42",
   "status": "partial",
   "theorems": [
    "C42_click_outcome_partial",
    "C42_click_refuted"
   ],
   "note": "False for every file: the type tests ask for pointers to events that are stored as values, so no line is ever written."
  },
  {
   "property": "C43",
   "status": "proved",
   "theorems": [
    "C43_table",
    "C43_decoded"
   ],
   "note": "The whole table (titles, event cells, empty cells, row lengths) for every SMF; the hypothesis only says data are bytes and SMPTE times are not negative, and holds for all decoded files (C43_decoded)."
  },
  {
   "property": "C44",
   "status": "proved",
   "theorems": [
    "C44_alignment"
   ],
   "note": "Widths are the longest cell in bytes; every padded cell of a column has exactly that many characters (UTF-8)."
  },
  {
   "property": "C45",
   "status": "proved",
   "theorems": [
    "C45_event_column",
    "C45_decoded_lines",
    "C45_chunk_columns",
    "C45_disassembles"
   ],
   "note": "Column of exactly 42 characters for every byte string that starts with a terminated delta time, hence for every event of every decoded file; chunk line columns; decoded files always disassemble."
  },
  {
   "property": "C46",
   "status": "proved",
   "theorems": [
    "C46_hex",
    "C46_json"
   ],
   "note": "Text and JSON forms, both against an independent grammar of hexadecimal text."
  },
  {
   "property": "C47",
   "status": "partial",
   "theorems": [
    "C47_lookup_keeps_id_partial",
    "C47_lookup_keeps_id_refuted"
   ],
   "note": "False for ID 7F in the built-in table (refuted); proved for all other IDs and all configured manufacturers."
  },
  {
   "property": "C48",
   "status": "partial",
   "theorems": [
    "C48_find_manufacturer_refuted",
    "C48_find_manufacturer_partial"
   ],
   "note": "False: the result depends on map order when names repeat (refuted); proved when names are distinct."
  },
  {
   "property": "C49",
   "status": "partial",
   "theorems": [
    "C49_time_signature_partial",
    "C49_time_signature_refuted"
   ],
   "note": "Loops for ever when written denominator is 0 (refuted); proved to terminate for every other."
  },
  {
   "property": "C50",
   "status": "partial",
   "theorems": [
    "C50_closed_partial",
    "C50_written",
    "C50_any_list",
    "C50_last_refuted",
    "C50_empty_refuted",
    "C50_marked_refuted"
   ],
   "note": "Proved for all events but the last of a list of unmarked messages. Refuted: the last event is never closed, an empty list panics, a message already marked (JSON) stays closed before a continuation."
  },
  {
   "property": "C51",
   "status": "partial",
   "theorems": [
    "C51_reencoding_partial",
    "C51_pitch_bend_refuted",
    "C51_sysex_refuted"
   ],
   "note": "False in general (pitch bends, multi-packet SysEx: refuted); proved for decoded files that are legal."
  },
  {
   "property": "C52",
   "status": "partial",
   "theorems": [
    "C52_again_partial",
    "C52_again_refuted"
   ],
   "note": "Refuted: the transposed track has no context, so a second transposition panics exactly when there is a note or key signature."
  },
  {
   "property": "C53",
   "status": "proved",
   "theorems": [
    "C53_tracks_independent",
    "C53_tracks_permuted"
   ],
   "note": "All files."
  },
  {
   "property": "C54",
   "status": "proved",
   "theorems": [
    "C54_prefix_compositional"
   ],
   "note": "All split points at event boundaries."
  },
  {
   "property": "C55",
   "status": "partial",
   "theorems": [
    "C55_written_rows_partial",
    "C55_written_rows_refuted"
   ],
   "note": "Finding: writeTSV writes the title row twice, the first time with the titles of one track only, so that rows differ in length for two or more tracks. The partial theorem states what is written."
  },
  {
   "property": "C56",
   "status": "partial",
   "theorems": [
    "C56_text_roundtrip_partial",
    "C56_reassembled_partial",
    "C56_tag_in_text_refuted",
    "C56_packets_refuted",
    "C56_timecode_refuted"
   ],
   "note": "Proved for all files with a metrical header, texts without tags, events that C36 reads back and consecutive SysEx packets. Counterexamples: a text event 'MTrk' makes the assembler panic, packets with an event between them change, SMPTE headers are rejected."
  },
  {
   "property": "C57",
   "status": "partial",
   "theorems": [
    "C57_crash_partial",
    "C57_line_partial",
    "C57_empty_track_refuted",
    "C57_comment_header_refuted",
    "C57_smpte_refuted",
    "C57_time_signature_refuted"
   ],
   "note": "Exact list of causes: a panic needs a line with SMPTEOffset, a track without events or a commented-out header; a hang needs a line with TimeSignature; each with a concrete text (refuted)."
  },
  {
   "property": "C58",
   "status": "partial",
   "theorems": [
    "C58_crash_partial",
    "C58_empty_track_refuted",
    "C58_velocity_refuted",
    "C58_pressure_refuted",
    "C58_key_refuted",
    "C58_offset_refuted",
    "C58_denominator_refuted",
    "C58_note_off_refuted"
   ],
   "note": "Exact causes: a panic needs a track without events or an event with a value out of range (NoteOn velocity, pressures, KeySignature, SMPTEOffset); a hang needs a TimeSignature denominator above 128; each with a concrete document (refuted)."
  },
  {
   "property": "C59",
   "status": "partial",
   "theorems": [
    "C59_reads_partial",
    "C59_written_partial",
    "C59_escape_refuted",
    "C59_end_flag_refuted",
    "C59_short_seqspec_refuted"
   ],
   "note": "Everything but escapes and one-byte sequencer specific events is read back, up to the continuation flag; these three exceptions are refuted with witnesses. Nothing in the program itself calls UnmarshalBinary; it is library API."
  },
  {
   "property": "C60",
   "status": "partial",
   "theorems": [
    "C60_agree_partial",
    "C60_accepts_partial",
    "C60_only_alone_refuted",
    "C60_only_in_tracks_refuted"
   ],
   "note": "Proved: what both accept they read alike (F7 packets apart) and which of the messages accepted in a track are refused alone. Refuted both ways with witnesses."
  },
  {
   "property": "C61",
   "status": "partial",
   "theorems": [
    "C61_crash_partial",
    "C61_never_panics_refuted"
   ],
   "note": "Exact characterisation of the panics (inconsistent lengths, short sequence numbers, IDs and F0 messages); refuted with four witnesses."
  },
  {
   "property": "C62",
   "status": "proved",
   "theorems": [
    "C62_export_is_json",
    "C62_one_tree"
   ],
   "note": "Grammar of RFC 8259 as specification; encoding/json is modelled from its source. Replaced bytes are written as U+FFFD itself instead of its escape."
  },
  {
   "property": "C63",
   "status": "partial",
   "theorems": [
    "C63_text_read_partial",
    "C63_nesting_refuted",
    "C63_rest_refuted"
   ],
   "note": "Proved for trees nested at most 10000 deep (limit of encoding/json, refuted beyond). The assembler also accepts text that is not JSON: anything may follow the first value (refuted)."
  },
  {
   "property": "C64",
   "status": "partial",
   "theorems": [
    "C64_tsv_text_partial",
    "C64_one_table",
    "C64_injective",
    "C64_delimiters",
    "C64_delimiter_refuted"
   ],
   "note": "Proved for all files with at least one track and all delimiters that encoding/csv (modelled from its source) accepts: the file is unambiguous text for the table after one extra title row (C55). All other delimiters end in an error (refuted)."
  },
  {
   "property": "C65",
   "status": "proved",
   "theorems": [
    "C65_notes_printed",
    "C65_listing_unambiguous",
    "C65_times_exact",
    "C65_duration_text"
   ],
   "note": "Proved for every list the extraction returns. Go's time.Duration.String and Truncate are modelled from the library source; the JSON form of the listing is C71."
  },
  {
   "property": "C66",
   "status": "proved",
   "theorems": [
    "C66_only_outputs"
   ],
   "note": "All command lines and all disks; the names of the files that may change are taken from an independent reading of the command line."
  },
  {
   "property": "C67",
   "status": "partial",
   "theorems": [
    "C67_failure_changes_nothing_partial",
    "C67_disassembly_partial",
    "C67_notes_refuted",
    "C67_click_refuted",
    "C67_tsv_refuted",
    "C67_split_refuted"
   ],
   "note": "Proved for assemble, transpose, export, humanise, help, version and for disassemble without -split and -templates. Refuted for notes (division 0), click (no tracks), tsv (delimiter that encoding/csv refuses) and disassemble -split (second file cannot be created): the output is emptied first."
  },
  {
   "property": "C68",
   "status": "partial",
   "theorems": [
    "C68_same_command",
    "C68_default_command",
    "C68_unknown_option",
    "C68_default_output_refuted"
   ],
   "note": "Refuted in one point: the help of assemble promises a default output file, but without --out nothing is written and the run succeeds. Everything else is proved."
  },
  {
   "property": "C69",
   "status": "partial",
   "theorems": [
    "C69_text_runs_partial",
    "C69_json_runs_partial",
    "C69_octave_refuted"
   ],
   "note": "Proved under the conditions of C56 (text) and C34 (JSON) on the events of the file, without options; refuted with --C4, where the notes come back an octave lower."
  },
  {
   "property": "C70",
   "status": "proved",
   "theorems": [
    "C70_split",
    "C70_split_out"
   ],
   "note": "All decodable files and all names; path arithmetic included."
  },
  {
   "property": "C71",
   "status": "partial",
   "theorems": [
    "C71_json_text",
    "C71_document",
    "C71_document_unambiguous",
    "C71_seconds_partial",
    "C71_seconds_exact_refuted"
   ],
   "note": "The document (validity, layout, one reading) is proved; the times are proved to be within 10 microseconds and to determine the whole milliseconds. Exactness fails: 1.118 s is written as 1.1179999999999999 (time.Duration.Seconds adds two rounded numbers)."
  },
  {
   "property": "C72",
   "status": "partial",
   "theorems": [
    "C72_loaded_partial",
    "C72_others_partial",
    "C72_names_refuted",
    "C72_others_refuted"
   ],
   "note": "Region and name of the file are dropped by Manufacturer.UnmarshalJSON, so the listed manufacturers are not defined (C72_names_refuted), and listing 7F renames 7E (C72_others_refuted). Proved: documented files load; for every text that loads, every ID except 7E keeps its region and name."
  },
  {
   "property": "C73",
   "status": "proved",
   "theorems": [
    "C73_one_reading",
    "C73_no_reading"
   ],
   "note": "All argument lists; the grammar of command lines is independent of the scanner of package flag."
  },
  {
   "property": "C74",
   "status": "proved",
   "theorems": [
    "C74_reads_exactly",
    "C74_reads_only",
    "C74_reads_all",
    "C74_assembled"
   ],
   "note": "All byte strings; both directions against a grammar of RFC 8259 with the limit of 10000 levels."
  },
  {
   "property": "C75",
   "status": "proved",
   "theorems": [
    "C75_tracks",
    "C75_files",
    "C75_once"
   ],
   "note": "All byte strings; both directions, including messages outside the standard that are accepted."
  },
  {
   "property": "C76",
   "status": "partial",
   "theorems": [
    "C76_requests_partial",
    "C76_proportional_refuted",
    "C76_accepted_refuted"
   ],
   "note": "False: eight bytes make the decoder ask for 4 GiB, and each track of an accepted 30 byte file likewise (refuted). Proved for files in which nothing is missing, and for all others apart from one request of the file and one per track."
  },
  {
   "property": "C77",
   "status": "proved",
   "theorems": [
    "C77_sound",
    "C77_complete"
   ],
   "note": "soundness for all lines; completeness for lines whose parts are the first of their kind, which is part of the statement"
  },
  {
   "property": "C78",
   "status": "partial",
   "theorems": [
    "C78_notes_partial",
    "C78_keys_partial",
    "C78_octave_refuted",
    "C78_range_refuted",
    "C78_key_refuted"
   ],
   "note": "false in general: B sharp and C flat are read an octave off, notes of octave 9 above G are accepted, and unknown keys are read as C major. Proved for all other note names and for all names of keys."
  },
  {
   "property": "C79",
   "status": "proved",
   "theorems": [
    "C79_exact"
   ],
   "note": "All JSON trees; both directions for every kind of event."
  },
  {
   "property": "C80",
   "status": "partial",
   "theorems": [
    "C80_ranges_partial",
    "C80_note_refuted",
    "C80_data_refuted",
    "C80_missing_refuted"
   ],
   "note": "The full claim (values a MIDI message cannot hold are refused) is false of the code: C80_note_refuted, C80_data_refuted and C80_missing_refuted. Proved instead: the ranges of every event that is accepted."
  },
  {
   "property": "C81",
   "status": "partial",
   "theorems": [
    "C81_source_partial",
    "C81_accepted",
    "C81_text_partial",
    "C81_bend_refuted"
   ],
   "note": "Complete for what the document says and for acceptance; that the written file decodes to it is proved for events the format can hold (C80), manufacturers read back as written (C15) and files below 4 GiB. Counterexample: a pitch bend of 8192."
  },
  {
   "property": "C82",
   "status": "partial",
   "theorems": [
    "C82_source_partial",
    "C82_accepted_partial",
    "C82_comment_refuted",
    "C82_early_refuted"
   ],
   "note": "As C81. The claim is false for lines after a comment that mentions MTrk or MThd and for events before the first track, which are dropped (C82_comment_refuted, C82_early_refuted). Acceptance is proved for lines that say their events plainly."
  },
  {
   "property": "C83",
   "status": "proved",
   "theorems": [
    "C83_embedded_template",
    "C83_decoded"
   ],
   "note": "For all files in memory and all decoded files. The template text is a copy of /repo/ops/disassemble/template; the part of text/template it needs is modelled."
  },
  {
   "property": "C84",
   "status": "partial",
   "theorems": [
    "C84_listing_partial",
    "C84_other_kinds_partial",
    "C84_plain_text",
    "C84_blank_refuted"
   ],
   "note": "Proved for template files that leave the templates of the layout (document, MThd, MTrk, event, ...) alone and define no others. False for templates of white space, which are ignored (C84_blank_refuted). What a user template with actions outside the modelled part of text/template writes is left open."
  },
  {
   "property": "C85",
   "status": "partial",
   "theorems": [
    "C85_order_partial",
    "C85_order_refuted"
   ],
   "note": "Proved for template files none of whose texts defines a template; false otherwise (C85_order_refuted)."
  },
  {
   "property": "C86",
   "status": "proved",
   "theorems": [
    "C86_settings",
    "C86_missing_file",
    "C86_bad_file",
    "C86_disassemble",
    "C86_templates",
    "C86_no_templates",
    "C86_export",
    "C86_notes",
    "C86_tsv",
    "C86_click",
    "C86_humanise",
    "C86_help"
   ],
   "note": "For all argument lists of documented options and all worlds. Conditions of the cited properties carry over: notes for divisions other than 0 and semitones in the range of `reasonable`; tsv into a file for delimiters that the csv writer accepts; user templates as in C84."
  },
  {
   "property": "C87",
   "status": "partial",
   "theorems": [
    "C87_transpose_partial",
    "C87_json_partial",
    "C87_text_partial",
    "C87_transpose_refuted"
   ],
   "note": "What was written decodes as stated for events that can be written faithfully (legal_events, faithful_events) and files below 4 GiB, as in C24, C81 and C82; that the output file and no other is written, and that a failing run changes nothing, is unconditional. Counterexamples: transposing by 0 a pitch bend and a text of 256 bytes."
  },
  {
   "property": "C88",
   "status": "proved",
   "theorems": [
    "C88_export_says",
    "C88_nothing_else"
   ],
   "note": "Proved in full for every decoded file: the text is JSON (C62), the tree says the file in the sense of SpecSource.v (which C81 shows the assembler to follow), and says it uniquely. Texts with bytes that are not UTF-8 are characterised by `repaired`, the pulses per quarter note of an SMPTE time code are said as 0."
  },
  {
   "property": "C89",
   "status": "partial",
   "theorems": [
    "C89_listing_says_partial",
    "C89_two_lines_refuted",
    "C89_marker_refuted"
   ],
   "note": "Proved for files with a metrical division, middle C as C4, lines below 64 KiB and events that are not misleading, line-safe and readable (the conditions of C35, C36, C56); empty tracks are included. Refuted in general: a text of two lines makes the listing say nothing, a marker \"Text A\" is said as another event."
  },
  {
   "property": "C90",
   "status": "partial",
   "theorems": [
    "C90_same_document_partial",
    "C90_same_listing_partial",
    "C90_latin_refuted",
    "C90_listing_refuted"
   ],
   "note": "Documents: proved for all files whose texts are UTF-8; refuted for Latin 1 texts. Listings: proved under the conditions of C89, up to the mark of completeness of system exclusive messages, which the listing only shows as a byte; refuted by two files with different messages and identical listings."
  },
  {
   "property": "C91",
   "status": "partial",
   "theorems": [
    "C91_transposed_partial",
    "C91_moved_partial",
    "C91_limited_refuted"
   ],
   "note": "Proved for notes that stay within 0..127 and files that are written as read (legal_smf); false for notes that are limited (C91_limited_refuted)."
  },
  {
   "property": "C92",
   "status": "partial",
   "theorems": [
    "C92_transposed_partial",
    "C92_same_contents",
    "C92_long_text_refuted"
   ],
   "note": "C92_same_contents is unconditional; the statement about transpose is false for files that are not written as read (C92_long_text_refuted)."
  },
  {
   "property": "C93",
   "status": "partial",
   "theorems": [
    "C93_options_partial",
    "C93_commands",
    "C93_examples_partial",
    "C93_own",
    "C93_unexplained_refuted",
    "C93_humanise_refuted",
    "C93_silent_refuted"
   ],
   "note": "C93_commands is unconditional; what is explained is an option and all examples but one are usable; three options are not explained, one example has no file, help and version have no help (refuted theorems)."
  },
  {
   "property": "C94",
   "status": "partial",
   "theorems": [
    "C94_text_json_partial",
    "C94_text_encoded_partial",
    "C94_json_encoded_partial",
    "C94_differ_refuted",
    "C94_packets_refuted"
   ],
   "note": "Proved for files with metrical time, readable listings, valid UTF-8 text and no complete message at the very end of a track; against the encoder also without messages in packets. Refuted outside these conditions with concrete files."
  },
  {
   "property": "C95",
   "status": "proved",
   "theorems": [
    "C95_alone",
    "C95_any_order"
   ],
   "note": "Comments that mention MThd or MTrk are not idle: the assembler takes them for the beginning of a chunk (text.go:104-118)."
  },
  {
   "property": "C96",
   "status": "proved",
   "theorems": [
    "C96_trees",
    "C96_texts",
    "C96_order",
    "C96_others",
    "C96_spelling"
   ],
   "note": "If a name is given twice, the values under it must come in the same order in both documents. Names that mean something anywhere in a document count everywhere in it."
  },
  {
   "property": "C97",
   "status": "proved",
   "theorems": [
    "C97_read",
    "C97_written",
    "C97_validated",
    "C97_transposed",
    "C97_notes",
    "C97_click",
    "C97_assembled",
    "C97_runs"
   ],
   "note": "Disassemble, export and tsv print names, so only what they read is compared; the notes command is compared note by note."
  },
  {
   "property": "C98",
   "status": "partial",
   "theorems": [
    "C98_read_partial",
    "C98_runs_partial",
    "C98_read_refuted"
   ],
   "note": "False for configurations with IDs that no file can have (09 7F 01); proved for IDs as in files.  The program itself never loads a configuration (options.conf is never set), so the theorems are about the library functions."
  },
  {
   "property": "C99",
   "status": "partial",
   "theorems": [
    "C99_count",
    "C99_work_partial",
    "C99_endless_refuted"
   ],
   "note": "Proved: 7 * keys * floor(n/12) to 7 * keys * ceil(n/12) passes for n semitones down and none upwards. False in general: with the least and the greatest int as the number of semitones a file of 36 bytes takes more than 4 * 10^18 passes."
  },
  {
   "property": "C100",
   "status": "proved",
   "theorems": [
    "C100_pipes",
    "C100_template",
    "C100_total",
    "C100_one",
    "C100_listing",
    "C100_shows_one"
   ],
   "note": "All templates of the fragment described and all events; the fragment covers what the built-in templates use apart from pipes."
  },
  {
   "property": "C101",
   "status": "proved",
   "theorems": [
    "C101_complaints",
    "C101_silent",
    "C101_file"
   ],
   "note": "All event lists as decoded; exact lines and order."
  },
  {
   "property": "C102",
   "status": "partial",
   "theorems": [
    "C102_even_partial",
    "C102_even_file_partial",
    "C102_false_alarm_refuted",
    "C102_missed_refuted"
   ],
   "note": "False both ways: the code tests (time * tempo) mod PPQN instead of the remainder of the division (ops/notes/notes.go:127). Proved: no line and no loss where the ticks per quarter note divide the tempo; refuted by a file with exact times that is warned about and one with a loss that is not."
  },
  {
   "property": "C103",
   "status": "partial",
   "theorems": [
    "C103_levels_partial",
    "C103_note_offs_partial",
    "C103_note_on_refuted",
    "C103_channel_refuted"
   ],
   "note": "The half about warnings and levels is proved in full (C103_levels_partial), and the DEBUG lines are characterised exactly (one for each NoteOff event). False: NoteOn events are not logged, and the channel is written as the hexadecimal codes of its decimal digits."
  },
  {
   "property": "C104",
   "status": "proved",
   "theorems": [
    "C104_report",
    "C104_silent",
    "C104_one_reading"
   ],
   "note": "All SMF values; lines, order and texts."
  },
  {
   "property": "C105",
   "status": "proved",
   "theorems": [
    "C105_report",
    "C105_notes",
    "C105_uncreated",
    "C105_nothing"
   ],
   "note": "All command lines and disks, the text of errors that end a run excepted (see DESIGN.md, section 4)."
  },
  {
   "property": "C106",
   "status": "proved",
   "theorems": [
    "C106_decoded",
    "C106_split",
    "C106_undecodable",
    "C106_transposed"
   ],
   "note": "Settles for every command line of a reading command without user templates whether the run exits with 0, exits with 1 or crashes; assemble can hang (C49, C57, C58) and is not included."
  },
  {
   "property": "C107",
   "status": "partial",
   "theorems": [
    "C107_tag_partial",
    "C107_tag_outcome",
    "C107_tag_round_trip",
    "C107_events",
    "C107_channel",
    "C107_middle_c",
    "C107_tag_refuted"
   ],
   "note": "Everything proved except that the tag of a text does not depend on map order: proved for texts with the name of exactly one tag, refuted for 'TrackName Tempo' (C107_tag_refuted). The function is not used by a command."
  },
  {
   "property": "C108",
   "status": "proved",
   "theorems": [
    "C108_tempo",
    "C108_tempo_unique",
    "C108_time_signature"
   ],
   "note": "All positive tempi; tempo 0 divides by zero and is left to the Go implementation."
  },
  {
   "property": "C109",
   "status": "partial",
   "theorems": [
    "C109_columns_partial",
    "C109_lines",
    "C109_columns_refuted"
   ],
   "note": "Proved for notes that end before 610 s; false from there on (C109_columns_refuted: 10m10.125s needs ten characters in a column of nine)."
  },
  {
   "property": "C110",
   "status": "proved",
   "theorems": [
    "C110_event",
    "C110_document",
    "C110_run"
   ],
   "note": "All JSON trees; success and crash both characterised exactly, so everything else is an error."
  },
  {
   "property": "C111",
   "status": "proved",
   "theorems": [
    "C111_line",
    "C111_text",
    "C111_run"
   ],
   "note": "All lines and texts; success, crash and endless loop characterised."
  },
  {
   "property": "C112",
   "status": "proved",
   "theorems": [
    "C112_layout",
    "C112_any_tree",
    "C112_fields"
   ],
   "note": "All decodable files; members, order, values and white space."
  },
  {
   "property": "C113",
   "status": "proved",
   "theorems": [
    "C113_binary",
    "C113_escape",
    "C113_escape_written",
    "C113_json",
    "C113_text",
    "C113_kinds"
   ],
   "note": "All 28 kinds in all three formats, all inputs."
  },
  {
   "property": "C114",
   "status": "proved",
   "theorems": [
    "C114_track",
    "C114_file",
    "C114_used",
    "C114_runs"
   ],
   "note": "All files that can be cut into chunks, valid or not; disassemble is left out because it prints the bytes, assemble because it reads no MIDI file."
  },
  {
   "property": "C115",
   "status": "proved",
   "theorems": [
    "C115_table"
   ],
   "note": "Closed under the global context; holds for arbitrary tables, including ones with repeated entries."
  },
  {
   "property": "C116",
   "status": "proved",
   "theorems": [
    "C116_contents",
    "C116_rewritten",
    "C116_used",
    "C116_runs",
    "C116_listing",
    "C116_document"
   ],
   "note": "Proved for every file that can be read and written (legal header, track count and messages) whose manufacturer IDs are filed under themselves; the only exception among built-in entries is 7Fh (C47). The commands disassemble (prints the raw bytes) and assemble (reads no MIDI file) are left out on purpose."
  },
  {
   "property": "C117",
   "status": "proved",
   "theorems": [
    "C117_read",
    "C117_valid",
    "C117_transposed",
    "C117_notes"
   ],
   "note": "Fully proved for tracks made of whole messages (leftovers behind the last whole message are not compared). The channel prefix is a meta event and is not renamed."
  },
  {
   "property": "C118",
   "status": "proved",
   "theorems": [
    "C118_read",
    "C118_valid",
    "C118_transposed",
    "C118_scaled",
    "C118_scaled_valid",
    "C118_scaled_transposed",
    "C118_scaled_notes"
   ],
   "note": "Fully proved for tracks made of whole messages. The bound of 2^30 ticks is part of the statement: beyond it the unsigned product of delta time and tempo can wrap around."
  },
  {
   "property": "C119",
   "status": "proved",
   "theorems": [
    "C119_apart",
    "C119_named"
   ],
   "note": "Fully proved for all command lines without --templates. Finding: errors are reported on standard output (cmd/midiasm/main.go:82-84), not on stderr, so they end up where a result was expected; click prints three line feeds to standard output even if its result goes to a file (ops/click/click.go:149, 176, 180)."
  },
  {
   "property": "C120",
   "status": "partial",
   "theorems": [
    "C120_notes_partial",
    "C120_text_refuted"
   ],
   "note": "Proved for silent events at the tick of the event before (they can be put in or left out freely). Refuted in general: a tempo change counts from the event before it in the track on (C40), so a text event between a tempo change and the end of a note changes when the note ends."
  },
  {
   "property": "C121",
   "status": "proved",
   "theorems": [
    "C121_controllers",
    "C121_apart",
    "C121_manufacturers",
    "C121_decoded"
   ],
   "note": "The register of owners in SpecNumbers.v is a transcription of the list of the MIDI association restricted to the IDs in the built-in table; \"Omni Mode On \" (125) carries a trailing blank and \"Tremelo\" (92) is misspelt in the code, which the statement (names start with the words of the specification) tolerates."
  },
  {
   "property": "C122",
   "status": "proved",
   "theorems": [
    "C122_slower"
   ],
   "note": "Tracks of fewer than 536000000 ticks (in decoded files): C122_long_example shows that times wrap around beyond; C122_rounded_example that the millisecond is needed."
  },
  {
   "property": "C123",
   "status": "proved",
   "theorems": [
    "C123_read",
    "C123_notes",
    "C123_validated",
    "C123_transposed"
   ],
   "note": "The theorems start from a file that is read, validated, transposed or searched for notes successfully: which failure is met first depends on the order of the tracks. The first track holds the tempo map and has rules of its own, so it stays where it is."
  },
  {
   "property": "C124",
   "status": "proved",
   "theorems": [
    "C124_velocities",
    "C124_release"
   ],
   "note": "For any relation between the velocities; keys released by note off or by note on of velocity 0 (with the equality relation: the same notes). Velocity 0 in place of another velocity is excluded, as it should be."
  },
  {
   "property": "C125",
   "status": "proved",
   "theorems": [
    "C125_read",
    "C125_notes",
    "C125_validated",
    "C125_transposed"
   ],
   "note": "Reading, notes, validation (formats 1 and 2; format 0 has one track) and transposing; the listing and the exported document are covered track by track in C83, C88 and C89."
  },
  {
   "property": "C126",
   "status": "partial",
   "theorems": [
    "C126_rest_partial",
    "C126_refuted"
   ],
   "note": "Proved for ticks, order of times and durations; refuted for one common delay: a track that begins together with the tempo event has its rest timed with the default tempo of 50000, another one with the tempo (finding on the order of events at the same tick and the default tempo)."
  },
  {
   "property": "C127",
   "status": "partial",
   "theorems": [
    "C127_divided_partial",
    "C127_times_partial",
    "C127_refuted"
   ],
   "note": "Proved for channel, key, name, velocity and ticks, and for times (to a millisecond) where the tempo changes only at events of the tracks; refuted for times in general: a delta time is timed as a whole with the tempo in force at its end, so the start of a note depends on which other events its track has."
  },
  {
   "property": "C128",
   "status": "proved",
   "theorems": [
    "C128_repeated"
   ],
   "note": "Exact equality of the notes. Other tracks must not have tempo events, see C128_own_example."
  },
  {
   "property": "C129",
   "status": "proved",
   "theorems": [
    "C129_times"
   ],
   "note": "For files whose first track sets a tempo at tick 0 (otherwise the default, which does not scale, times what comes before; Example) and tracks of less than 536000000 ticks (beyond that times can wrap, C122)."
  },
  {
   "property": "C130",
   "status": "proved",
   "theorems": [
    "C130_keys",
    "C130_signs"
   ],
   "note": "For all files (no hypothesis that they were decoded). Names of notes inside the events are not compared for the first part, since they depend on the key when a file is read."
  },
  {
   "property": "C131",
   "status": "partial",
   "theorems": [
    "C131_muted_partial",
    "C131_times_partial",
    "C131_refuted"
   ],
   "note": "The notes without their times for all files; the times where those of C40 are right before and after; that they always stay the same is refuted (the finding of C127: a delta across a tempo change is timed with the last tempo only)."
  },
  {
   "property": "C132",
   "status": "proved",
   "theorems": [
    "C132_released"
   ],
   "note": "For all files (no hypothesis that they were decoded)."
  }
 ]
}
