(** * Tables, columns and hexadecimal text: C43 - C46, C55.  Theorems only; proofs in TsvProofs.v, DisassembleProofs.v
    and HexProofs.v. *)
From Verif Require Import Base Strings Vlq SpecVlq Tables Event Track File SpecPacket SpecDecimal SpecText SpecTable Utf8 Hex Disassemble Tsv
  Utf8Proofs HexProofs TsvProofs DisassembleProofs Samples.

(** C43.  [cell], [titles], [shows], [longest], [printable] (SpecTable.v).  [printable] only says that data are bytes
    and SMPTE times are not negative, as the Go types do. *)
Theorem C43_table : forall s, Forall (fun t => Forall (fun e => printable (e_body e)) (t_events t)) (f_tracks s) ->
  exists t rows, tsv_export s = Ok t /\ longest (f_tracks s) rows /\
    length t = S rows /\ Forall (fun r => length r = (7 * length (f_tracks s))%nat) t /\
    (forall i k, (i < length (f_tracks s))%nat -> (k < 7)%nat -> cell t 0 (7 * i + k) = nth k titles []) /\
    (forall i j tr e, nth_error (f_tracks s) i = Some tr -> nth_error (t_events tr) j = Some e ->
       exists l, shows e l /\ forall k, (k < 7)%nat -> cell t (S j) (7 * i + k) = nth k l []) /\
    (forall i j k tr, nth_error (f_tracks s) i = Some tr -> (length (t_events tr) <= j)%nat -> (k < 7)%nat -> cell t (S j) (7 * i + k) = []).
Proof. exact tsv_export_spec. Qed.
Print Assumptions C43_table.

(** All decoded files satisfy the hypothesis. *)
Theorem C43_decoded : forall env r s, is_bytes r -> decode env r = Ok s ->
  Forall (fun t => Forall (fun e => printable (e_body e)) (t_events t)) (f_tracks s).
Proof. exact decoded_tsv. Qed.
Print Assumptions C43_decoded.

Example C43_example : exists t, decode default_env sample_file = Ok sample_smf /\ map (fun t => length (t_events t)) (f_tracks sample_smf) = [3%nat; 11%nat] /\
  tsv_export sample_smf = Ok t /\ length t = 12%nat /\
  nth 6 t [] = [[]; []; []; []; []; []; []; str "240"; str "240"; str "NoteOn"; str "0"; str "64"; str "90"; str "E4"].
Proof. witness. Qed.

(** C44.  Each line is the padded cells of its record, two spaces between them; the width of a column is the length in bytes
    of its longest cell and every padded cell of the column has that many characters. *)
Theorem C44_alignment : forall records, Forall (Forall is_bytes) records ->
  exists (widths : list Z) (padded : list (list bytes)) (lines : list bytes),
    write_table records = concat (map (fun l => l ++ [10]) lines) /\
    Forall2 (separated (str "  ")) padded lines /\
    Forall2 (Forall2 (fun f p => exists n, p = f ++ spaces n)) records padded /\
    Forall (fun row => (length row <= length widths)%nat /\ forall j p w, nth_error row j = Some p -> nth_error widths j = Some w -> chars p (Z.to_nat w)) padded /\
    (forall j w, nth_error widths j = Some w ->
      (forall r f, In r records -> nth_error r j = Some f -> zlen f <= w) /\
      (w = 0 \/ exists r f, In r records /\ nth_error r j = Some f /\ zlen f = w)).
Proof. exact write_table_spec. Qed.
Print Assumptions C44_alignment.

(** A sharp sign takes three bytes: two characters of padding more than needed, but aligned. *)
Example C44_example : Forall (Forall is_bytes) [[str "C♯4"; str "x"]; [str "D"; str "yy"]] /\
  write_table [[str "C♯4"; str "x"]; [str "D"; str "yy"]] = str "C♯4    x " ++ [10] ++ str "D      yy" ++ [10].
Proof. split; [repeat constructor; discriminate|reflexivity]. Qed.

(** C45.  The column is [3 - length d] empty cells and the cells of the first [n] bytes; either all bytes are shown or there
    are 14 cells and an ellipsis. *)
Theorem C45_event_column : forall d r, vlq_string d -> is_bytes (d ++ r) ->
  exists col n shown, hex_column (d ++ r) = Ok col /\ chars col 42 /\
    hex_form (firstn n (d ++ r)) shown /\
    ((n = length (d ++ r) /\ exists k, col = spaces (3 * (3 - length d)) ++ shown ++ spaces k) \/
     ((0 < n < length (d ++ r))%nat /\ (n + (3 - length d) = 14)%nat /\ col = spaces (3 * (3 - length d)) ++ shown ++ [226; 128; 166])).
Proof. exact hex_column_spec. Qed.
Print Assumptions C45_event_column.

(** The line of every event of a decoded file begins with such a column. *)
Theorem C45_decoded_lines : forall env r s t e, is_bytes r -> decode env r = Ok s -> In t (f_tracks s) -> In e (t_events t) ->
  exists col d n shown rest, event_line e = Ok (col ++ str "  tick:" ++ rest) /\ chars col 42 /\
    reads d (e_delta e) /\ firstn (length d) (e_bytes e) = d /\ hex_form (firstn n (e_bytes e)) shown /\
    ((n = length (e_bytes e) /\ exists k, col = spaces (3 * (3 - length d)) ++ shown ++ spaces k) \/
     ((0 < n < length (e_bytes e))%nat /\ (n + (3 - length d) = 14)%nat /\ col = spaces (3 * (3 - length d)) ++ shown ++ [226; 128; 166])).
Proof. exact decoded_lines. Qed.
Print Assumptions C45_decoded_lines.

(** The columns of header (42) and track (24) lines, whatever the bytes. *)
Theorem C45_chunk_columns : forall bs n, is_bytes bs -> 0 < n <= 42 -> chars (pad 42 (ellipsize (hex_string bs) n)) 42.
Proof. exact chunk_column. Qed.
Print Assumptions C45_chunk_columns.

(** Every decoded file can be disassembled. *)
Theorem C45_disassembles : forall env r s, is_bytes r -> decode env r = Ok s -> exists text, disassemble s = Ok text.
Proof. exact decoded_disassembles. Qed.
Print Assumptions C45_disassembles.

(** A long text event, delta time of two bytes. *)
Example C45_example : vlq_string [129; 0] /\ is_bytes ([129; 0] ++ [255; 1; 20] ++ repeat 65 20) /\
  hex_column ([129; 0] ++ [255; 1; 20] ++ repeat 65 20) = Ok (str "   81 00 FF 01 14 41 41 41 41 41 41 41 41…").
Proof. split; [apply vs_more; [lia|apply vs_last; lia]|]. split; [repeat constructor; discriminate|reflexivity]. Qed.

Example C45_example_file : exists t e rest, is_bytes sample_file /\ decode default_env sample_file = Ok sample_smf /\
  nth_error (f_tracks sample_smf) 1 = Some t /\ nth_error (t_events t) 5 = Some e /\
  rest = str "240        delta:240        90 NoteOn                 channel:0  note:E4, velocity:90" ++ [10] /\
  event_line e = Ok (str "   81 70 40 5A                            " ++ str "  tick:" ++ rest).
Proof. eexists _, _, _. split; [repeat constructor; discriminate|]. witness. Qed.

(** C46.  [hex_form] (SpecText.v). *)
Theorem C46_hex : forall bs, is_bytes bs -> hex_form bs (hex_string bs) /\ parse_hex (hex_string bs) = Ok bs /\
  forall s, hex_form bs s -> parse_hex s = Ok bs.
Proof. exact hex_both. Qed.
Print Assumptions C46_hex.

Theorem C46_json : forall bs, is_bytes bs -> hex_of_json (hex_to_json bs) = Ok bs.
Proof. exact hex_json. Qed.
Print Assumptions C46_json.

Example C46_example : is_bytes [0; 127; 165; 255] /\ hex_string [0; 127; 165; 255] = str "00 7F A5 FF" /\
  parse_hex (str "00 7F A5 FF") = Ok [0; 127; 165; 255] /\ hex_to_json [0; 127; 165; 255] = [0; 127; 165; 255].
Proof. split; [repeat constructor; discriminate|]. repeat split; reflexivity. Qed.

(** C55, full statement: the TSV file holds the rows of the table.
      forall s t, tsv_export s = Ok t -> written_records t = t
    That is false: the titles are written once more, for one track, before the table; with two or more tracks the rows have
    unequal lengths.  Proved: the table follows that extra row. *)
Theorem C55_written_rows_partial : forall s t, tsv_export s = Ok t -> written_records t = titles :: t.
Proof. exact written_rows. Qed.
Print Assumptions C55_written_rows_partial.

Theorem C55_written_rows_refuted : exists s t, decode default_env sample_file = Ok s /\ tsv_export s = Ok t /\
  written_records t <> t /\ map (@length bytes) (firstn 3 (written_records t)) = [7%nat; 14%nat; 14%nat].
Proof. exact written_rows_refuted. Qed.
Print Assumptions C55_written_rows_refuted.
