(** * TextAssemble: from assembly text to a MIDI file (ops/assemble/text.go). *)
From Verif Require Import Base Strings Tables Event Track File Utf8 Regex TextEvent Assemble.

(** ops/assemble/text.go:142 *)
Definition format_re : re := cat [lit (str "format:"); Group (cls (fun c => (48 <=? c) && (c <=? 50)))].

(** text.go:150 *)
Definition metrical_re : re :=
  cat [lit (str "metrical"); opt (cls (fun c => (c =? 32) || (c =? 45))); lit (str "time:"); number; star_of white; lit (str "ppqn")].

(** text.go:136-172 [parseMThd] for the first line that contains "MThd" *)
Definition parse_mthd_line (line : bytes) : outcome mthd :=
  match rfind format_re line with
  | Some [f] =>
      do format <- parse_uint 16 f;
      match rfind metrical_re line with
      | Some [d] =>
          do division <- parse_uint 16 d;
          let fps := Z.shiftr (Z.land division 65280) 8 in
          if (Z.land division 32768 =? 32768) && negb ((fps =? 232) || (fps =? 231) || (fps =? 227) || (fps =? 226)) then Err
          else make_mthd format 0 division []
      | _ => Err
      end
  | _ => Err
  end.

(** text.go:136-172 [parseMThd] *)
Definition parse_mthd (chunk : list bytes) : outcome mthd :=
  match find (fun line => contains line (str "MThd")) chunk with
  | Some line => parse_mthd_line line
  | None => Err
  end.

(** unicode.IsSpace (Go standard library), the characters in UTF-8 *)
Definition white_runes : list bytes :=
  [[9]; [10]; [11]; [12]; [13]; [32]; [194; 133]; [194; 160]; [225; 154; 128];
   [226; 128; 128]; [226; 128; 129]; [226; 128; 130]; [226; 128; 131]; [226; 128; 132]; [226; 128; 133]; [226; 128; 134];
   [226; 128; 135]; [226; 128; 136]; [226; 128; 137]; [226; 128; 138]; [226; 128; 168]; [226; 128; 169]; [226; 128; 175];
   [226; 129; 159]; [227; 128; 128]].

(** strings.TrimSpace(line) == "" (text.go:214) *)
Definition blank (line : bytes) : bool := forallb (fun r => existsb (bytes_eqb r) white_runes) (runes line).

(** text.go:214 *)
Definition is_event_line (line : bytes) : bool := negb (has_prefix (str "%%") line) && negb (blank line).

(** text.go:213-224: the events of the lines; [tables i]: the manufacturers in the order in which the iteration of
    FindManufacturer on line [i] meets them. *)
Fixpoint parse_events (tables : nat -> list (bytes * manufacturer)) (lines : list bytes) : outcome (list event) :=
  match lines with
  | [] => Ok []
  | line :: r =>
      if is_event_line line then
        do e <- unmarshal_text (tables O) line; do es <- parse_events (fun i => tables (S i)) r; Ok (e :: es)
      else parse_events (fun i => tables (S i)) r
  end.

(** text.go:195-210: the lines after the first one that contains "MTrk" *)
Fixpoint after_mtrk (lines : list bytes) : option (list bytes) :=
  match lines with
  | [] => None
  | line :: r => if contains line (str "MTrk") then Some r else after_mtrk r
  end.

(** midi/MTrk.go:27-36 [NewMTrk] with the events added; ops/assemble/text.go:53 sets the number. *)
Definition assembled_mtrk (number : Z) (es : list event) : mtrk :=
  MTrk (str "MTrk") number 0 [77; 84; 114; 107; 0; 0; 0; 0] es None.

(** text.go:174-228 [parseMTrk]: sequential; Pipeline.v models its goroutine. *)
Definition parse_mtrk (tables : nat -> list (bytes * manufacturer)) (chunk : list bytes) : outcome (list event) :=
  match after_mtrk chunk with
  | None => Err
  | Some lines => do es <- parse_events tables lines; fixups es
  end.

(** text.go:36-60: one line of a chunk.  [break] ends the switch, not the loop.  [smf.MThd.Tracks += 1] on a nil MThd panics
    (uint16 arithmetic). *)
Definition assemble_line (tables : nat -> list (bytes * manufacturer)) (chunk : list bytes) (s : smf) (line : bytes) : outcome smf :=
  if has_prefix (str "%%") line then Ok s
  else if contains line (str "MThd") then
    do h <- parse_mthd chunk; Ok (SMF (Some h) (f_tracks s))
  else if contains line (str "MTrk") then
    do es <- parse_mtrk tables chunk;
    match f_mthd s with
    | None => Panic
    | Some h =>
        Ok (SMF (Some (MThd (h_tag h) (h_length h) (h_format h) ((h_tracks h + 1) mod 65536) (h_division h) (h_ppqn h) (h_smpte h)
                            (h_subframes h) (h_fps h) (h_drop h) (h_bytes h)))
                (f_tracks s ++ [assembled_mtrk (zlen (f_tracks s)) es]))
    end
  else Ok s.

(** text.go:35-61: the loop over the lines of a chunk; the chunk is parsed anew for every line that is not a comment and contains a tag. *)
Fixpoint assemble_chunk (tables : nat -> list (bytes * manufacturer)) (chunk : list bytes) (s : smf) (lines : list bytes) : outcome smf :=
  match lines with
  | [] => Ok s
  | line :: r => do s' <- assemble_line tables chunk s line; assemble_chunk tables chunk s' r
  end.

(** text.go:34-62; [tables j i]: map iteration for line [i] after the tag line of chunk [j] *)
Fixpoint assemble_chunks (tables : nat -> nat -> list (bytes * manufacturer)) (s : smf) (chunks : list (list bytes)) : outcome smf :=
  match chunks with
  | [] => Ok s
  | c :: r => do s' <- assemble_chunk (tables O) c s c; assemble_chunks (fun j => tables (S j)) s' r
  end.

(** text.go:25-73 [TextAssembler.Assemble] *)
Definition assemble_text (tables : nat -> nat -> list (bytes * manufacturer)) (text : bytes) : outcome bytes :=
  do chunks <- read_chunks text;
  do s <- assemble_chunks tables (SMF None []) chunks;
  encode s.

(** text.go:197-224: whether parseMTrk returns (or panics) on the last of the lines it has received; the error of line 209 comes after all of them. *)
Definition rejects (tables : nat -> list (bytes * manufacturer)) (got : list bytes) : bool :=
  match after_mtrk (removelast got) with
  | None => false
  | Some lines =>
      let line := last got [] in
      is_event_line line && match unmarshal_text (tables (length lines)) line with Ok _ => false | _ => true end
  end.
