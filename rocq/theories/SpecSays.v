(** * SpecSays: what the program reports for each message it accepts, standard or not. *)
From Verif Require Import Base Tables Event SpecVlq SpecEvent SpecPacket SpecFile.

(** The manufacturer ID that is reported for [id]: that of the first entry filed under its key, otherwise
    [id] itself. *)
Inductive filed (table : list (bytes * manufacturer)) (id : bytes) : bytes -> Prop :=
| fd_known : forall pre m post, table = pre ++ (id_key id, m) :: post -> ~ In (id_key id) (map fst pre) ->
    filed table id (m_id m)
| fd_unknown : ~ In (id_key id) (map fst table) -> filed table id id.

(** [says table open k c]: the message [k] is reported as [c]; [open]: a system exclusive message is
    unfinished. *)
Inductive says (table : list (bytes * manufacturer)) : bool -> packet -> content -> Prop :=
| sy_off : forall op ch n v, 0 <= ch < 16 -> v < 128 -> says table op (PChan (128 + ch) [n; v]) (CNoteOff ch n v)
| sy_on : forall op ch n v, 0 <= ch < 16 -> v < 128 -> says table op (PChan (144 + ch) [n; v]) (CNoteOn ch n v)
| sy_poly : forall op ch p, 0 <= ch < 16 -> p < 128 -> says table op (PChan (160 + ch) [p]) (CPoly ch p)
| sy_control : forall op ch id v, 0 <= ch < 16 -> says table op (PChan (176 + ch) [id; v]) (CControl ch id v)
| sy_program : forall op ch p, 0 <= ch < 16 -> says table op (PChan (192 + ch) [p]) (CProgram ch p)
| sy_pressure : forall op ch p, 0 <= ch < 16 -> p < 128 -> says table op (PChan (208 + ch) [p]) (CChanPressure ch p)
  (* The first data byte counts with all eight bits, the second with seven. *)
| sy_bend : forall op ch a b, 0 <= ch < 16 -> says table op (PChan (224 + ch) [a; b]) (CBend ch (a * 128 + b mod 128))
  (* Meta events: the top bit of the type byte is ignored. *)
| sy_seqno : forall op ty a b, ty mod 128 = 0 -> says table op (PMeta ty [a; b]) (CSeqNo (a * 256 + b))
| sy_text : forall op ty k s, ty mod 128 = smf_text_type k -> says table op (PMeta ty s) (CText k s)
| sy_prefix : forall op ty ch, ty mod 128 = 32 -> ch < 16 -> says table op (PMeta ty [ch]) (CChannelPrefix ch)
| sy_port : forall op ty p, ty mod 128 = 33 -> p < 128 -> says table op (PMeta ty [p]) (CPort p)
  (* Any data is ignored. *)
| sy_eot : forall op ty data, ty mod 128 = 47 -> says table op (PMeta ty data) CEndOfTrack
| sy_tempo : forall op ty a b c, ty mod 128 = 81 -> says table op (PMeta ty [a; b; c]) (CTempo (a * 65536 + b * 256 + c))
  (* The top bit of the first byte is ignored. *)
| sy_smpte : forall op ty x rr rate h m s f ff, ty mod 128 = 84 -> smpte_code rr rate -> x = 0 \/ x = 1 ->
    0 <= h <= 24 -> m < 60 -> s < 60 -> f < rate -> ff <= 100 ->
    says table op (PMeta ty [x * 128 + rr * 32 + h; m; s; f; ff]) (CSMPTE h m s rate f ff)
  (* The denominator is computed in eight bits: 0 for exponents above 7. *)
| sy_timesig : forall op ty n d t q, ty mod 128 = 88 -> says table op (PMeta ty [n; d; t; q]) (CTimeSig n (2 ^ d mod 256) t q)
| sy_keysig : forall op ty acc kt, ty mod 128 = 89 -> -7 <= acc <= 7 -> kt = 0 \/ kt = 1 ->
    says table op (PMeta ty [acc mod 256; kt]) (CKeySig acc kt)
| sy_seqspec : forall op ty id id' d, ty mod 128 = 127 -> wire_id id -> filed table id id' ->
    says table op (PMeta ty (id ++ d)) (CSeqSpec (id' ++ d))
| sy_sysex_single : forall id id' d, filed table [id] id' ->
    says table false (PSys 240 (id :: d ++ [247])) (CSysEx (id' ++ d) true)
| sy_sysex_first : forall id id' d x, filed table [id] id' -> x <> 247 ->
    says table false (PSys 240 (id :: d ++ [x])) (CSysEx (id' ++ d ++ [x]) false)
| sy_cont_last : forall d, says table true (PSys 247 (d ++ [247])) (CSysExCont d false)
| sy_cont : forall d, last d 0 <> 247 -> says table true (PSys 247 d) (CSysExCont d false)
| sy_escape : forall d, says table false (PSys 247 d) (CEscape d).

(** Running status after a message, and whether a system exclusive message is unfinished then. *)
Definition status_after (k : packet) : Z := match k with PChan st _ => st | _ => 0 end.
Definition open_after (op : bool) (k : packet) : bool :=
  match k with
  | PSys st data => ((st =? 240) || op) && negb (last data 0 =? 247)
  | _ => op
  end.

(** [tells table rs op evs p rs' op']: the bytes [p] are complete messages which are reported as [evs]; they
    lead from running status [rs] and [op] to [rs'] and [op']. *)
Inductive tells (table : list (bytes * manufacturer)) : Z -> bool -> list (Z * content) -> bytes -> Z -> bool -> Prop :=
| te_nil : forall rs op, tells table rs op [] [] rs op
| te_cons : forall rs op p delta k c evs q rs' op', shape rs p delta k -> says table op k c ->
    tells table (status_after k) (open_after op k) evs q rs' op' ->
    tells table rs op ((delta, c) :: evs) (p ++ q) rs' op'.

(** [q] is the beginning of a message, or nothing: it does not begin with a complete message, nor with a
    data byte that lacks a status. *)
Definition unfinished (rs : Z) (q : bytes) : Prop :=
  (forall p delta k x, shape rs p delta k -> q <> p ++ x) /\
  (rs = 0 -> forall d delta b x, reads d delta -> q = d ++ b :: x -> 128 <= b).

(** The track body [r] is reported as [evs]. *)
Definition track_tells (table : list (bytes * manufacturer)) (r : bytes) (evs : list (Z * content)) : Prop :=
  exists p q rs op, r = p ++ q /\ tells table 0 false evs p rs op /\ unfinished rs q.

(** The file [r] is reported as a header and tracks: the chunk size announced by each chunk is that of its
    data, the first chunk is a header, and the MTrk chunks after it are as many as it says. *)
Definition file_tells (table : list (bytes * manufacturer)) (r : bytes) (hf : header_fields)
  (tracks : list (list (Z * content))) : Prop :=
  exists tag0 payload0 w0 items, readable ((tag0, payload0) :: items) r /\ chunk_bytes tag0 payload0 w0 /\
    header_bytes w0 hf /\ zlen (filter is_mtrk items) = hf_tracks hf /\
    Forall2 (fun it evs => track_tells table (snd it) evs) (filter is_mtrk items) tracks.
