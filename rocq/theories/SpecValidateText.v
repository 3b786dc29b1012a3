(** * SpecValidateText: what is wrong with a file, where, and the report that says so. *)
From Coq Require Import Sorted.
From Verif Require Import Base Strings Tables Event Track File SpecDecimal SpecTable SpecValidate.

(** The two halves of a bank select, and what is wrong with one. *)
Inductive half := Msb | Lsb.
Inductive trouble := Alone | Apart.

(** Tracks are counted from 0, places from 1. *)
Inductive fact :=
| Count (n : nat)                                   (* a format 0 file with [n] tracks *)
| Stray (track : nat) (kind : bytes)                (* an event of a kind that does not belong into the track *)
| EarlyEnd (track place : nat)                      (* an EndOfTrack before the end *)
| NoEnd (track : nat)                               (* no EndOfTrack *)
| Bank (track place : nat) (h : half) (t : trouble). (* half a bank select without or on another channel than the other half *)

(** The kinds as the reports name them. *)
Definition kind_title (b : body) : bytes :=
  match b with
  | SysExContinuation _ _ | SysExEscape _ => kind_name b ++ str "Message"
  | _ => kind_name b
  end.

(** [found h tracks (i, f)]: [f] is the case, because of event [i] (counted from 0). *)
Definition found (h : mthd) (tracks : list mtrk) (x : nat * fact) : Prop :=
  let (i, f) := x in
  match f with
  | Count n => i = O /\ h_format h = 0 /\ n = length tracks /\ n <> 1%nat
  | Stray k kind => h_format h = 1 /\ exists t b, nth_error tracks k = Some t /\ at_event t i b /\ kind = kind_title b /\
      (k = O /\ ~ tempo_map_event b \/ k <> O /\ tempo_only_event b)
  | EarlyEnd k p => p = S i /\ exists t, nth_error tracks k = Some t /\ at_event t i EndOfTrack /\ (p < length (t_events t))%nat
  | NoEnd k => exists t, nth_error tracks k = Some t /\ i = length (t_events t) /\ forall j, ~ at_event t j EndOfTrack
  | Bank k p Msb Alone => p = S i /\ exists t c, nth_error tracks k = Some t /\ bank_msb t i c /\ (p < length (t_events t))%nat /\ forall c', ~ bank_lsb t (S i) c'
  | Bank k p Lsb Alone => p = S i /\ exists t c, nth_error tracks k = Some t /\ bank_lsb t i c /\ forall j c', i = S j -> ~ bank_msb t j c'
  | Bank k p Msb Apart => p = S i /\ exists t c c', nth_error tracks k = Some t /\ bank_msb t i c /\ bank_lsb t (S i) c' /\ c <> c'
  | Bank k p Lsb Apart => p = S i /\ exists t c c' j, i = S j /\ nth_error tracks k = Some t /\ bank_msb t j c /\ bank_lsb t i c' /\ c <> c'
  end.

(** The order of the report: what concerns the format, then the ends of tracks, then bank selects; by track, by event. *)
Definition section (f : fact) : nat := match f with Count _ | Stray _ _ => 0 | EarlyEnd _ _ | NoEnd _ => 1 | Bank _ _ _ _ => 2 end.
Definition track_in (f : fact) : nat := match f with Count _ => 0 | Stray k _ | EarlyEnd k _ | NoEnd k | Bank k _ _ _ => k end.
Definition before (x y : nat * fact) : Prop :=
  (section (snd x) < section (snd y) \/ section (snd x) = section (snd y) /\
    (track_in (snd x) < track_in (snd y) \/ track_in (snd x) = track_in (snd y) /\ fst x < fst y))%nat.

(** The line for a fact. *)
Definition half_name (h : half) : bytes := match h with Msb => str "MSB" | Lsb => str "LSB" end.
Definition other (h : half) : half := match h with Msb => Lsb | Lsb => Msb end.
Definition letter (c : Z) : Prop := 65 <= c <= 90 \/ 97 <= c <= 122.
Definition fact_line (f : fact) (line : bytes) : Prop :=
  match f with
  | Count n => exists d, decimal (Z.of_nat n) d /\ line = str "File contains " ++ d ++ str " tracks (expected 1 track for FORMAT 0)"
  | Stray k kind => exists d, decimal (Z.of_nat k) d /\ Forall letter kind /\ line = str "Track " ++ d ++ str ": unexpected event (" ++ kind ++ str ")"
  | EarlyEnd k p => exists d e, decimal (Z.of_nat k) d /\ decimal (Z.of_nat p) e /\
      line = str "Track " ++ d ++ str ": EndOfTrack @" ++ e ++ str " (EndOfTrack) is not last event"
  | NoEnd k => exists d, decimal (Z.of_nat k) d /\ line = str "Track " ++ d ++ str ": missing EndOfTrack event"
  | Bank k p h t => exists d e, decimal (Z.of_nat k) d /\ decimal (Z.of_nat p) e /\
      line = str "Track " ++ d ++ str ": 'Bank Select " ++ half_name h ++ str "' event @" ++ e ++
        (match t with Alone => str " missing " ++ half_name (other h) | Apart => str " " ++ half_name (other h) ++ str " on another channel" end) ++ str " (Controller)"
  end.

(** The report: nothing, or a headline and the lines, set off by blank lines. *)
Definition fact_report (fs : list fact) (text : bytes) : Prop :=
  exists lines, Forall2 fact_line fs lines /\
    (fs = [] /\ text = [] \/
     fs <> [] /\ text = [10] ++ str "WARNING: there are validation errors:" ++ [10] ++ flat_map (fun l => str "         ** " ++ l ++ [10]) lines ++ [10]).

(** The report is the one for the file. *)
Definition reports_file (h : mthd) (tracks : list mtrk) (text : bytes) : Prop :=
  exists xs, (forall x, In x xs <-> found h tracks x) /\ StronglySorted before xs /\ fact_report (map snd xs) text.
