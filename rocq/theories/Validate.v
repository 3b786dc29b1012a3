(** * Validate: midi/smf.go *)
From Verif Require Import Base Strings Tables Vlq Event Parse Track File.

(** The errors reported by midi/smf.go, one constructor per message format (the text of
    the messages is in ValidateText.v; [events.Clean] is represented by the event). *)
Inductive verror :=
| VTrackCount (n : Z)                       (* 83 *)
| VTrack0Unexpected (e : event)             (* 96 *)
| VTrackUnexpected (track : Z) (e : event)  (* 104 *)
| VEotNotLast (track i : Z) (e : event)     (* 34 *)
| VEotMissing (track : Z)                   (* 40 *)
| VMsbMissingLsb (track i : Z)              (* 60 *)
| VLsbMissingMsb (track i : Z)              (* 64 *)
| VMsbOtherChannel (track i : Z)            (* 68 *)
| VLsbOtherChannel (track i : Z).           (* 69 *)

(** midi/events/event.go:80-94 [IsTrack0Event] *)
Definition is_track0_event (e : event) : bool :=
  match e_body e with
  | Tempo _ | TimeSignature _ _ _ _ | TextEvent KTrackName _ | SMPTEOffset _ _ _ _ _ _
  | TextEvent KCopyright _ | EndOfTrack => true
  | _ => false
  end.

(** midi/events/event.go:96-106 [IsTrack1Event] *)
Definition is_track1_event (e : event) : bool :=
  match e_body e with
  | Tempo _ | SMPTEOffset _ _ _ _ _ _ => false
  | _ => true
  end.

(** midi/events/event.go:71-78 [Is] at type EndOfTrack *)
Definition is_eot (e : event) : bool := match e_body e with EndOfTrack => true | _ => false end.

(** midi/smf.go:79-87 [validateFormat0] *)
Definition validate_format0 (s : smf) : list verror :=
  if zlen (f_tracks s) =? 1 then [] else [VTrackCount (zlen (f_tracks s))].

(** midi/smf.go:89-110 [validateFormat1]; smf.Tracks[1:] panics when there are no tracks. *)
Definition validate_format1 (s : smf) : outcome (list verror) :=
  match f_tracks s with
  | [] => Panic
  | t0 :: ts =>
      Ok (map VTrack0Unexpected (filter (fun e => negb (is_track0_event e)) (t_events t0))
          ++ concat (map (fun t => map (VTrackUnexpected (t_number t))
                                     (filter (fun e => negb (is_track1_event e)) (t_events t))) ts))
  end.

(** midi/smf.go:30-37: scan one track for EndOfTrack; [n] = len(track.Events). Returns the errors
    and whether one was found. *)
Fixpoint eot_scan (track n i : Z) (es : list event) : list verror * bool :=
  match es with
  | [] => ([], false)
  | e :: es' =>
      let (errs, found) := eot_scan track n (i + 1) es' in
      if is_eot e then
        ((if i + 1 =? n then [] else [VEotNotLast track (i + 1) e]) ++ errs, true)
      else (errs, found)
  end.

(** midi/smf.go:28-42 *)
Definition validate_eot (t : mtrk) : list verror :=
  let (errs, found) := eot_scan (t_number t) (zlen (t_events t)) 0 (t_events t) in
  errs ++ (if found then [] else [VEotMissing (t_number t)]).

(** midi/smf.go:51-57: channel and controller ID, if the event is a Controller. *)
Definition as_controller (b : body) : option (Z * Z) :=
  match b with Controller ch c _ => Some (ch, c_id c) | _ => None end.

(** midi/smf.go:59-70: the three tests on the previous event c0 and this one c1. *)
Definition bank_check (track i : Z) (c0 c1 : option (Z * Z)) : list verror :=
  (match c0 with
   | Some (_, 0) =>
       match c1 with Some (_, 32) => [] | _ => [VMsbMissingLsb track i] end
   | _ => []
   end)
  ++ (match c1 with
      | Some (_, 32) =>
          match c0 with Some (_, 0) => [] | _ => [VLsbMissingMsb track (i + 1)] end
      | _ => []
      end)
  ++ (match c0, c1 with
      | Some (ch0, 0), Some (ch1, 32) =>
          if negb (ch0 =? ch1) then [VMsbOtherChannel track i; VLsbOtherChannel track (i + 1)] else []
      | _, _ => []
      end).

(** midi/smf.go:46-73; [last] is the previous event's controller. *)
Fixpoint bank_scan (track i : Z) (last : option (Z * Z)) (es : list event) : list verror :=
  match es with
  | [] => []
  | e :: es' =>
      let c := as_controller (e_body e) in
      bank_check track i last c ++ bank_scan track (i + 1) c es'
  end.

(** midi/smf.go:16-77 [Validate]; a nil MThd panics. *)
Definition validate (s : smf) : outcome (list verror) :=
  match f_mthd s with
  | None => Panic
  | Some h =>
      let e0 := if h_format h =? 0 then validate_format0 s else [] in
      do e1 <- (if h_format h =? 1 then validate_format1 s else Ok []);
      Ok (e0 ++ e1 ++ concat (map validate_eot (f_tracks s))
          ++ concat (map (fun t => bank_scan (t_number t) 0 None (t_events t)) (f_tracks s)))
  end.
