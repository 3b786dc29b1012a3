(** * SpecSameReports: reports of the validation without the events they quote. *)
From Verif Require Import Base Tables Event SpecEvent Track File Validate.

(** What is reported, and where: the track and the position in it. *)
Inductive reported :=
| RTrackCount (n : Z)
| RTrack0Unexpected
| RTrackUnexpected (track : Z)
| REotNotLast (track i : Z)
| REotMissing (track : Z)
| RMsbMissingLsb (track i : Z)
| RLsbMissingMsb (track i : Z)
| RMsbOtherChannel (track i : Z)
| RLsbOtherChannel (track i : Z).
Definition report (v : verror) : reported :=
  match v with
  | VTrackCount n => RTrackCount n
  | VTrack0Unexpected _ => RTrack0Unexpected
  | VTrackUnexpected t _ => RTrackUnexpected t
  | VEotNotLast t i _ => REotNotLast t i
  | VEotMissing t => REotMissing t
  | VMsbMissingLsb t i => RMsbMissingLsb t i
  | VLsbMissingMsb t i => RLsbMissingMsb t i
  | VMsbOtherChannel t i => RMsbOtherChannel t i
  | VLsbOtherChannel t i => RLsbOtherChannel t i
  end.

(** The content of an event without the pitch of a note and the accidentals of a key. *)
Definition unpitched (c : content) : content :=
  match c with
  | CNoteOn ch _ v => CNoteOn ch 0 v
  | CNoteOff ch _ v => CNoteOff ch 0 v
  | CKeySig _ kt => CKeySig 0 kt
  | c => c
  end.
