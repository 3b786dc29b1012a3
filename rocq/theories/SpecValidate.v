(** * SpecValidate: the rules a valid file obeys, as statements about positions, and their violations. *)
From Verif Require Import Base Strings Tables Event Track File Validate.

(** Event [i] of a track (counted from 0). *)
Definition at_event (t : mtrk) (i : nat) (b : body) : Prop :=
  exists e, nth_error (t_events t) i = Some e /\ e_body e = b.

(** The events allowed in the tempo map of a format 1 file. *)
Definition tempo_map_event (b : body) : Prop :=
  (exists v, b = Tempo v) \/ (exists n d k q, b = TimeSignature n d k q) \/
  (exists s, b = TextEvent KTrackName s) \/ (exists s, b = TextEvent KCopyright s) \/
  (exists h m s r f ff, b = SMPTEOffset h m s r f ff) \/ b = EndOfTrack.

(** The events not allowed in the other tracks. *)
Definition tempo_only_event (b : body) : Prop :=
  (exists v, b = Tempo v) \/ (exists h m s r f ff, b = SMPTEOffset h m s r f ff).

(** Event [i] is a Bank Select MSB (controller 0) or LSB (controller 32) on channel [ch]. *)
Definition bank_msb (t : mtrk) (i : nat) (ch : Z) : Prop := exists c v, at_event t i (Controller ch c v) /\ c_id c = 0.
Definition bank_lsb (t : mtrk) (i : nat) (ch : Z) : Prop := exists c v, at_event t i (Controller ch c v) /\ c_id c = 32.

(** The last event is the only EndOfTrack. *)
Definition ends_properly (t : mtrk) : Prop :=
  exists n, length (t_events t) = S n /\ forall i, at_event t i EndOfTrack <-> i = n.

(** Bank select messages come in adjacent pairs. *)
Definition banks_paired (t : mtrk) : Prop :=
  (forall i ch, bank_msb t i ch -> bank_lsb t (S i) ch) /\
  (forall i ch, bank_lsb t i ch -> exists j, i = S j /\ bank_msb t j ch).

Definition valid_file (s : smf) : Prop :=
  exists h, f_mthd s = Some h /\
    (h_format h = 0 -> length (f_tracks s) = 1%nat) /\
    (h_format h = 1 -> exists t0 ts, f_tracks s = t0 :: ts /\
       (forall i b, at_event t0 i b -> tempo_map_event b) /\
       (forall t i b, In t ts -> at_event t i b -> ~ tempo_only_event b)) /\
    (forall t, In t (f_tracks s) -> ends_properly t /\ banks_paired t).

(** The reports, each with the condition under which it is due (positions counted from 1). *)
Inductive due (h : mthd) (tracks : list mtrk) : verror -> Prop :=
| due_count : h_format h = 0 -> length tracks <> 1%nat -> due h tracks (VTrackCount (zlen tracks))
| due_track0 : forall t e, h_format h = 1 -> nth_error tracks 0 = Some t -> In e (t_events t) ->
    ~ tempo_map_event (e_body e) -> due h tracks (VTrack0Unexpected e)
| due_track1 : forall k t e, h_format h = 1 -> nth_error tracks (S k) = Some t -> In e (t_events t) ->
    tempo_only_event (e_body e) -> due h tracks (VTrackUnexpected (t_number t) e)
| due_not_last : forall t i e, In t tracks -> nth_error (t_events t) i = Some e -> e_body e = EndOfTrack ->
    (S i < length (t_events t))%nat -> due h tracks (VEotNotLast (t_number t) (Z.of_nat i + 1) e)
| due_missing : forall t, In t tracks -> (forall i, ~ at_event t i EndOfTrack) -> due h tracks (VEotMissing (t_number t))
| due_msb : forall t i ch, In t tracks -> bank_msb t i ch -> (S i < length (t_events t))%nat ->
    (forall ch', ~ bank_lsb t (S i) ch') -> due h tracks (VMsbMissingLsb (t_number t) (Z.of_nat i + 1))
| due_lsb : forall t i ch, In t tracks -> bank_lsb t i ch ->
    (forall j ch', i = S j -> ~ bank_msb t j ch') -> due h tracks (VLsbMissingMsb (t_number t) (Z.of_nat i + 1))
| due_msb_channel : forall t i ch ch', In t tracks -> bank_msb t i ch -> bank_lsb t (S i) ch' -> ch <> ch' ->
    due h tracks (VMsbOtherChannel (t_number t) (Z.of_nat i + 1))
| due_lsb_channel : forall t i ch ch', In t tracks -> bank_msb t i ch -> bank_lsb t (S i) ch' -> ch <> ch' ->
    due h tracks (VLsbOtherChannel (t_number t) (Z.of_nat i + 2)).
