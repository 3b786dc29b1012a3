(** * SpecStderr: the warnings of a run. *)
From Verif Require Import Base Strings Tables Event Track File SpecTranspose SpecNotes SpecHistory Notes SpecNotesLog.

(** The log for one track: lines about precision, then the complaints about the note events of the track (unless the 32-bit ticks wrap). *)
Definition track_warnings (s : smf) (t : mtrk) (x : bytes * bytes) : Prop :=
  exists es lines, complaints es (snd x) /\
    fst x = concat lines /\ Forall (fun line => exists e, In e (concat (map t_events (f_tracks s))) /\ loss_line (e_tick e) line) lines /\
    (total_delta (t_events t) < 4294967296 -> (forall t0, nth_error (f_tracks s) 0 = Some t0 -> total_delta (t_events t0) < 4294967296) ->
     map (fun e => (ne_tick e, ne_body e)) es = own_notes (t_events t)).

(** The commands that read a MIDI file and log nothing. *)
Definition plain_commands : list bytes := map str ["disassemble"; "click"; "export"; "transpose"; "tsv"; "humanise"]%string.
