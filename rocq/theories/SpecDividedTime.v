(** * SpecDividedTime: tracks whose times are right (C40), and the notes of divided ones. *)
From Verif Require Import Base Tables Event Track File Notes SpecNotes SpecDivided.

(** The conditions of C40: ticks are sums of delta times, the tempo is set at tick 0 and by the first track only, it changes only where the track has an event, and the times are below 2^63. *)
Definition well_timed (track0 track : list event) : Prop :=
  ticks_from 0 track /\ no_tempo track /\ ascending 0 (map fst (tempo_list track0)) /\ Forall (fun x => 0 <= snd x) (tempo_list track0) /\
  (exists t, In (0, t) (tempo_list track0)) /\ aligned (tempo_list track0) track /\
  (forall e, In e track -> ideal_time (tempo_list track0) (Z.to_nat (e_tick e)) < 9000000000000000000).

(** The same note, its times at most [d] nanoseconds off *)
Definition note_within (d : Z) (o o' : note_out) : Prop := untimed o' = untimed o /\ Z.abs (o_start o' - o_start o) <= d /\ Z.abs (o_end o' - o_end o) <= d.
