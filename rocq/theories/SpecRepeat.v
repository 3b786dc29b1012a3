(** * SpecRepeat: a tempo set again. *)
From Verif Require Import Base Tables Event Track File Notes SpecNotes SpecDivided SpecHistory.

(** The last tempo set *)
Fixpoint last_tempo (es : list event) : option Z :=
  match es with [] => None | e :: r => match last_tempo r with Some u => Some u | None => match e_body e with Tempo u => Some u | _ => None end end end.

(** One more event, which sets the tempo that is already set; those after it are at the ticks they were at *)
Definition tempo_repeated (es es' : list event) : Prop :=
  exists a x b b' u, es = a ++ b /\ es' = a ++ x :: b' /\ Forall2 same_moment b b' /\ e_body x = Tempo u /\ last_tempo a = Some u.

(** ... in the first track; there are no tempi in the others. *)
Definition repeated_file (s s' : smf) : Prop :=
  option_map h_ppqn (f_mthd s) = option_map h_ppqn (f_mthd s') /\
  exists t0 ts t0' ts', f_tracks s = t0 :: ts /\ f_tracks s' = t0' :: ts' /\ tempo_repeated (t_events t0) (t_events t0') /\ map t_events ts' = map t_events ts /\
    Forall (fun t => no_tempo (t_events t)) ts.

(** The ticks of the file fit in 32 bits. *)
Definition ticks_fit (s : smf) : Prop := Forall (fun t => total_delta (t_events t) < 4294967296) (f_tracks s).
