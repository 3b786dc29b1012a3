(** * SpecMuted: some channels taken out of a file. *)
From Verif Require Import Base Tables Event Track File Notes SpecDivided.

(** What is left if the notes of other channels than the chosen ones are taken out, maybe with other messages that make no sound.
    Tempo and key changes and the end of the track stay. *)
Inductive muted (chosen : Z -> bool) : list event -> list event -> Prop :=
| mu_nil : muted chosen [] []
| mu_keep : forall e e' l l', same_moment e e' -> partial_event chosen (e_body e) \/ common_event (e_body e) -> muted chosen l l' -> muted chosen (e :: l) (e' :: l')
| mu_drop : forall e l l', partial_event (fun c => negb (chosen c)) (e_body e) -> muted chosen l l' -> muted chosen (e :: l) l'.

(** The same resolution and tempi; the channels are taken out of all tracks. *)
Definition muted_file (chosen : Z -> bool) (s s' : smf) : Prop :=
  option_map h_ppqn (f_mthd s) = option_map h_ppqn (f_mthd s') /\
  exists t0 ts t0' ts', f_tracks s = t0 :: ts /\ f_tracks s' = t0' :: ts' /\ t_events t0' = t_events t0 /\ Forall2 (fun t t' => muted chosen (t_events t) (t_events t')) ts ts'.

(** The notes on the chosen channels *)
Definition heard (chosen : Z -> bool) (ns : list note_out) : list note_out := filter (fun o => chosen (o_ch o)) ns.
