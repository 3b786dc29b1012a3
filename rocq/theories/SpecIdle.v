(** * SpecIdle: lines of assembly text that say nothing. *)
From Verif Require Import Base SpecAssemble SpecSource.

(** White space or a comment that mentions no tag *)
Definition idle (l : bytes) : Prop := blank_line l \/ comment_line l /\ ~ tag_line l.

(** [told ls s]: [s] are the lines of [ls] that are not idle. *)
Inductive told : list bytes -> list bytes -> Prop :=
| td_nil : told [] []
| td_idle : forall l ls s, idle l -> told ls s -> told (l :: ls) s
| td_line : forall l ls s, ~ idle l -> told ls s -> told (l :: ls) (l :: s).

(** The texts have the same lines but for idle ones, whether lines end with a line feed or with carriage return and line feed. *)
Definition same_source (a b : bytes) : Prop :=
  ~ long_line a /\ ~ long_line b /\ exists la lb s, lines_of a la /\ lines_of b lb /\ told la s /\ told lb s.
