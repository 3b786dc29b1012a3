(** * SpecExit: how a run ends. *)
From Verif Require Import Base Strings Tables Event Track File SpecText SpecCsv Flags Cli SpecCli SpecRun.

(** Commands that read a MIDI file *)
Definition readers : list bytes := map str ["disassemble"; "notes"; "click"; "export"; "transpose"; "tsv"; "humanise"]%string.

(** There is no output file, or it can be created. *)
Definition can_write (w : world) (out : bytes) : Prop := out = [] \/ w_creatable w out = true.

(** A file of format 1 without tracks *)
Definition hollow (s : smf) (h : mthd) : Prop := h_format h = 1 /\ f_tracks s = [].

(** A file without pulses per quarter note where a time has to be found: for a tempo in the first track or an event in a later one *)
Definition timeless (s : smf) (h : mthd) : Prop :=
  h_ppqn h = 0 /\ exists t0 ts, f_tracks s = t0 :: ts /\ ts <> [] /\
    ((exists e x, In e (t_events t0) /\ e_body e = Tempo x) \/ exists t e, In t ts /\ In e (t_events t)).

(** The files that click and notes crash on *)
Definition crashes (n : bytes) (s : smf) (h : mthd) : Prop :=
  (n = str "click" /\ f_tracks s = []) \/ (n = str "notes" /\ (f_tracks s = [] \/ timeless s h)).

(** What is refused: humanise, and tsv into a file with a delimiter that is none *)
Definition refused (n out delim : bytes) (tabular : bool) : Prop :=
  n = str "humanise" \/ (n = str "tsv" /\ out <> [] /\ tabular = false /\ exists x, delimiter delim x /\ ~ separator x).
