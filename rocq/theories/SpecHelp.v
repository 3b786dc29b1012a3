(** * SpecHelp: what a help text says, line by line. *)
From Verif Require Import Base Strings SpecCli SpecRun.

(** A line of a text *)
Definition is_line (text l : bytes) : Prop := ~ In 10 l /\ exists a b, text = a ++ l ++ [10] ++ b /\ (a = [] \/ exists a', a = a' ++ [10]).

(** A line starts with an option: six blanks, two dashes, the name. *)
Definition explains (text n : bytes) : Prop := exists r, is_line text (str "      --" ++ n ++ r) /\ ~ In 32 n /\ (r = [] \/ hd 0 r = 32).

(** A text in words: what is between single blanks *)
Inductive in_words : bytes -> list bytes -> Prop :=
| iw_last : forall w, ~ In 32 w -> in_words w [w]
| iw_more : forall w r ws, ~ In 32 w -> in_words r ws -> in_words (w ++ [32] ++ r) (w :: ws).

(** The words behind midiasm ask for something to be done with a file. *)
Definition usable (ws : list bytes) : Prop :=
  exists n args vs file, asked n args vs file /\ file <> [] /\ (ws = n :: args \/ (ws = args /\ n = str "disassemble" /\ ~ In (hd [] ws) command_names)).
