(** * Log: log/log.go and the level that cmd/midiasm/main.go sets. *)
From Verif Require Import Base Strings Utf8 Tsv.

(** log/log.go:8-15 (None is not used) and 25-29 [Level.String] *)
Inductive level := Fatal | Error | Warn | Info | Debug.
Definition level_number (l : level) : Z := match l with Fatal => 1 | Error => 2 | Warn => 3 | Info => 4 | Debug => 5 end.
Definition level_name (l : level) : bytes :=
  match l with Fatal => str "FATAL" | Error => str "ERROR" | Warn => str "WARN" | Info => str "INFO" | Debug => str "DEBUG" end.

(** log/log.go:17-23, 35-37: the level unless it is set; cmd/midiasm/main.go:67-72: --debug and --verbose set it. *)
Definition log_setting (debug verbose : bool) : level := if debug then Debug else if verbose then Info else Warn.

(** log/log.go:22, 31-33 and 59-63 [log]: "%-5v  %-9s  %s" and a line feed (Logger.Printf of the Go library, without flags), to stderr *)
Definition log_line (l : level) (operation message : bytes) : bytes :=
  left_justify 5 (level_name l) ++ str "  " ++ left_justify 9 operation ++ str "  " ++ message ++ [10].
Definition logged (setting l : level) : bool := level_number l <=? level_number setting.
