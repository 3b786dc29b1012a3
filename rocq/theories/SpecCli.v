(** * SpecCli: command lines and what a run may do to files. *)
From Verif Require Import Base Strings SpecDecimal Flags.

(** ** Command lines *)

(** Digits and letters as digits *)
Inductive alnum : Z -> Z -> Prop :=
| al_digit : forall v, 0 <= v <= 9 -> alnum (48 + v) v
| al_lower : forall v, 10 <= v <= 35 -> alnum (97 + (v - 10)) v
| al_upper : forall v, 10 <= v <= 35 -> alnum (65 + (v - 10)) v.

(** [numeral base n s]: [s] is [n] written in the base; an underscore may stand between two digits *)
Inductive numeral (base : Z) : Z -> bytes -> Prop :=
| num_one : forall c v, alnum c v -> v < base -> numeral base v [c]
| num_more : forall n s u c v, numeral base n s -> u = [] \/ u = str "_" -> alnum c v -> v < base -> numeral base (n * base + v) (s ++ u ++ [c]).

(** Integers as in Go source text: decimal, octal, hexadecimal, binary *)
Inductive natural_text : Z -> bytes -> Prop :=
| nt_zero : natural_text 0 (str "0")
| nt_dec : forall n s, numeral 10 n s -> hd 0 s <> 48 -> natural_text n s
| nt_prefix : forall base n s p u, In (base, p) [(8, str "0"); (16, str "0x"); (16, str "0X"); (8, str "0o"); (8, str "0O"); (2, str "0b"); (2, str "0B")] ->
    u = [] \/ u = str "_" -> numeral base n s -> natural_text n (p ++ u ++ s).
Inductive integer_text : Z -> bytes -> Prop :=
| it_plain : forall n s, natural_text n s -> n < 9223372036854775808 -> integer_text n s
| it_plus : forall n s, natural_text n s -> n < 9223372036854775808 -> integer_text n (str "+" ++ s)
| it_minus : forall n s, natural_text n s -> n <= 9223372036854775808 -> integer_text (- n) (str "-" ++ s).

(** The values a text can give to a flag *)
Inductive denotes : kind -> bytes -> value -> Prop :=
| de_true : forall s, In s [str "true"; str "True"; str "TRUE"; str "t"; str "T"; str "1"] -> denotes KBool s (VBool true)
| de_false : forall s, In s [str "false"; str "False"; str "FALSE"; str "f"; str "F"; str "0"] -> denotes KBool s (VBool false)
| de_string : forall s, denotes KString s (VString s)
| de_int : forall s n, integer_text n s -> denotes KInt s (VInt n).

Definition dashes (x : bytes) : Prop := x = str "-" \/ x = str "--".

(** An argument that is no option: it does not start with a dash, or is a dash. *)
Definition plain (a : bytes) : Prop := a = str "-" \/ hd 0 a <> 45.

(** [options formal args vs rest]: options in front, with these values; then [rest]. *)
Inductive options (formal : list (bytes * kind)) : list bytes -> list (bytes * value) -> list bytes -> Prop :=
| op_none : options formal [] [] []
| op_rest : forall a r, plain a -> options formal (a :: r) [] (a :: r)
| op_dashes : forall r, options formal (str "--" :: r) [] r
| op_switch : forall x n r vs rest, dashes x -> In (n, KBool) formal -> options formal r vs rest ->
    options formal ((x ++ n) :: r) ((n, VBool true) :: vs) rest
| op_equals : forall x n k s v r vs rest, dashes x -> In (n, k) formal -> denotes k s v -> options formal r vs rest ->
    options formal ((x ++ n ++ str "=" ++ s) :: r) ((n, v) :: vs) rest
| op_next : forall x n k s v r vs rest, dashes x -> In (n, k) formal -> k <> KBool -> denotes k s v -> options formal r vs rest ->
    options formal ((x ++ n) :: s :: r) ((n, v) :: vs) rest.

(** [misspelt formal args]: behind options there is one that does not exist (the name may be followed by a value); -h and -help ask for help. *)
Inductive misspelt (formal : list (bytes * kind)) : list bytes -> Prop :=
| ms_unknown : forall x n t r, dashes x -> n <> [] -> hd 0 n <> 45 -> ~ In 61 n -> t = [] \/ (exists s, t = str "=" ++ s) -> ~ In n (map fst formal) ->
    n <> str "h" -> n <> str "help" -> misspelt formal ((x ++ n ++ t) :: r)
| ms_switch : forall x n r, dashes x -> In (n, KBool) formal -> misspelt formal r -> misspelt formal ((x ++ n) :: r)
| ms_equals : forall x n k s v r, dashes x -> In (n, k) formal -> denotes k s v -> misspelt formal r -> misspelt formal ((x ++ n ++ str "=" ++ s) :: r)
| ms_next : forall x n k s v r, dashes x -> In (n, k) formal -> k <> KBool -> denotes k s v -> misspelt formal r -> misspelt formal ((x ++ n) :: s :: r).

(** The command line asks for help. *)
Definition asks_help (args : list bytes) : Prop := exists x n t, dashes x /\ (n = str "h" \/ n = str "help") /\ (t = [] \/ exists s, t = str "=" ++ s) /\ In (x ++ n ++ t) args.

(** The value given last counts. *)
Fixpoint lasting (n : bytes) (vs : list (bytes * value)) (v : option value) : option value :=
  match vs with [] => v | (m, x) :: r => lasting n r (if bytes_eqb n m then Some x else v) end.
Definition same_settings (vs vs' : list (bytes * value)) : Prop := forall n, lasting n vs None = lasting n vs' None.

Definition command_names : list bytes :=
  map str ["disassemble"; "assemble"; "notes"; "click"; "export"; "transpose"; "tsv"; "humanise"; "help"; "version"]%string.

(** The options of the commands (commands/*.go, [Flagset]; cmd/midiasm/main.go:93-95 for all). *)
Definition common : list (bytes * kind) := [(str "C4", KBool); (str "verbose", KBool); (str "debug", KBool)].
Definition documented : list (bytes * list (bytes * kind)) :=
  [(str "disassemble", common ++ [(str "out", KString); (str "split", KBool); (str "templates", KString)]);
   (str "assemble", common ++ [(str "out", KString)]);
   (str "notes", common ++ [(str "out", KString); (str "transpose", KInt); (str "json", KBool)]);
   (str "click", common ++ [(str "out", KString)]);
   (str "export", common ++ [(str "out", KString)]);
   (str "transpose", common ++ [(str "out", KString); (str "semitones", KInt)]);
   (str "tsv", common ++ [(str "out", KString); (str "delimiter", KString); (str "tabular", KBool)]);
   (str "humanise", common ++ [(str "out", KString)]);
   (str "help", common);
   (str "version", common)].

(** ** Files *)

(** The command line names [p] as the output. *)
Definition names_output (args : list bytes) (p : bytes) : Prop :=
  exists x, dashes x /\ (In (x ++ str "out=" ++ p) args \/ exists a b, args = a ++ (x ++ str "out") :: p :: b).

(** The command line asks for one file per track. *)
Definition asks_split (args : list bytes) : Prop := exists x y, dashes x /\ In (x ++ str "split" ++ y) args.

Definition ends_with (p s : bytes) : Prop := exists q, p = q ++ s.

(** The names of the files for the header and the tracks *)
Definition track_file (p : bytes) : Prop := ends_with p (str ".MThd") \/ ends_with p (str ".MTrk").

(** The command line asks for templates. *)
Definition asks_templates (args : list bytes) : Prop := exists x y, dashes x /\ In (x ++ str "templates" ++ y) args.

(** Files hold bytes. *)
Definition byte_files (d : Z -> option bytes) : Prop := forall i b, d i = Some b -> is_bytes b.

(** The names of the files for the tracks from number [i] on *)
Inductive split_names (pre : bytes) : Z -> list bytes -> Prop :=
| sn_none : forall i, split_names pre i []
| sn_track : forall i s r, decimal i s -> split_names pre (i + 1) r -> split_names pre i ((pre ++ str "-" ++ s ++ str ".MTrk") :: r).

(** Different names are different files. *)
Definition apart (file : bytes -> Z) : Prop := forall p q, file p = file q -> p = q.

(** File names: the directories on the way, from the root or the current directory, and a name. *)
Definition element (x : bytes) : Prop := x <> [] /\ ~ In 47 x /\ x <> str "." /\ x <> str "..".
Fixpoint slashed (xs : list bytes) : bytes :=
  match xs with [] => [] | [x] => x | x :: r => x ++ str "/" ++ slashed r end.
Definition path_name (rooted : bool) (xs : list bytes) : bytes := (if rooted then str "/" else []) ++ slashed xs.

(** Where the elements of a path lead: nothing and "." stay in the directory, ".." leads to the one above, which above the root is the root. *)
Inductive leads (rooted : bool) : list bytes -> list bytes -> Prop :=
| ld_start : leads rooted [] []
| ld_into : forall xs ys x, leads rooted xs ys -> element x -> leads rooted (xs ++ [x]) (ys ++ [x])
| ld_stay : forall xs ys x, leads rooted xs ys -> x = [] \/ x = str "." -> leads rooted (xs ++ [x]) ys
| ld_up : forall xs ys y, leads rooted xs (ys ++ [y]) -> element y -> leads rooted (xs ++ [str ".."]) ys
| ld_root : forall xs, leads rooted xs [] -> rooted = true -> leads rooted (xs ++ [str ".."]) []
| ld_above : forall xs ys, leads rooted xs ys -> rooted = false -> Forall (eq (str "..")) ys -> leads rooted (xs ++ [str ".."]) (ys ++ [str ".."]).
