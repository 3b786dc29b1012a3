(** * Template: text/template (Go standard library) as ops/disassemble/disassemble.go uses it, from the text of a template on.

    Modelled: the lexer (text/template/parse/lex.go), the parser (parse.go), the set of associated templates (text/template/template.go) and the
    execution (exec.go, funcs.go), for these parts of the language: text, trim markers, [define], [template], [if]/[else if]/[else], [range],
    pipelines, parentheses, dot, fields, numbers of up to six digits, quoted strings without escapes, [true], [false], the functions [pad],
    [ellipsize], [valign] (disassemble.go:74-119), [eq], [ne], [not] and [len].

    Simplification: a text that uses anything else (comments, variables, [with], [block], other functions ...) and a text that Go rejects are
    not told apart; [parse_template] is [None] for both.  Execution says [Unknown] where it would need something that is not modelled
    (printing structs and lists, methods of the structs that no template of the program uses). *)
From Verif Require Import Base Strings Tables Event Track File Utf8 Hex Disassemble Csv Reference.

(** ** Lexer *)

(** parse/lex.go: the items; keywords are identifiers here, several spaces are several items. *)
Inductive token :=
| TText (s : bytes) | TLeft | TRight | TSpace | TDot | TField (name : bytes) | TName (name : bytes)
| TNumber (n : Z) | TString (s : bytes) | TPipe | TOpen | TClose.

(** parse/lex.go [isSpace] and [spaceChars] *)
Definition blank (c : Z) : bool := (c =? 32) || (c =? 9) || (c =? 13) || (c =? 10).
Fixpoint skip_blanks (s : bytes) : bytes := match s with c :: r => if blank c then skip_blanks r else s | [] => [] end.

(** parse/lex.go [rightTrimLength]: the text without the blanks at its end *)
Definition drop_blanks (s : bytes) : bytes := rev (skip_blanks (rev s)).

(** parse/lex.go [lexText]: strings.Index of the left delimiter *)
Fixpoint find_left (s : bytes) : option (bytes * bytes) :=
  match s with
  | [] => None
  | c :: r =>
      if has_prefix [123; 123] s then Some ([], tl r)
      else match find_left r with Some (a, b) => Some (c :: a, b) | None => None end
  end.

(** parse/lex.go [isAlphaNumeric], ASCII only *)
Definition alnum (c : Z) : bool :=
  (c =? 95) || ((48 <=? c) && (c <=? 57)) || ((65 <=? c) && (c <=? 90)) || ((97 <=? c) && (c <=? 122)).
Definition digit (c : Z) : bool := (48 <=? c) && (c <=? 57).
Fixpoint span (p : Z -> bool) (s : bytes) : bytes * bytes :=
  match s with
  | c :: r => if p c then let (a, b) := span p r in (c :: a, b) else ([], s)
  | [] => ([], [])
  end.

(** parse/lex.go [atTerminator] *)
Definition terminates (s : bytes) : bool :=
  match s with
  | [] => true
  | c :: _ => blank c || (c =? 46) || (c =? 44) || (c =? 124) || (c =? 58) || (c =? 41) || (c =? 40) || has_prefix [125; 125] s
  end.

(** parse/lex.go [lexQuote] and strconv.Unquote: up to the next quote; no escapes, no line feeds, ASCII only *)
Fixpoint quoted (s : bytes) : option (bytes * bytes) :=
  match s with
  | [] => None
  | c :: r =>
      if c =? 34 then Some ([], r)
      else if (c =? 92) || (c =? 10) || (128 <=? c) then None
      else match quoted r with Some (a, b) => Some (c :: a, b) | None => None end
  end.

(** strconv.ParseInt of up to six digits without a leading zero (which would make it octal) *)
Definition literal_number (ds : bytes) : option Z :=
  match ds with
  | [] => None
  | d :: r =>
      if (d =? 48) && negb (bytes_eqb r []) then None
      else if 6 <? zlen ds then None
      else Some (fold_left (fun n c => 10 * n + (c - 48)) ds 0)
  end.

(** parse/lex.go [lexText], [lexLeftDelim], [lexInsideAction], [lexSpace], [lexRightDelim], [lexField], [lexIdentifier], [lexNumber].  [fuel]: every
    step takes a byte or more. *)
Fixpoint lex (fuel : nat) (inside : bool) (s : bytes) : option (list token) :=
  match fuel with
  | O => None
  | S f =>
      if negb inside then
        match find_left s with
        | None => Some (match s with [] => [] | _ => [TText s] end)
        | Some (t, r) =>
            let trim := match r with c :: d :: _ => (c =? 45) && blank d | _ => false end in
            let t := if trim then drop_blanks t else t in
            let r := if trim then tl (tl r) else r in
            if has_prefix [47; 42] r then None
            else match lex f true r with
                 | Some l => Some (match t with [] => TLeft :: l | _ => TText t :: TLeft :: l end)
                 | None => None
                 end
        end
      else
        let put tok r := match lex f true r with Some l => Some (tok :: l) | None => None end in
        match s with
        | [] => None
        | c :: r =>
            if blank c && has_prefix [45; 125; 125] r then
              match lex f false (skip_blanks (skipn 3 r)) with Some l => Some (TRight :: l) | None => None end
            else if has_prefix [125; 125] s then
              match lex f false (tl r) with Some l => Some (TRight :: l) | None => None end
            else if blank c then put TSpace r
            else if c =? 124 then put TPipe r
            else if c =? 40 then put TOpen r
            else if c =? 41 then put TClose r
            else if c =? 34 then match quoted r with Some (t, r') => put (TString t) r' | None => None end
            else if c =? 46 then
              let (n, r') := span alnum r in
              if negb (terminates r') then None
              else match n with
                   | [] => put TDot r'
                   | d :: _ => if digit d then None else put (TField n) r'
                   end
            else if digit c then
              let (ds, r') := span digit s in
              match r' with
              | x :: _ => if alnum x || (x =? 46) then None
                          else match literal_number ds with Some n => put (TNumber n) r' | None => None end
              | [] => None
              end
            else if alnum c then
              let (n, r') := span alnum s in
              if terminates r' then put (TName n) r' else None
            else None
        end
  end.

(** ** Parser *)

(** parse/node.go: operands; a command is an operand with arguments, a pipeline a list of commands. *)
Inductive expr :=
| EDot | EField (path : list bytes) | ENumber (n : Z) | EString (s : bytes) | EBool (b : bool) | EFunction (name : bytes)
| EPipe (p : list (list expr)).
Notation pipeline := (list (list expr)).

(** parse/node.go: the nodes of a template *)
Inductive node :=
| NText (s : bytes)
| NAction (p : pipeline)
| NIf (p : pipeline) (yes no : list node)
| NRange (p : pipeline) (each empty : list node)
| NTemplate (name : bytes) (p : option pipeline).

(** disassemble.go:23-27 and text/template/funcs.go [builtins]: the functions that are modelled *)
Definition functions : list bytes := map str ["pad"; "ellipsize"; "valign"; "eq"; "ne"; "not"; "len"]%string.
Definition named (n : string) (s : bytes) : bool := bytes_eqb (str n) s.
Definition is_function (n : bytes) : bool := existsb (bytes_eqb n) functions.

Fixpoint no_spaces (ts : list token) : list token := match ts with TSpace :: r => no_spaces r | _ => ts end.

(** parse/parse.go [operand]: the further fields of a chain *)
Fixpoint chain (ts : list token) : list bytes * list token :=
  match ts with
  | TField n :: r => let (a, b) := chain r in (n :: a, b)
  | _ => ([], ts)
  end.

(** A command after a pipe must be a function (parse.go [checkPipeline] admits fields too). *)
Definition executable (c : list expr) : bool := match c with EFunction _ :: _ => true | _ => false end.

(** parse/parse.go [pipeline], [command], [operand], [term]: the rest of a pipeline; [cmd]: the arguments so far of the command being read, in
    reverse order; [cmds]: the commands before it, in reverse order; [spaced]: the last item was a space or the command has just begun.  The items
    from the closing delimiter or parenthesis on are left. *)
Fixpoint parse_pipeline (fuel : nat) (cmds : pipeline) (cmd : list expr) (spaced : bool) (ts : list token) : option (pipeline * list token) :=
  match fuel with
  | O => None
  | S f =>
      let operand e r := if spaced then parse_pipeline f cmds (e :: cmd) false r else None in
      let plain e r := match r with TField _ :: _ => None | _ => operand e r end in
      match ts with
      | [] => None
      | t :: r =>
          match t with
          | TSpace => parse_pipeline f cmds cmd true r
          | TPipe => match cmd with [] => None | _ => parse_pipeline f (rev cmd :: cmds) [] true r end
          | TRight | TClose =>
              match cmd with
              | [] => None
              | _ => let p := rev (rev cmd :: cmds) in if forallb executable (tl p) then Some (p, ts) else None
              end
          | TDot => plain EDot r
          | TNumber n => plain (ENumber n) r
          | TString s => plain (EString s) r
          | TName n =>
              if named "true" n then plain (EBool true) r
              else if named "false" n then plain (EBool false) r
              else if is_function n then plain (EFunction n) r
              else None
          | TField _ => let (path, r') := chain ts in operand (EField path) r'
          | TOpen =>
              match parse_pipeline f [] [] true r with
              | Some (p, TClose :: r') => plain (EPipe p) r'
              | _ => None
              end
          | TText _ | TLeft => None
          end
      end
  end.

(** A pipeline and the closing delimiter of the action *)
Definition action_pipeline (fuel : nat) (ts : list token) : option (pipeline * list token) :=
  match parse_pipeline fuel [] [] true ts with
  | Some (p, TRight :: r) => Some (p, r)
  | _ => None
  end.

(** parse/parse.go [action]: a node, or what ends a list of nodes *)
Inductive item := INode (n : node) | IEnd | IElse | IElseIf.

(** parse/parse.go [itemList], [textOrAction]: the nodes up to an [end] or [else] and which of them it was;
    [action], [templateControl], [elseControl], [endControl], [rangeControl]: one action, after its left delimiter;
    [ifControl], [parseControl]: an [if] from its condition on, up to its [end]. *)
Fixpoint parse_list (fuel : nat) (ts : list token) : option (list node * item * list token) :=
  match fuel with
  | O => None
  | S f =>
      let more n r := match parse_list f r with Some (ns, i, r') => Some (n :: ns, i, r') | None => None end in
      match ts with
      | TText s :: r => more (NText s) r
      | TLeft :: r =>
          match parse_action f (no_spaces r) with
          | Some (INode n, r') => more n r'
          | Some (i, r') => Some ([], i, r')
          | None => None
          end
      | _ => None
      end
  end
with parse_action (fuel : nat) (ts : list token) : option (item * list token) :=
  match fuel with
  | O => None
  | S f =>
      let plain := match action_pipeline f ts with Some (p, r) => Some (INode (NAction p), r) | None => None end in
      match ts with
      | TName n :: r =>
          if named "end" n then match no_spaces r with TRight :: r1 => Some (IEnd, r1) | _ => None end
          else if named "else" n then
            match no_spaces r with
            | TRight :: r1 => Some (IElse, r1)
            | TName m :: r1 => if named "if" m then Some (IElseIf, r1) else None
            | _ => None
            end
          else if named "if" n then match parse_if f r with Some (i, r1) => Some (INode i, r1) | None => None end
          else if named "range" n then
            match action_pipeline f r with
            | Some (p, r1) =>
                match parse_list f r1 with
                | Some (l, IEnd, r2) => Some (INode (NRange p l []), r2)
                | Some (l, IElse, r2) => match parse_list f r2 with Some (e, IEnd, r3) => Some (INode (NRange p l e), r3) | _ => None end
                | _ => None
                end
            | None => None
            end
          else if named "template" n then
            match no_spaces r with
            | TString name :: r1 =>
                match no_spaces r1 with
                | TRight :: r2 => Some (INode (NTemplate name None), r2)
                | r2 => match action_pipeline f r2 with Some (p, r3) => Some (INode (NTemplate name (Some p)), r3) | None => None end
                end
            | _ => None
            end
          else plain
      | _ => plain
      end
  end
with parse_if (fuel : nat) (ts : list token) : option (node * list token) :=
  match fuel with
  | O => None
  | S f =>
      match action_pipeline f ts with
      | Some (p, r) =>
          match parse_list f r with
          | Some (l, IEnd, r1) => Some (NIf p l [], r1)
          | Some (l, IElse, r1) => match parse_list f r1 with Some (e, IEnd, r2) => Some (NIf p l e, r2) | _ => None end
          | Some (l, IElseIf, r1) => match parse_if f r1 with Some (i, r2) => Some (NIf p l [i], r2) | None => None end
          | _ => None
          end
      | None => None
      end
  end.

(** parse/parse.go [IsEmptyTree]: nothing but white space *)
Definition empty_tree (ns : list node) : bool :=
  forallb (fun n => match n with NText s => forallb space_char (runes s) | _ => false end) ns.

(** Templates by name; the first entry for a name counts. *)
Notation trees := (list (bytes * list node)).

(** parse/parse.go [add]: a template of one text that is there already is replaced if it is empty; [None]: "multiple definition" *)
Definition add_tree (set : trees) (name : bytes) (ns : list node) : option trees :=
  match assocb name set with
  | Some old =>
      if empty_tree old then Some ((name, ns) :: filter (fun e => negb (bytes_eqb name (fst e))) set)
      else if empty_tree ns then Some set else None
  | None => Some ((name, ns) :: set)
  end.

(** parse/parse.go [parse], [parseDefinition]: the definitions and (in reverse order) the nodes outside of them *)
Fixpoint parse_top (fuel : nat) (set : trees) (root : list node) (ts : list token) : option (trees * list node) :=
  match fuel with
  | O => None
  | S f =>
      match ts with
      | [] => Some (set, rev root)
      | TText s :: r => parse_top f set (NText s :: root) r
      | TLeft :: r =>
          let plain :=
            match parse_action f (no_spaces r) with
            | Some (INode n, r') => parse_top f set (n :: root) r'
            | _ => None
            end in
          match no_spaces r with
          | TName n :: r1 =>
              if named "define" n then
                match no_spaces r1 with
                | TString name :: r2 =>
                    match no_spaces r2 with
                    | TRight :: r3 =>
                        match parse_list f r3 with
                        | Some (ns, IEnd, r4) => match add_tree set name ns with Some set' => parse_top f set' root r4 | None => None end
                        | _ => None
                        end
                    | _ => None
                    end
                | _ => None
                end
              else plain
          | _ => plain
          end
      | _ => None
      end
  end.

(** parse/parse.go [Parse]: the templates that a text defines, the one with the given name among them.  The text is cut into fewer items than
    it has bytes; a list of nodes takes three steps for an item at most. *)
Definition parse_template (name text : bytes) : option trees :=
  match lex (S (length text)) false text with
  | None => None
  | Some ts =>
      match parse_top (S (4 * length ts)) [] [] ts with
      | Some (set, root) => add_tree set name root
      | None => None
      end
  end.

(** text/template/template.go [AddParseTree], [associate]: an empty template does not replace one of that name. *)
Definition associate (ts : trees) (e : bytes * list node) : trees :=
  match assocb (fst e) ts with
  | Some _ => if empty_tree (snd e) then ts else e :: ts
  | None => e :: ts
  end.

(** text/template/template.go [Template.Parse] *)
Definition add_template (ts : trees) (name text : bytes) : option trees :=
  match parse_template name text with
  | Some set => Some (fold_left associate set ts)
  | None => None
  end.

(** ** Values *)

(** What a template works on: strings; numbers, with the text that fmt prints for them, [int]: of the type int; byte slices, [hex]: of the type
    lib.Hex, which has a String method; structs with fields and methods; nil pointers. *)
Inductive data :=
| DString (s : bytes)
| DNumber (int : bool) (n : Z) (shown : bytes)
| DBool (b : bool)
| DBytes (hex : bool) (bs : bytes)
| DList (l : list data)
| DStruct (fields : list (bytes * data))
| DNil.

(** Result of an evaluation: a value; an error, which ends Execute; [Unknown]: not modelled *)
Inductive evaluated (A : Type) := Value (a : A) | Error | Unknown.
Arguments Value {A} a.
Arguments Error {A}.
Arguments Unknown {A}.
Definition ebind {A B} (x : evaluated A) (f : A -> evaluated B) : evaluated B :=
  match x with Value a => f a | Error => Error | Unknown => Unknown end.

(** fmt.Fprint and fmt.Sprintf("%v", ..): []byte is printed as its numbers in brackets. *)
Definition shown (v : data) : evaluated bytes :=
  match v with
  | DString s => Value s
  | DNumber _ _ s => Value s
  | DBool b => Value (if b then str "true" else str "false")
  | DBytes true bs => Value (hex_string bs)
  | DBytes false bs =>
      Value (91 :: (match bs with [] => [] | b :: r => dec b ++ flat_map (fun b => 32 :: dec b) r end) ++ [93])
  | DList _ | DStruct _ | DNil => Unknown
  end.

(** text/template/exec.go [isTrue] *)
Definition truth (v : data) : bool :=
  match v with
  | DString s => negb (bytes_eqb s [])
  | DNumber _ n _ => negb (n =? 0)
  | DBool b => b
  | DBytes _ bs => negb (bytes_eqb bs [])
  | DList l => match l with [] => false | _ => true end
  | DStruct _ => true
  | DNil => false
  end.

(** text/template/funcs.go [eq], one comparison; other pairs of types are an error or not modelled. *)
Definition equal (a b : data) : evaluated bool :=
  match a, b with
  | DString s, DString t => Value (bytes_eqb s t)
  | DNumber _ m _, DNumber _ n _ => Value (m =? n)
  | DBool x, DBool y => Value (Bool.eqb x y)
  | DString _, DNumber _ _ _ | DString _, DBool _ | DNumber _ _ _, DString _ | DNumber _ _ _, DBool _
  | DBool _, DString _ | DBool _, DNumber _ _ _ => Error
  | _, _ => Unknown
  end.

(** funcs.go [eq]: the first argument against the others in turn *)
Fixpoint equal_any (a : data) (l : list data) : evaluated bool :=
  match l with
  | [] => Value false
  | b :: r => ebind (equal a b) (fun x => if x then Value true else equal_any a r)
  end.

(** text/template/exec.go [evalCall]: a call with these arguments.  Widths have to be of the type int, the bytes of [valign] a lib.Hex or a
    []byte; a panic of the function is an error of Execute ([safeCall]). *)
Definition call (f : bytes) (args : list data) : evaluated data :=
  if named "pad" f then
    match args with
    | [DNumber true n _; v] => ebind (shown v) (fun s => Value (DString (pad n s)))
    | [DNil; _] => Unknown
    | _ => Error
    end
  else if named "ellipsize" f then
    match args with
    | [v; DNumber true n _] => ebind (shown v) (fun s => Value (DString (ellipsize s n)))
    | [_; DNil] => Unknown
    | _ => Error
    end
  else if named "valign" f then
    match args with
    | [DBytes _ bs; DNumber true n _] => match valign bs n with Ok s => Value (DString s) | _ => Error end
    | [DBytes _ bs] => match valign bs 4 with Ok s => Value (DString s) | _ => Error end
    | _ => Unknown
    end
  else if named "eq" f then
    match args with
    | a :: ((_ :: _) as l) => ebind (equal_any a l) (fun b => Value (DBool b))
    | _ => Error
    end
  else if named "ne" f then
    match args with
    | [a; b] => ebind (equal a b) (fun x => Value (DBool (negb x)))
    | _ => Error
    end
  else if named "not" f then
    match args with [v] => Value (DBool (negb (truth v))) | _ => Error end
  else if named "len" f then
    match args with
    | [DString s] => Value (DNumber true (zlen s) (dec (zlen s)))
    | [DBytes _ s] => Value (DNumber true (zlen s) (dec (zlen s)))
    | [DList l] => Value (DNumber true (zlen l) (dec (zlen l)))
    | _ => Error
    end
  else Unknown.

(** text/template/exec.go [evalField]: a field of a struct or the result of a method without arguments.  A field of a nil pointer is an error. *)
Definition select (v : data) (name : bytes) : evaluated data :=
  match v with
  | DStruct fs => match assocb name fs with Some x => Value x | None => Unknown end
  | DNil => Error
  | _ => Unknown
  end.

(** exec.go [evalFieldChain] *)
Fixpoint select_path (v : data) (path : list bytes) : evaluated data :=
  match path with
  | [] => Value v
  | n :: r => ebind (select v n) (fun x => select_path x r)
  end.

(** text/template/exec.go [evalArg], [evalEmptyInterface], [idealConstant], [evalCommand], [evalPipeline], [evalFunction]: operands, and pipelines in
    parentheses; the value of a command is the last argument of the next one.  A function as an argument is called without arguments. *)
Definition collect {A} (l : list (evaluated A)) : evaluated (list A) :=
  fold_right (fun x r => ebind x (fun a => ebind r (fun b => Value (a :: b)))) (Value []) l.
Fixpoint eval (dot : data) (e : expr) : evaluated data :=
  match e with
  | EDot => Value dot
  | EField path => select_path dot path
  | ENumber n => Value (DNumber true n (dec n))
  | EString s => Value (DString s)
  | EBool b => Value (DBool b)
  | EFunction f => call f []
  | EPipe p =>
      let command c last :=
        match c with
        | EFunction f :: l => ebind (collect (map (eval dot) l)) (fun xs => call f (xs ++ last))
        | [a] => match last with [] => eval dot a | _ => Error end
        | _ => Error
        end in
      ebind (fold_left (fun last c => ebind last (fun l => ebind (command c l) (fun v => Value [v]))) p (Value []))
        (fun last => match last with [v] => Value v | _ => Error end)
  end.

(** exec.go [evalPipeline] *)
Definition eval_pipeline (dot : data) (p : pipeline) : evaluated data := eval dot (EPipe p).

(** ** Execution *)

(** What has been written, and how the execution went on: to its end, or up to an error *)
Inductive status := Done | Failed | Open.
Definition written := (bytes * status)%type.

(** First one, then, if it went well, the other *)
Definition andthen (a b : written) : written :=
  match snd a with Done => (fst a ++ fst b, snd b) | s => (fst a, s) end.

(** An evaluation and what comes after it *)
Definition after {A} (x : evaluated A) (k : A -> written) : written :=
  match x with Value a => k a | Error => ([], Failed) | Unknown => ([], Open) end.

(** One after the other, up to the first that does not go well *)
Definition sequence (l : list written) : written := fold_right andthen ([], Done) l.

(** text/template/exec.go [walk], [walkIfOrWith], [walkRange], [walkTemplate]; [enter]: execution of another template, unless that goes too deep.
    Without an argument the dot of the other template is not modelled. *)
Fixpoint walk (ts : trees) (enter : option (data -> list node -> written)) (dot : data) (n : node) : written :=
  match n with
  | NText s => (s, Done)
  | NAction p => after (eval_pipeline dot p) (fun v => after (shown v) (fun s => (s, Done)))
  | NIf p yes no => after (eval_pipeline dot p) (fun v => sequence (map (walk ts enter dot) (if truth v then yes else no)))
  | NRange p each empty =>
      after (eval_pipeline dot p) (fun v =>
        match v with
        | DList [] => sequence (map (walk ts enter dot) empty)
        | DList l => sequence (map (fun x => sequence (map (walk ts enter x) each)) l)
        | _ => ([], Open)
        end)
  | NTemplate name p =>
      match assocb name ts, enter with
      | None, _ => ([], Failed)
      | _, None => ([], Failed)
      | Some body, Some f => after (match p with Some p => eval_pipeline dot p | None => Unknown end) (fun v => f v body)
      end
  end.

(** [depth]: how many templates may be entered one from within the other (exec.go: maxExecDepth) *)
Fixpoint exec (ts : trees) (depth : nat) (dot : data) (ns : list node) : written :=
  sequence (map (walk ts (match depth with O => None | S d => Some (exec ts d) end) dot) ns).

(** exec.go: maxExecDepth *)
Definition max_depth : nat := Z.to_nat 100000.

(** ops/disassemble/disassemble.go:65-72 [Print] *)
Definition print (ts : trees) (name : bytes) (v : data) : written :=
  match assocb name ts with
  | Some ns => exec ts max_depth v ns
  | None => ([], Failed)
  end.

(** ** The templates of the program *)

(** ops/disassemble/template, byte for byte *)
Definition document_text : bytes :=
  text_lines
  ["{{define ""document""}}";
   "{{- template ""MThd"" .MThd}}";
   "{{- range .Tracks}}";
   "{{- template ""MTrk"" . }}";
   "{{- end}}";
   "{{- end}}";
   "";
   "";
   "{{define ""MThd"" -}}";
   "{{pad 42 (ellipsize .Bytes 42) }}  {{.Tag}} length:{{.Length}}, format:{{.Format}}, tracks:{{.Tracks}}, {{if not .SMPTETimeCode }}metrical time:{{.PPQN}} ppqn{{else}}SMPTE:{{.FPS}} fps,{{.SubFrames}} sub-frames{{end}}";
   "{{end}}";
   "";
   "{{define ""MTrk"" }}";
   "{{pad 42 (ellipsize .Bytes 24) }}  {{.Tag}} {{.TrackNumber}} length:{{.Length}}";
   "{{range .Events}}{{template ""event"" .}}{{end}}";
   "{{- end}}";
   "";
   "{{define ""event""}}{{template ""hex"" .Bytes}}  tick:{{.Tick | pad 9}}  delta:{{pad 9 .Delta}}  {{template ""events"" .Event}}{{end}}";
   "";
   "{{define ""events""}}";
   "{{- if eq .Tag ""SequenceNumber""              }}{{template ""sequenceno""             .}}";
   "{{- else if eq .Tag ""Text""                   }}{{template ""text""                   .}}";
   "{{- else if eq .Tag ""Copyright""              }}{{template ""copyright""              .}}";
   "{{- else if eq .Tag ""TrackName""              }}{{template ""trackname""              .}}";
   "{{- else if eq .Tag ""InstrumentName""         }}{{template ""instrumentname""         .}}";
   "{{- else if eq .Tag ""Lyric""                  }}{{template ""lyric""                  .}}";
   "{{- else if eq .Tag ""Marker""                 }}{{template ""marker""                 .}}";
   "{{- else if eq .Tag ""CuePoint""               }}{{template ""cuepoint""               .}}";
   "{{- else if eq .Tag ""ProgramName""            }}{{template ""programname""            .}}";
   "{{- else if eq .Tag ""DeviceName""             }}{{template ""devicename""             .}}";
   "{{- else if eq .Tag ""MIDIChannelPrefix""      }}{{template ""midichannelprefix""      .}}";
   "{{- else if eq .Tag ""MIDIPort""               }}{{template ""midiport""               .}}";
   "{{- else if eq .Tag ""EndOfTrack""             }}{{template ""endoftrack""             .}}";
   "{{- else if eq .Tag ""Tempo""                  }}{{template ""tempo""                  .}}";
   "{{- else if eq .Tag ""SMPTEOffset""            }}{{template ""smpteoffset""            .}}";
   "{{- else if eq .Tag ""TimeSignature""          }}{{template ""timesignature""          .}}";
   "{{- else if eq .Tag ""KeySignature""           }}{{template ""keysignature""           .}}";
   "{{- else if eq .Tag ""SequencerSpecificEvent"" }}{{template ""sequencerspecificevent"" .}}";
   "{{- else if eq .Tag ""NoteOff""                }}{{template ""noteoff""                .}}";
   "{{- else if eq .Tag ""NoteOn""                 }}{{template ""noteon""                 .}}";
   "{{- else if eq .Tag ""PolyphonicPressure""     }}{{template ""polyphonicpressure""     .}}";
   "{{- else if eq .Tag ""Controller""             }}{{template ""controller""             .}}";
   "{{- else if eq .Tag ""ProgramChange""          }}{{template ""programchange""          .}}";
   "{{- else if eq .Tag ""ChannelPressure""        }}{{template ""channelpressure""        .}}";
   "{{- else if eq .Tag ""PitchBend""              }}{{template ""pitchbend""              .}}";
   "{{- else if eq .Tag ""SysExMessage""           }}{{template ""sysexmessage""           .}}";
   "{{- else if eq .Tag ""SysExContinuation""      }}{{template ""sysexcontinuation""      .}}";
   "{{- else if eq .Tag ""SysExEscape""            }}{{template ""sysexescape""            .}}";
   "{{- else                                     }}{{template ""unknown""                .}}";
   "{{end}}";
   "{{end}}";
   "";
   "{{define ""sequenceno""             }}{{.Type}} {{pad 22 .Tag}} {{.SequenceNumber}}{{end}}";
   "{{define ""text""                   }}{{.Type}} {{pad 22 .Tag}} {{.Text}}{{end}}";
   "{{define ""copyright""              }}{{.Type}} {{pad 22 .Tag}} {{.Copyright}}{{end}}";
   "{{define ""trackname""              }}{{.Type}} {{pad 22 .Tag}} {{.Name}}{{end}}";
   "{{define ""instrumentname""         }}{{.Type}} {{pad 22 .Tag}} {{.Name}}{{end}}";
   "{{define ""lyric""                  }}{{.Type}} {{pad 22 .Tag}} {{.Lyric}}{{end}}";
   "{{define ""marker""                 }}{{.Type}} {{pad 22 .Tag}} {{.Marker}}{{end}}";
   "{{define ""cuepoint""               }}{{.Type}} {{pad 22 .Tag}} {{.CuePoint}}{{end}}";
   "{{define ""programname""            }}{{.Type}} {{pad 22 .Tag}} {{.Name}}{{end}}";
   "{{define ""devicename""             }}{{.Type}} {{pad 22 .Tag}} {{.Name}}{{end}}";
   "{{define ""midichannelprefix""      }}{{.Type}} {{pad 22 .Tag}} {{.Channel}}{{end}}";
   "{{define ""midiport""               }}{{.Type}} {{pad 22 .Tag}} {{.Port}}{{end}}";
   "{{define ""endoftrack""             }}{{.Type}} {{    .Tag   }}{{end}}";
   "{{define ""tempo""                  }}{{.Type}} {{pad 22 .Tag}} tempo:{{.Tempo}}{{end}}";
   "{{define ""smpteoffset""            }}{{.Type}} {{pad 22 .Tag}} {{.Hour}} {{.Minute}} {{.Second}} {{.FrameRate}} {{.Frames}} {{.FractionalFrames}}{{end}}";
   "{{define ""timesignature""          }}{{.Type}} {{pad 22 .Tag}} {{.Numerator}}/{{.Denominator}}, {{.TicksPerClick }} ticks per click, {{.ThirtySecondsPerQuarter}}/32 per quarter{{end}}";
   "{{define ""keysignature""           }}{{.Type}} {{pad 22 .Tag}} {{.Key}}{{end}}";
   "{{define ""sequencerspecificevent"" }}{{.Type}} {{pad 22 .Tag}} {{.Manufacturer.Name}}, {{.Data}}{{end}}";
   "";
   "{{define ""noteoff""            }}{{.Status}} {{pad 22 .Tag}} channel:{{pad 2 .Channel}} note:{{.Note.Name}}, velocity:{{.Velocity}}{{end}}";
   "{{define ""noteon""             }}{{.Status}} {{pad 22 .Tag}} channel:{{pad 2 .Channel}} note:{{.Note.Name}}, velocity:{{.Velocity}}{{end}}";
   "{{define ""polyphonicpressure"" }}{{.Status}} {{pad 22 .Tag}} channel:{{pad 2 .Channel}} pressure:{{.Pressure}}{{end}}";
   "{{define ""controller""         }}{{.Status}} {{pad 22 .Tag}} channel:{{pad 2 .Channel}} {{.Controller.ID}}/{{.Controller.Name}}, value:{{.Value}}{{end}}";
   "{{define ""programchange""      }}{{.Status}} {{pad 22 .Tag}} channel:{{pad 2 .Channel}} bank:{{.Bank}}, program:{{.Program }}{{end}}";
   "{{define ""channelpressure""    }}{{.Status}} {{pad 22 .Tag}} channel:{{pad 2 .Channel}} pressure:{{.Pressure}}{{end}}";
   "{{define ""pitchbend""          }}{{.Status}} {{pad 22 .Tag}} channel:{{pad 2 .Channel}} bend:{{.Bend}}{{end}}";
   "";
   "{{define ""sysexmessage""      }}{{.Status}} {{pad 22 .Tag}} {{.Manufacturer.Name}}, {{.Data}}{{end}}";
   "{{define ""sysexcontinuation"" }}{{.Status}} {{pad 22 .Tag}} {{.Data}}{{end}}";
   "{{define ""sysexescape""       }}{{.Status}} {{pad 22 .Tag}} {{.Data}}{{end}}";
   "";
   "{{define ""unknown"" }}?? {{.Tag}}{{end}}";
   "{{define ""hex""     }}{{pad 42 (ellipsize (valign . 3) 42) }}{{end}}"]%string.

(** ops/disassemble/disassemble.go:22-37 [NewDisassemble] *)
Definition new_disassemble : option trees := add_template [] (str "document") document_text.

(** ops/disassemble/disassemble.go:55-60 [LoadTemplates]: the templates of the user, by name, in the order in which the map is iterated *)
Fixpoint load_templates (ts : trees) (us : list (bytes * bytes)) : option trees :=
  match us with
  | [] => Some ts
  | (name, text) :: r => match add_template ts name text with Some ts' => load_templates ts' r | None => None end
  end.

(** ** The values the program gives to them *)

(** Numbers of other types than int *)
Definition num (n : Z) : data := DNumber false n (dec n).
Definition hexnum (n : Z) : data := DNumber false n (hex2 n).
Definition entry (name : string) (v : data) : bytes * data := (str name, v).

(** midi/events/midi/midievent.go:28-32, midi/lib/controller.go:3-6, midi/lib/manufacturer.go:11-15 *)
Definition note_data (n : note) : data := DStruct [entry "Value" (num (n_value n)); entry "Name" (DString (n_name n)); entry "Alias" (DString (n_alias n))].
Definition controller_data (c : controller) : data := DStruct [entry "ID" (num (c_id c)); entry "Name" (DString (c_name c))].
Definition manufacturer_data (m : manufacturer) : data :=
  DStruct [entry "ID" (DBytes false (m_id m)); entry "Region" (DString (m_region m)); entry "Name" (DString (m_name m))].

(** The field with the text: midi/events/meta/{text,copyright,track_name,instrument_name,lyric,marker,cue_point,program_name,device_name}.go *)
Definition text_field (k : textkind) : bytes :=
  match k with
  | KText => str "Text" | KCopyright => str "Copyright" | KTrackName | KInstrumentName | KProgramName | KDeviceName => str "Name"
  | KLyric => str "Lyric" | KMarker => str "Marker" | KCuePoint => str "CuePoint"
  end.

(** The exported fields of the event structs (the files cited at [body] in Event.v); the channel is a field of the embedded struct
    (midi/events/midi/midievent.go:18-26).  A key type is 0 or 1 (midi/lib/scales.go:51-60). *)
Definition body_data (b : body) : list (bytes * data) :=
  match b with
  | NoteOff c n v | NoteOn c n v => [entry "Channel" (num c); entry "Note" (note_data n); entry "Velocity" (num v)]
  | PolyphonicPressure c p | ChannelPressure c p => [entry "Channel" (num c); entry "Pressure" (num p)]
  | Controller c ct v => [entry "Channel" (num c); entry "Controller" (controller_data ct); entry "Value" (num v)]
  | ProgramChange c bank p => [entry "Channel" (num c); entry "Bank" (num bank); entry "Program" (num p)]
  | PitchBend c b => [entry "Channel" (num c); entry "Bend" (num b)]
  | SequenceNumber n => [entry "SequenceNumber" (num n)]
  | TextEvent k s => [(text_field k, DString s)]
  | MIDIChannelPrefix c => [entry "Channel" (num c)]
  | MIDIPort p => [entry "Port" (num p)]
  | EndOfTrack => []
  | Tempo t => [entry "Tempo" (num t)]
  | SMPTEOffset h m s rate f ff =>
      [entry "Hour" (num h); entry "Minute" (num m); entry "Second" (num s); entry "FrameRate" (num rate); entry "Frames" (num f);
       entry "FractionalFrames" (num ff)]
  | TimeSignature n d t q =>
      [entry "Numerator" (num n); entry "Denominator" (num d); entry "TicksPerClick" (num t); entry "ThirtySecondsPerQuarter" (num q)]
  | KeySignature a t key =>
      [entry "Accidentals" (num a); entry "KeyType" (DNumber false t (if t =? 0 then str "major" else str "minor")); entry "Key" (DString key)]
  | SequencerSpecific m data => [entry "Manufacturer" (manufacturer_data m); entry "Data" (DBytes true data)]
  | SysExMessage m data single => [entry "Manufacturer" (manufacturer_data m); entry "Data" (DBytes true data); entry "Single" (DBool single)]
  | SysExContinuation data fin => [entry "Data" (DBytes true data); entry "End" (DBool fin)]
  | SysExEscape data => [entry "Data" (DBytes true data)]
  end.

(** midi/events/midi/midievent.go:18-50, midi/events/meta/metaevent.go:34-57, midi/events/sysex/sysex.go:17-40: methods and fields of the embedded
    struct; types and statuses print as two hexadecimal digits (midi/lib/event.go:36-38, midi/lib/status.go:9-11). *)
Definition inner_data (e : event) : data :=
  DStruct (entry "Tick" (num (e_tick e)) :: entry "Delta" (num (e_delta e)) :: entry "Bytes" (DBytes false (e_bytes e)) ::
           entry "Tag" (DString (body_tag (e_body e))) :: entry "Status" (hexnum (e_status e)) ::
           (if is_meta (e_body e) then [entry "Type" (hexnum (e_type e))] else []) ++ body_data (e_body e)).

(** midi/events/event.go:33-70 [Event] *)
Definition event_data (e : event) : data :=
  DStruct [entry "Event" (inner_data e); entry "Tick" (num (e_tick e)); entry "Delta" (num (e_delta e)); entry "Bytes" (DBytes true (e_bytes e))].

(** midi/MTrk.go:18-25; the track number prints with %-2d (midi/lib/track_number.go:9-11). *)
Definition mtrk_data (t : mtrk) : data :=
  DStruct [entry "Tag" (DString (t_tag t)); entry "TrackNumber" (DNumber false (t_number t) (pad 2 (dec (t_number t))));
           entry "Length" (num (t_length t)); entry "Bytes" (DBytes true (t_bytes t)); entry "Events" (DList (map event_data (t_events t)))].

(** midi/MThd.go:12-24 *)
Definition mthd_data (h : mthd) : data :=
  DStruct [entry "Tag" (DString (h_tag h)); entry "Length" (num (h_length h)); entry "Format" (num (h_format h)); entry "Tracks" (num (h_tracks h));
           entry "Division" (num (h_division h)); entry "PPQN" (num (h_ppqn h)); entry "SMPTETimeCode" (DBool (h_smpte h));
           entry "SubFrames" (num (h_subframes h)); entry "FPS" (num (h_fps h)); entry "DropFrame" (DBool (h_drop h));
           entry "Bytes" (DBytes true (h_bytes h))].

(** midi/smf.go:11-14: the header is a pointer. *)
Definition header_data (h : option mthd) : data := match h with Some h => mthd_data h | None => DNil end.
Definition smf_data (s : smf) : data :=
  DStruct [entry "MThd" (header_data (f_mthd s)); entry "Tracks" (DList (map mtrk_data (f_tracks s)))].
