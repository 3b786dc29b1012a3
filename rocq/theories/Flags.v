(** * Flags: package flag of the Go standard library (Go 1.23), as far as cmd/midiasm/main.go:90-117 uses it. *)
From Verif Require Import Base Strings.

(** The kinds of flags: BoolVar, StringVar, IntVar. *)
Inductive kind := KBool | KString | KInt.
Inductive value := VBool (b : bool) | VString (s : bytes) | VInt (n : Z).

(** strconv.ParseBool *)
Definition parse_bool (s : bytes) : outcome bool :=
  if existsb (bytes_eqb s) [str "1"; str "t"; str "T"; str "TRUE"; str "true"; str "True"] then Ok true
  else if existsb (bytes_eqb s) [str "0"; str "f"; str "F"; str "FALSE"; str "false"; str "False"] then Ok false
  else Err.

(** strconv [lower] *)
Definition lower (c : Z) : Z := Z.lor c 32.

(** strconv [underscoreOK] after the sign: [saw] is 48 (a digit), 95 (an underscore), 94 (the start) or 33 (anything else). *)
Fixpoint underscores_from (hex : bool) (saw : Z) (s : bytes) : bool :=
  match s with
  | [] => negb (saw =? 95)
  | c :: r =>
      if ((48 <=? c) && (c <=? 57)) || (hex && (97 <=? lower c) && (lower c <=? 102)) then underscores_from hex 48 r
      else if c =? 95 then (saw =? 48) && underscores_from hex 95 r
      else negb (saw =? 95) && underscores_from hex 33 r
  end.
Definition underscores_ok (s : bytes) : bool :=
  match s with
  | z :: c :: r =>
      if (z =? 48) && ((lower c =? 98) || (lower c =? 111) || (lower c =? 120)) then underscores_from (lower c =? 120) 48 r
      else underscores_from false 94 s
  | _ => underscores_from false 94 s
  end.

(** strconv.ParseUint, the digits, without the limit of 64 bits; an underscore is skipped *)
Fixpoint uint_digits (base acc : Z) (s : bytes) : outcome Z :=
  match s with
  | [] => Ok acc
  | c :: r =>
      if c =? 95 then uint_digits base acc r
      else
        do d <- (if (48 <=? c) && (c <=? 57) then Ok (c - 48) else if (97 <=? lower c) && (lower c <=? 122) then Ok (lower c - 87) else Err);
        if base <=? d then Err else uint_digits base (acc * base + d) r
  end.

(** strconv.ParseUint with base 0, without the limit of 64 bits *)
Definition base_prefix (s : bytes) : Z * bytes :=
  match s with
  | [] => (10, s)
  | z :: r =>
      if z =? 48 then
        match r with
        | c :: ((_ :: _) as ds) => if lower c =? 98 then (2, ds) else if lower c =? 111 then (8, ds) else if lower c =? 120 then (16, ds) else (8, r)
        | _ => (8, r)
        end
      else (10, s)
  end.
Definition parse_uint0 (s : bytes) : outcome Z :=
  match s with
  | [] => Err
  | _ =>
      let (base, ds) := base_prefix s in
      do n <- uint_digits base 0 ds;
      if existsb (Z.eqb 95) ds && negb (underscores_ok s) then Err else Ok n
  end.

(** strconv.ParseInt with base 0 and 64 bits; a number out of range is an error in any case, so the limit is checked at the end. *)
Definition parse_int0 (s : bytes) : outcome Z :=
  let (neg, digits) := match s with [] => (false, s) | c :: r => if c =? 43 then (false, r) else if c =? 45 then (true, r) else (false, s) end in
  do n <- parse_uint0 digits;
  if neg then (if n <=? 9223372036854775808 then Ok (- n) else Err) else (if n <=? 9223372036854775807 then Ok n else Err).

(** flag.go [boolValue.Set], [stringValue.Set], [intValue.Set] *)
Definition set_value (k : kind) (s : bytes) : outcome value :=
  match k with
  | KBool => do b <- parse_bool s; Ok (VBool b)
  | KString => Ok (VString s)
  | KInt => do n <- parse_int0 s; Ok (VInt n)
  end.

(** flag.go [parseOne]: the name up to the first = that is not the first character, and what follows it *)
Fixpoint cut_equals (s : bytes) : bytes * option bytes :=
  match s with
  | [] => ([], None)
  | c :: r => if c =? 61 then ([], Some r) else let (n, v) := cut_equals r in (c :: n, v)
  end.
Definition name_value (name : bytes) : bytes * option bytes :=
  match name with [] => ([], None) | c :: r => let (n, v) := cut_equals r in (c :: n, v) end.

(** What Parse comes to: the values set, in order, and the arguments that are left; or the program ends with the exit code given
    (ExitOnError: 0 after -help or -h, 2 after an error). *)
Inductive parsed := Parsed (values : list (bytes * value)) (rest : list bytes) | Quit (code : Z).

(** flag.go [FlagSet.Parse] and [parseOne]; [formal] are the flags defined.  Structural recursion: a flag that takes the next argument
    skips it with [tl]. *)
Fixpoint parse_flags (formal : list (bytes * kind)) (args : list bytes) : parsed :=
  match args with
  | [] => Parsed [] []
  | s :: r =>
      match s with
      | dash :: c :: s' =>
          if negb (dash =? 45) then Parsed [] args
          else if (c =? 45) && bytes_eqb s' [] then Parsed [] r
          else
            let name := if c =? 45 then s' else c :: s' in
            if match name with [] => true | x :: _ => (x =? 45) || (x =? 61) end then Quit 2
            else
              let (n, v) := name_value name in
              let set k x rest :=
                match set_value k x with
                | Ok y => match rest with Parsed vs a => Parsed ((n, y) :: vs) a | Quit q => Quit q end
                | _ => Quit 2
                end in
              match assocb n formal with
              | None => if bytes_eqb n (str "help") || bytes_eqb n (str "h") then Quit 0 else Quit 2
              | Some KBool => set KBool (match v with Some x => x | None => str "true" end) (parse_flags formal r)
              | Some k =>
                  match v with
                  | Some x => set k x (parse_flags formal r)
                  | None => match r with [] => Quit 2 | x :: r' => set k x (parse_flags formal r') end
                  end
              end
      | _ => Parsed [] args
      end
  end.

(** The variable of a flag after Parse: the last value set, or else the default. *)
Fixpoint last_value (n : bytes) (vs : list (bytes * value)) : option value :=
  match vs with
  | [] => None
  | (m, v) :: r => match last_value n r with Some x => Some x | None => if bytes_eqb n m then Some v else None end
  end.
Definition bool_flag (n : bytes) (vs : list (bytes * value)) : bool := match last_value n vs with Some (VBool b) => b | _ => false end.
Definition string_flag (n : bytes) (vs : list (bytes * value)) : bytes := match last_value n vs with Some (VString s) => s | _ => [] end.
Definition int_flag (n : bytes) (vs : list (bytes * value)) : Z := match last_value n vs with Some (VInt z) => z | _ => 0 end.
