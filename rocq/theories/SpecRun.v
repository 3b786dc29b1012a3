(** * SpecRun: what a run leaves behind. *)
From Verif Require Import Base Strings Tables Event Track File SpecTable SpecText SpecDuration Notes SpecNotes SpecHistory SpecTranspose Flags Cli SpecCli.

(** The value an option has: the last one given, or none (empty, 0, false) *)
Definition string_setting (n : bytes) (vs : list (bytes * value)) (s : bytes) : Prop :=
  lasting n vs None = Some (VString s) \/ (lasting n vs None = None /\ s = []).
Definition int_setting (n : bytes) (vs : list (bytes * value)) (k : Z) : Prop :=
  lasting n vs None = Some (VInt k) \/ (lasting n vs None = None /\ k = 0).
Definition bool_setting (n : bytes) (vs : list (bytes * value)) (b : bool) : Prop :=
  lasting n vs None = Some (VBool b) \/ (lasting n vs None = None /\ b = false).

(** [asked n args vs file]: behind the name of the command are options with these values and the name of a file. *)
Definition asked (n : bytes) (args : list bytes) (vs : list (bytes * value)) (file : bytes) : Prop :=
  exists formal rest, In (n, formal) documented /\ options formal args vs rest /\ hd [] rest = file.

(** A file that can be read *)
Definition holds (w : world) (d : files) (file bs : bytes) : Prop := file <> [] /\ d (w_file w file) = Some bs.

(** Nothing has been printed (but for the report of an error, see Stdout.v) or changed. *)
Definition untouched (d : files) (e : ending) (r : result) : Prop := r_ending r = e /\ r_stdout r = [] /\ forall i, r_files r i = d i.

(** The text is in the file and nothing else has changed; if the file cannot be created the run has failed. *)
Definition in_file (w : world) (d : files) (out text : bytes) (r : result) : Prop :=
  if w_creatable w out
  then r_ending r = Exit 0 /\ r_stdout r = [] /\ r_files r (w_file w out) = Some text /\ forall i, i <> w_file w out -> r_files r i = d i
  else untouched d (Exit 1) r.

(** The text has been printed, or is in the file named for it. *)
Definition delivered (w : world) (d : files) (out text : bytes) (r : result) : Prop :=
  match out with
  | [] => r_ending r = Exit 0 /\ r_stdout r = text /\ forall i, r_files r i = d i
  | _ => in_file w d out text r
  end.

(** The text is in the file named for it and the console has got what is printed besides; without such a file the console has got both. *)
Definition delivered_beside (w : world) (d : files) (out text console : bytes) (r : result) : Prop :=
  match out with
  | [] => r_ending r = Exit 0 /\ r_stdout r = text ++ console /\ forall i, r_files r i = d i
  | _ => if w_creatable w out
         then r_ending r = Exit 0 /\ r_stdout r = console /\ r_files r (w_file w out) = Some text /\ forall i, i <> w_file w out -> r_files r i = d i
         else untouched d (Exit 1) r
  end.

(** The text is in the file named for it, if one is. *)
Definition saved (w : world) (d : files) (out text : bytes) (r : result) : Prop :=
  match out with
  | [] => untouched d (Exit 0) r
  | _ => in_file w d out text r
  end.

(** ** Contents *)

(** The notes of a file (C39): those that sound in each track after the first one, moved by [steps] *)
Definition file_notes (env : env) (steps : Z) (s : smf) (notes : list note_out) : Prop :=
  exists nss, notes = concat nss /\
    Forall2 (fun t ns => exists es, lists_notes env steps es ns /\ ascending 0 (map ne_tick es) /\
       (total_delta (t_events t) < 4294967296 -> (forall t0, nth_error (f_tracks s) 0 = Some t0 -> total_delta (t_events t0) < 4294967296) ->
        map (fun e => (ne_tick e, ne_body e)) es = own_notes (t_events t))) (tl (f_tracks s)) nss.

(** The table of a file (C43): seven columns for each track, titles, then a row for each event *)
Definition file_table (s : smf) (t : list (list bytes)) : Prop :=
  exists rows, longest (f_tracks s) rows /\
    length t = S rows /\ Forall (fun r => length r = (7 * length (f_tracks s))%nat) t /\
    (forall i k, (i < length (f_tracks s))%nat -> (k < 7)%nat -> cell t 0 (7 * i + k) = nth k titles []) /\
    (forall i j tr e, nth_error (f_tracks s) i = Some tr -> nth_error (t_events tr) j = Some e ->
       exists l, shows e l /\ forall k, (k < 7)%nat -> cell t (S j) (7 * i + k) = nth k l []) /\
    (forall i j k tr, nth_error (f_tracks s) i = Some tr -> (length (t_events tr) <= j)%nat -> (k < 7)%nat -> cell t (S j) (7 * i + k) = []).

(** A text with the cells in columns (C44) *)
Definition aligned_text (records : list (list bytes)) (text : bytes) : Prop :=
  exists (widths : list Z) (padded : list (list bytes)) (lines : list bytes),
    text = concat (map (fun l => l ++ [10]) lines) /\
    Forall2 (separated (str "  ")) padded lines /\
    Forall2 (Forall2 (fun f p => exists n, p = f ++ spaces n)) records padded /\
    Forall (fun row => (length row <= length widths)%nat /\ forall j p w, nth_error row j = Some p -> nth_error widths j = Some w -> chars p (Z.to_nat w)) padded /\
    (forall j w, nth_error widths j = Some w ->
      (forall r f, In r records -> nth_error r j = Some f -> zlen f <= w) /\
      (w = 0 \/ exists r f, In r records /\ nth_error r j = Some f /\ zlen f = w)).
