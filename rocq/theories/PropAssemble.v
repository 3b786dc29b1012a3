(** * The text assembler's line handling: C37, C38, C50.  Theorems only; proofs in AssembleProofs.v and PipelineProofs.v. *)
From Verif Require Import Base Strings Tables Vlq Event Marshal Assemble Pipeline SpecAssemble AssembleProofs PipelineProofs Samples.

(** C37, full statement: for every text, [read_chunks text = Ok cs] with
      exists lines before, lines_of text lines /\ divides lines before cs /\ Forall (fun l => ~ tag_line l) before
    i.e. every tag line starts a chunk.  It fails when an "MTrk" line comes before the first "MThd" line, and when a line is
    longer than 65535 bytes.  Proved: exactly which chunks are read, for every text. *)
Theorem C37_chunks_partial : forall text cs, read_chunks text = Ok cs <->
  ~ long_line text /\ exists lines before, lines_of text lines /\ divides lines before cs /\
    Forall (fun l => ~ header_line l) before /\ match cs with [] => True | c :: _ => header_line (hd [] c) end.
Proof. exact read_chunks_ok. Qed.
Print Assumptions C37_chunks_partial.

Theorem C37_error : forall text, read_chunks text = Err <-> long_line text.
Proof. exact read_chunks_err. Qed.
Print Assumptions C37_error.

Example C37_example : read_chunks (str "% a file" ++ [13; 10] ++ str "MThd format:0" ++ [10; 10] ++ str "00 MTrk" ++ [10] ++ str "x" ++ [13; 10] ++ str "y")
  = Ok [[str "MThd format:0"; []]; [str "00 MTrk"; str "x"; str "y"]].
Proof. vm_compute. reflexivity. Qed.

(** A track before the header is dropped without an error. *)
Theorem C37_track_before_header_refuted : exists text cs lines, read_chunks text = Ok cs /\ lines_of text lines /\
  forall before, ~ (divides lines before cs /\ Forall (fun l => ~ tag_line l) before).
Proof.
  exact track_before_header.
Qed.
Print Assumptions C37_track_before_header_refuted.

(** C38: reading the text.  For every list of lines and every interleaving of the three goroutines: no run is infinite; a run can
    only stop with all three goroutines finished and the chunks of the text received in order; and such a run exists. *)
Theorem C38_reading : forall lines, all_runs_end pipeline_step (pipeline_start lines) /\
  exists before cs, divides lines before cs /\ Forall (fun l => ~ header_line l) before /\
    match cs with [] => True | c :: _ => header_line (hd [] c) end /\
    (forall s, steps pipeline_step (pipeline_start lines) s -> halted pipeline_step s -> s = Pipeline [] true Finished cs true) /\
    steps pipeline_step (pipeline_start lines) (Pipeline [] true Finished cs true).
Proof. exact pipeline_delivers. Qed.
Print Assumptions C38_reading.

Example C38_reading_example : exists s, steps pipeline_step (pipeline_start [str "MThd"; str "MTrk"; str "x"]) s /\ halted pipeline_step s /\
  p_list s = [[str "MThd"]; [str "MTrk"; str "x"]].
Proof.
  eexists. split; [exact (pipeline_reaches_end _)|]. split; [|vm_compute; reflexivity].
  intros s' K. inversion K; discriminate.
Qed.

(** C38: parsing a track whose lines are all accepted delivers every line once and in order, and the goroutine ends. *)
Theorem C38_track : forall bad chunk s, (forall a l b, chunk = a ++ l :: b -> bad (a ++ [l]) = false) ->
  steps (feeder_step bad) (feeder_start chunk) s -> halted (feeder_step bad) s ->
  g_received s = chunk /\ g_closed s = true /\ g_returned s = Some false.
Proof. exact feeder_good_all. Qed.
Print Assumptions C38_track.

Theorem C38_track_ends : forall bad chunk, all_runs_end (feeder_step bad) (feeder_start chunk).
Proof. exact feeder_all. Qed.
Print Assumptions C38_track_ends.

(** C38: a track with a line that is not accepted.  Full statement: then too the goroutine always ends.  Proved: it ends exactly
    if fewer than two lines follow the first line that is not accepted. *)
Theorem C38_track_error_partial : forall bad a l rest s, bad (a ++ [l]) = true ->
  (forall a' l' b, a = a' ++ l' :: b -> bad (a' ++ [l']) = false) ->
  steps (feeder_step bad) (feeder_start ((a ++ [l]) ++ rest)) s -> halted (feeder_step bad) s ->
  g_received s = a ++ [l] /\ g_returned s = Some true /\ (g_closed s = true <-> (length rest < 2)%nat).
Proof. exact (fun bad a l rest s B G => feeder_bad bad (a ++ [l]) rest s (ex_intro _ a (ex_intro _ l (conj eq_refl (conj B G))))). Qed.
Print Assumptions C38_track_error_partial.

(** The goroutine with the real parser of event lines: PropPipeline.v. *)

(** C50, full statement: for every event list, [fixups es = Ok es'] and every SysEx message or continuation in [es'] is marked as
    complete if and only if the next event is not a continuation.  It fails for the last event of the list, for the empty list and
    for messages that were marked before (possible in JSON).  Proved: it holds for all events but the last of a list of unmarked messages; all
    other events, and everything else about the messages, stay as they are. *)
Theorem C50_closed_partial : forall es, es <> [] -> Forall unmarked es ->
  exists es', fixups es = Ok es' /\ length es' = length es /\
   (forall i e n e', nth_error es i = Some e -> nth_error es (S i) = Some n -> nth_error es' i = Some e' ->
      (continues n -> marked false e e') /\ (~ continues n -> marked true e e')) /\
   (forall e e', nth_error es (length es - 1) = Some e -> nth_error es' (length es - 1) = Some e' -> e' = e).
Proof.
  exact (fun es N U => match fixups_spec es N with ex_intro _ es' (conj F (conj L (conj _ T))) =>
    ex_intro _ es' (conj F (conj L (conj (fun i e n e' => fixups_unmarked es es' i e n e' U F) T))) end).
Qed.
Print Assumptions C50_closed_partial.

(** C50: what is written for a marked event. *)
Theorem C50_written : forall fin e e' p, payload e = Some p -> marked fin e e' ->
  marshal e' = Ok (e_status e :: vlf_encode (p ++ (if fin then [247] else []))).
Proof. exact marked_written. Qed.
Print Assumptions C50_written.

(** Without the hypothesis: what was marked stays marked. *)
Theorem C50_any_list : forall es, es <> [] -> exists es', fixups es = Ok es' /\ length es' = length es /\
  (forall i e n e', nth_error es i = Some e -> nth_error es (S i) = Some n -> nth_error es' i = Some e' ->
     (continues n -> e' = e) /\ (~ continues n -> marked true e e')) /\
  (forall e e', nth_error es (length es - 1) = Some e -> nth_error es' (length es - 1) = Some e' -> e' = e).
Proof. exact fixups_spec. Qed.
Print Assumptions C50_any_list.

Definition sysex_event (data : bytes) : event := make_sysex 0 0 (Manufacturer [67] [] []) data false [].
Definition continuation_event (data : bytes) : event := make_continuation 0 0 data false [].

Example C50_example : exists es', let es := [sysex_event [1]; continuation_event [2]; continuation_event [3]; sysex_event [4]; make_end_of_track 0 0 []] in
  Forall unmarked es /\ fixups es = Ok es' /\ map e_body es' =
    [SysExMessage (Manufacturer [67] [] []) [1] false; SysExContinuation [2] false; SysExContinuation [3] true;
     SysExMessage (Manufacturer [67] [] []) [4] true; EndOfTrack].
Proof. eexists. split; [repeat constructor|]. split; reflexivity. Qed.

(** A SysEx message at the end of a track (no EndOfTrack follows) is written without its terminator. *)
Theorem C50_last_refuted : exists es es' e', es = [sysex_event [1; 2]] /\ fixups es = Ok es' /\ nth_error es' 0 = Some e' /\
  marshal e' = Ok [240; 3; 67; 1; 2].
Proof. exact (ex_intro _ _ (ex_intro _ _ (ex_intro _ _ (conj eq_refl (conj eq_refl (conj eq_refl eq_refl)))))). Qed.
Print Assumptions C50_last_refuted.

(** A track without events: panic. *)
Theorem C50_empty_refuted : exists es, es = [] /\ fixups es = Panic.
Proof. exact (ex_intro _ [] (conj eq_refl eq_refl)). Qed.
Print Assumptions C50_empty_refuted.

(** A message marked as complete that is followed by a continuation is written with a terminator in the middle. *)
Theorem C50_marked_refuted : exists m n es' e', m = make_sysex 0 0 (Manufacturer [67] [] []) [1] true [] /\ n = continuation_event [2] /\
  fixups [m; n] = Ok es' /\ nth_error es' 0 = Some e' /\ marshal e' = Ok [240; 3; 67; 1; 247].
Proof. exact (ex_intro _ _ (ex_intro _ _ (ex_intro _ _ (ex_intro _ _ (conj eq_refl (conj eq_refl (conj eq_refl (conj eq_refl eq_refl)))))))). Qed.
Print Assumptions C50_marked_refuted.
