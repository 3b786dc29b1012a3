(** * The goroutines of the text assembler with its real parser of event lines: C38.  Theorems only; proofs in FeederProofs.v and FeederSamples.v. *)
From Verif Require Import Base Strings Tables Event Track File TextEvent Assemble TextAssemble Pipeline SpecAssemble PipelineProofs FeederProofs ReadSamples ReassembleSamples FeederSamples.

(** C38: whatever the interleaving, a track that is parsed sequentially without an error has all its lines received in order, and its goroutine ends. *)
Theorem C38_track_outcome : forall tables chunk s es, steps (feeder_step (rejects tables)) (feeder_start chunk) s -> halted (feeder_step (rejects tables)) s ->
  parse_mtrk tables chunk = Ok es -> g_returned s = Some false /\ g_received s = chunk /\ g_closed s = true.
Proof. exact track_outcome. Qed.
Print Assumptions C38_track_outcome.

(** C38: in all cases parseMTrk returns; early, with an error, exactly when the sequential parser rejects a line, and then the goroutine ends if fewer than
    two lines are left. *)
Theorem C38_track_goroutine : forall tables chunk s, steps (feeder_step (rejects tables)) (feeder_start chunk) s -> halted (feeder_step (rejects tables)) s ->
  (g_returned s = Some false /\ g_received s = chunk /\ g_closed s = true /\
    match after_mtrk chunk with None => True | Some lines => exists es, parse_events tables lines = Ok es end) \/
  (g_returned s = Some true /\ (forall es, parse_mtrk tables chunk <> Ok es) /\
    exists rest, chunk = g_received s ++ rest /\ (g_closed s = true <-> (length rest < 2)%nat)).
Proof. exact track_goroutine. Qed.
Print Assumptions C38_track_goroutine.

(** C38, finding: a misspelt field in the first event of a track with three events; the assembler returns an error and the goroutine stays blocked for ever in
    its select (the [break] at ops/assemble/text.go:187 leaves the select, not the loop). *)
Theorem C38_goroutine_leak_refuted : exists text chunk chunks s, read_chunks text = Ok chunks /\ In chunk chunks /\ assemble_text in_order text = Err /\
  steps (feeder_step (rejects (in_order 1))) (feeder_start chunk) s /\ halted (feeder_step (rejects (in_order 1))) s /\
  g_closed s = false /\ g_returned s = Some true.
Proof. exists leaking_text, leaking_chunk. exact leaks. Qed.
Print Assumptions C38_goroutine_leak_refuted.

Example C38_track_example : exists es, parse_mtrk (in_order 1) [str "MTrk"; str "delta:480 EndOfTrack"; []; str "%% end"] = Ok es /\ length es = 1%nat.
Proof. eexists. split; vm_compute; reflexivity. Qed.
