(** * FeederSamples: a text that leaves a goroutine of the assembler behind. *)
From Verif Require Import Base Strings Tables Event Track File TextEvent Assemble TextAssemble Pipeline SpecAssemble PipelineProofs FeederProofs ReadSamples ReassembleSamples.

Definition leaking_chunk : list bytes := [str "MTrk"; str "delta:0 NoteOn chanel:0 C4"; str "delta:480 NoteOff channel:0 C4"; str "delta:0 EndOfTrack"].
Definition leaking_text : bytes := good_header ++ concat (map line leaking_chunk).

Theorem leaks : exists chunks s, read_chunks leaking_text = Ok chunks /\ In leaking_chunk chunks /\ assemble_text in_order leaking_text = Err /\
  steps (feeder_step (rejects (in_order 1))) (feeder_start leaking_chunk) s /\ halted (feeder_step (rejects (in_order 1))) s /\
  g_closed s = false /\ g_returned s = Some true.
Proof.
  assert (F : first_bad (rejects (in_order 1)) [str "MTrk"; str "delta:0 NoteOn chanel:0 C4"]).
  { exists [str "MTrk"], (str "delta:0 NoteOn chanel:0 C4"). split; [reflexivity|]. split; [vm_compute; reflexivity|].
    apply (good_snoc _ []); [apply good_nil|vm_compute; reflexivity]. }
  destruct (feeder_leaks (rejects (in_order 1)) leaking_chunk [str "MTrk"; str "delta:0 NoteOn chanel:0 C4"] (str "delta:480 NoteOff channel:0 C4") (str "delta:0 EndOfTrack") [] eq_refl F) as (s & S1 & S2 & S3 & S4).
  eexists. exists s. split; [vm_compute; reflexivity|]. split; [right; left; reflexivity|]. split; [vm_compute; reflexivity|]. auto.
Qed.
