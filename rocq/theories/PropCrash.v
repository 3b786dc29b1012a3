(** * Crashes and truncation: C20, C21.  Theorems only; proofs in CrashProofs.v. *)
From Verif Require Import Base Strings Tables SpecVlq Vlq Event SpecPacket SpecHistory SpecFile SpecCrash Parse Track File
  HistoryProofs CrashProofs Samples.

(** C20, full statement: decoding never panics.
      forall env r, is_bytes r -> decode env r <> Panic
    That is false (below).  Proved: on every input decoding ends with a file, an error or a panic; a track
    panics exactly when the next message after some run of complete messages is one of [crashes]
    (SpecCrash.v), and stops with an error exactly when it is one of [rejects] or a data byte without
    status; and a file panics exactly when the first track that cannot be decoded panics. *)
Theorem C20_tracks_partial : forall env r (crash : bool), is_bytes r ->
  (decode_events env new_context r = (if crash then Panic else Err) <->
   exists p q es c', r = p ++ q /\ decode_events env new_context p = Ok (es, c') /\ concat (map e_bytes es) = p /\
     trouble (running_after es) (sysex_open es) q crash).
Proof. exact track_stops. Qed.
Print Assumptions C20_tracks_partial.

Theorem C20_track_outcomes_partial : forall env r, is_bytes r ->
  (exists es c', decode_events env new_context r = Ok (es, c')) \/ decode_events env new_context r = Err \/
  decode_events env new_context r = Panic.
Proof. exact track_outcomes. Qed.
Print Assumptions C20_track_outcomes_partial.

Theorem C20_files_partial : forall env r, is_bytes r ->
  ((exists s, decode env r = Ok s) \/ decode env r = Err \/ decode env r = Panic) /\
  (decode env r = Panic <->
   exists tag0 payload0 w0 hf items pre it post,
    readable ((tag0, payload0) :: items) r /\ chunk_bytes tag0 payload0 w0 /\ header_bytes w0 hf /\
    filter is_mtrk items = pre ++ it :: post /\
    Forall (fun it => exists es c', decode_events env new_context (snd it) = Ok (es, c')) pre /\
    decode_events env new_context (snd it) = Panic).
Proof. exact file_outcome. Qed.
Print Assumptions C20_files_partial.

(** Running status survives the first note; the second one has velocity 200. *)
Example C20_example : exists p q es c', [0; 144; 60; 100; 0; 64; 200] = p ++ q /\
  decode_events default_env new_context p = Ok (es, c') /\ concat (map e_bytes es) = p /\
  trouble (running_after es) (sysex_open es) q true.
Proof.
  apply (C20_tracks_partial default_env [0; 144; 60; 100; 0; 64; 200] true); [repeat constructor; lia|].
  vm_compute. reflexivity.
Qed.

(** C20, finding: a note velocity above 127, an undefined status byte, an unknown meta event type, a tempo
    of two bytes, an F0 packet of one byte. *)
Theorem C20_never_panics_refuted : exists bodies, length bodies = 5%nat /\
  bodies = [[0; 144; 60; 200]; [0; 241]; [0; 255; 96; 0]; [0; 255; 81; 2; 7; 161]; [0; 240; 1; 67]] /\
  Forall (fun body => decode default_env (single_header ++ sample_track body) = Panic) bodies.
Proof.
  eexists. split; [|split; [reflexivity|]]; [reflexivity|].
  repeat (constructor; [vm_compute; reflexivity|]). constructor.
Qed.
Print Assumptions C20_never_panics_refuted.

(** C21, full statement: every proper prefix of a decodable file that ends in a track is refused.
      forall env r s k, decode env r = Ok s -> (k < length r)%nat -> decode env (firstn k r) = Err
    That is false when the cut is behind the last track, and a track whose chunk is complete may still end
    inside an event (below).  Proved: no proper prefix decodes to anything but the whole file, and every
    one cut before the end of some track chunk is refused. *)
Theorem C21_truncation_partial : forall env r s k, is_bytes r -> decode env r = Ok s ->
  (decode env (firstn k r) = Err \/ decode env (firstn k r) = Ok s) /\
  (forall first items payload r1 r2, r = r1 ++ r2 -> file_bytes (first :: items ++ [(tag_mtrk, payload)]) r1 ->
     (k < length r1)%nat -> decode env (firstn k r) = Err).
Proof. exact truncated. Qed.
Print Assumptions C21_truncation_partial.

Example C21_example : exists s, decode default_env sample_file = Ok s /\ length (f_tracks s) = 2%nat /\
  file_bytes ((str "MThd", [0; 1; 0; 2; 1; 224]) :: [(tag_mtrk, sample_body0)] ++ [(tag_mtrk, sample_body1)]) sample_file.
Proof.
  exists sample_smf. split; [vm_compute; reflexivity|]. split; [vm_compute; reflexivity|].
  apply (file_cons _ _ ([77; 84; 104; 100; 0; 0; 0; 6] ++ [0; 1; 0; 2; 1; 224]) _
           (sample_track sample_body0 ++ sample_track sample_body1)).
  - apply chunk_intro; try lia. reflexivity.
  - apply (file_cons _ _ (sample_track sample_body0) _ (sample_track sample_body1)).
    + apply (chunk_intro 77 84 114 107 0 0 0 16 sample_body0); try lia. reflexivity.
    + rewrite <- (app_nil_r (sample_track sample_body1)). constructor; [|constructor].
      apply (chunk_intro 77 84 114 107 0 0 0 52 sample_body1); try lia. reflexivity.
Qed.

(** C21, finding for all tracks: a payload that ends inside an event decodes as if the incomplete event
    were not there. *)
Theorem C21_incomplete_event_dropped : forall env p es c' q q' delta k, is_bytes (p ++ q') ->
  decode_events env new_context p = Ok (es, c') -> concat (map e_bytes es) = p ->
  shape (running_after es) q delta k -> (exists x, x <> [] /\ q = q' ++ x) ->
  decode_events env new_context (p ++ q') = Ok (es, c').
Proof. exact incomplete_dropped. Qed.
Print Assumptions C21_incomplete_event_dropped.

(** C21, findings: a track whose last event (FF 51 03 07) is incomplete, and a chunk header without its
    chunk at the end of the file, are both accepted. *)
Theorem C21_truncation_refuted : exists s1 s2,
  decode default_env (single_header ++ sample_track [0; 144; 60; 100; 0; 255; 81; 3; 7]) = Ok s1 /\
  map (fun t => length (t_events t)) (f_tracks s1) = [1%nat] /\
  decode default_env (sample_file ++ [77; 84; 114; 107; 0; 0; 0; 52]) = Ok s2 /\
  decode default_env sample_file = Ok s2.
Proof. witness. Qed.
Print Assumptions C21_truncation_refuted.
