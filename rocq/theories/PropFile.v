(** * Files: C05 - C07, C16, C51, C53.  Theorems only; proofs in FileProofs.v and EncodeProofs.v. *)
From Coq Require Import Permutation.
From Verif Require Import Base Strings Tables SpecVlq Vlq Event SpecEvent SpecFile Marshal Parse Track File SpecTrack
  EncodeProofs FileProofs Samples SampleProofs LossSamples.

(** C05.  [header_bytes] (SpecFile.v) describes the 14 bytes; [c] is the first chunk of any input. *)
Theorem C05_header : forall r c rest, is_bytes r -> next_chunk r = Ok (c, rest) ->
  (forall hf, header_bytes c hf <-> exists h, unmarshal_mthd c = Ok h /\ fields_of h = hf) /\
  (forall h, unmarshal_mthd c = Ok h -> marshal_mthd h = c /\ h_bytes h = c) /\
  unmarshal_mthd c <> Panic.
Proof. exact header_exact. Qed.
Print Assumptions C05_header.

Example C05_example : is_bytes sample_file /\ exists rest h,
  next_chunk sample_file = Ok (sample_header, rest) /\ unmarshal_mthd sample_header = Ok h /\
  fields_of h = HF 1 2 480 480 None /\
  (exists h2, unmarshal_mthd [77; 84; 104; 100; 0; 0; 0; 6; 0; 1; 0; 2; 227; 80] = Ok h2 /\
     fields_of h2 = HF 1 2 58192 0 (Some (29, true, 80))) /\
  unmarshal_mthd [77; 84; 104; 100; 0; 0; 0; 6; 0; 3; 0; 2; 1; 224] = Err.
Proof.
  split; [repeat constructor; discriminate|]. eexists. eexists. split; [reflexivity|]. split; [reflexivity|]. split; [reflexivity|].
  split; [|reflexivity]. eexists. split; reflexivity.
Qed.

(** C06.  [file_bytes] (SpecFile.v): a sequence of chunks with correct lengths; [track_bytes] (SpecEvent.v): the
    grammar of a track payload. *)
Theorem C06_framing : forall s bs, encode s = Ok bs -> Forall (fun t => t_tag t = tag_mtrk) (f_tracks s) ->
  exists h hdr tracks bodies, f_mthd s = Some h /\ bs = hdr ++ tracks /\ h_tracks h = zlen (f_tracks s) /\
    (legal_mthd h -> exists hf, header_bytes hdr hf /\ hf_format hf = h_format h /\
       hf_tracks hf = zlen (f_tracks s) /\ hf_division hf = h_division h) /\
    Forall2 (fun t body => legal_events (t_events t) -> track_bytes 0 false (map ev_view (t_events t)) body) (f_tracks s) bodies /\
    (Forall (fun body => zlen body < 4294967296) bodies ->
     file_bytes (map (fun body => (tag_mtrk, body)) bodies) tracks).
Proof. exact encode_wellformed. Qed.
Print Assumptions C06_framing.

Example C06_example : exists bs h, encode sample_smf = Ok bs /\ Forall (fun t => t_tag t = tag_mtrk) (f_tracks sample_smf) /\
  f_mthd sample_smf = Some h /\ legal_mthd h /\ zlen bs = 98.
Proof.
  destruct sample_tracks as (h & t0 & t1 & E1 & E2 & L & _ & T0 & _ & _ & T1 & _).
  eexists. exists h. split; [vm_compute; reflexivity|]. split; [rewrite E2; repeat constructor; assumption|].
  split; [assumption|]. split; [assumption|reflexivity].
Qed.

(** C07. *)
Theorem C07_unknown_chunks : forall env first items r r',
  file_bytes (first :: items) r -> file_bytes (first :: filter is_mtrk items) r' -> decode env r = decode env r'.
Proof. exact decode_skips. Qed.
Print Assumptions C07_unknown_chunks.

Theorem C07_tracks_in_order : forall env tag0 payload0 items r s,
  file_bytes ((tag0, payload0) :: items) r -> decode env r = Ok s ->
  exists h w0, chunk_bytes tag0 payload0 w0 /\ unmarshal_mthd w0 = Ok h /\ f_mthd s = Some h /\
    h_tracks h = zlen (filter is_mtrk items) /\
    length (f_tracks s) = length (filter is_mtrk items) /\
    forall i tag payload, nth_error (filter is_mtrk items) i = Some (tag, payload) ->
      exists w t, chunk_bytes tag payload w /\ nth_error (f_tracks s) i = Some t /\
        unmarshal_mtrk env (Z.of_nat i) new_context w = Ok t.
Proof. exact decode_each. Qed.
Print Assumptions C07_tracks_in_order.

(** The sample file with a junk chunk after the header. *)
Example C07_example : exists r s, r = sample_header ++ sample_junk ++ sample_track sample_body0 ++ sample_track sample_body1 /\
  decode default_env r = Ok s /\ decode default_env sample_file = Ok s /\
  file_bytes [(str "MThd", [0; 1; 0; 2; 1; 224]); (str "XYZw", [1; 2; 3]); (str "MTrk", sample_body0); (str "MTrk", sample_body1)] r.
Proof.
  eexists. eexists. split; [reflexivity|]. split; [vm_compute; reflexivity|]. split; [vm_compute; reflexivity|].
  apply (file_cons _ _ sample_header); [apply (chunk_intro 77 84 104 100 0 0 0 6); try lia; reflexivity|].
  apply (file_cons _ _ sample_junk); [apply (chunk_intro 88 89 90 119 0 0 0 3); try lia; reflexivity|].
  apply (file_cons _ _ (sample_track sample_body0)); [apply (chunk_intro 77 84 114 107 0 0 0 16); try lia; reflexivity|].
  rewrite <- (app_nil_r (sample_track sample_body1)).
  apply (file_cons _ _ (sample_track sample_body1)); [apply (chunk_intro 77 84 114 107 0 0 0 52); try lia; reflexivity|constructor].
Qed.

(** C16, full statement: for every file of well-formed events.  False for the same events as C14; proved for
    all others. *)
Theorem C16_file_roundtrip_partial : forall env s h bs, legal_smf s -> f_mthd s = Some h ->
  Forall (fun t => faithful_events env (t_events t)) (f_tracks s) ->
  encode s = Ok bs -> zlen bs < 4294967296 ->
  exists s' h', decode env bs = Ok s' /\ f_mthd s' = Some h' /\ same_header h h' /\
    map (fun t => map ev_view (t_events t)) (f_tracks s') = map (fun t => contents (t_events t)) (f_tracks s).
Proof. exact file_roundtrip. Qed.
Print Assumptions C16_file_roundtrip_partial.

(** Legal files can be encoded. *)
Theorem C16_encodable : forall s, legal_smf s -> exists bs, encode s = Ok bs.
Proof. exact encode_legal. Qed.
Print Assumptions C16_encodable.

Example C16_example : legal_smf sample_smf /\ Forall (fun t => faithful_events default_env (t_events t)) (f_tracks sample_smf) /\
  exists h bs, f_mthd sample_smf = Some h /\ encode sample_smf = Ok bs /\ zlen bs = 98.
Proof.
  split; [apply sample_legal|]. split; [apply sample_legal|]. eexists. eexists. split; [vm_compute; reflexivity|].
  split; [vm_compute; reflexivity|reflexivity].
Qed.

(** C16, finding: so it is with the file of that track. *)
Theorem C16_text_refuted : exists s bs s', decode default_env loud_file = Ok s /\
  map (fun t => map ev_view (t_events t)) (f_tracks s) = [[(0, CText KText loud_text); (0, CEndOfTrack)]] /\ encode s = Ok bs /\ decode default_env bs = Ok s' /\
  map (fun t => map ev_view (t_events t)) (f_tracks s') = [(0, CText KText []) :: repeat (0, CNoteOn 0 60 64) 64 ++ [(0, CEndOfTrack)]].
Proof. witness. Qed.
Print Assumptions C16_text_refuted.

(** C51, full statement: for every decodable file.
      decode env b0 = Ok s -> encode s = Ok b1 -> exists s', decode env b1 = Ok s' /\ the same events
    False (below).  Proved: for files whose decoded form is legal; then encoding again also gives the
    same bytes. *)
Theorem C51_reencoding_partial : forall env b0 s b1, decode env b0 = Ok s -> legal_smf s ->
  Forall (fun t => faithful_events env (t_events t)) (f_tracks s) ->
  encode s = Ok b1 -> zlen b1 < 4294967296 ->
  exists s' h h', decode env b1 = Ok s' /\ f_mthd s = Some h /\ f_mthd s' = Some h' /\ same_header h h' /\
    map (fun t => map ev_view (t_events t)) (f_tracks s') = map (fun t => map ev_view (t_events t)) (f_tracks s) /\
    encode s' = Ok b1.
Proof. exact reencode_stable. Qed.
Print Assumptions C51_reencoding_partial.

Example C51_example : decode default_env sample_file = Ok sample_smf /\ legal_smf sample_smf /\
  exists b1, encode sample_smf = Ok b1 /\ b1 = sample_file.
Proof. split; [vm_compute; reflexivity|]. split; [apply sample_legal|]. eexists. split; [vm_compute; reflexivity|reflexivity]. Qed.

(** C51, finding: pitch bends do not reach a fixed point after one step: 8192, 4096, 2048. *)
Theorem C51_pitch_bend_refuted : exists b0 s b1 s1 b2 s2, decode default_env b0 = Ok s /\ encode s = Ok b1 /\
  decode default_env b1 = Ok s1 /\ encode s1 = Ok b2 /\ decode default_env b2 = Ok s2 /\
  map (fun s => map (fun t => map (fun e => view (e_body e)) (t_events t)) (f_tracks s)) [s; s1; s2] =
  [[[CBend 0 8192; CEndOfTrack]]; [[CBend 0 4096; CEndOfTrack]]; [[CBend 0 2048; CEndOfTrack]]].
Proof.
  exists [77; 84; 104; 100; 0; 0; 0; 6; 0; 0; 0; 1; 1; 224; 77; 84; 114; 107; 0; 0; 0; 8; 0; 224; 64; 0; 0; 255; 47; 0].
  witness.
Qed.
Print Assumptions C51_pitch_bend_refuted.

(** C51, finding: a SysEx message in two packets followed by another SysEx message decodes, but what is
    then encoded does not: the terminating F7 is lost. *)
Theorem C51_sysex_refuted : exists b0 s b1, decode default_env b0 = Ok s /\ encode s = Ok b1 /\ decode default_env b1 = Err.
Proof.
  exists [77; 84; 104; 100; 0; 0; 0; 6; 0; 0; 0; 1; 1; 224; 77; 84; 114; 107; 0; 0; 0; 20;
          0; 240; 2; 67; 1; 0; 247; 2; 2; 247; 0; 240; 3; 67; 1; 247; 0; 255; 47; 0].
  witness.
Qed.
Print Assumptions C51_sysex_refuted.

(** C53. *)
Theorem C53_tracks_independent : forall env first first' items items' r r' s s' i j item t t',
  file_bytes (first :: items) r -> file_bytes (first' :: items') r' ->
  decode env r = Ok s -> decode env r' = Ok s' ->
  nth_error (filter is_mtrk items) i = Some item -> nth_error (filter is_mtrk items') j = Some item ->
  nth_error (f_tracks s) i = Some t -> nth_error (f_tracks s') j = Some t' ->
  same_track t t' /\ t_number t = Z.of_nat i /\ t_number t' = Z.of_nat j.
Proof. exact tracks_independent. Qed.
Print Assumptions C53_tracks_independent.

Theorem C53_tracks_permuted : forall env first items items' r r' s,
  file_bytes (first :: items) r -> file_bytes (first :: items') r' ->
  Permutation (filter is_mtrk items) (filter is_mtrk items') ->
  decode env r = Ok s -> exists s', decode env r' = Ok s' /\ f_mthd s' = f_mthd s.
Proof. exact tracks_permuted. Qed.
Print Assumptions C53_tracks_permuted.

Example C53_example : exists s s', decode default_env sample_file = Ok s /\
  decode default_env (sample_header ++ sample_track sample_body1 ++ sample_track sample_body0) = Ok s' /\
  map t_events (f_tracks s') = rev (map t_events (f_tracks s)).
Proof. witness. Qed.
