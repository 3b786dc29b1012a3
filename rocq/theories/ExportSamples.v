(** * ExportSamples: concrete files, what they are exported as and what their listings say. *)
From Verif Require Import Base Strings Tables Event Track File SpecText SpecEvent SpecTrack SpecTable SpecNote SpecRead SpecAssemble SpecJson SpecSurvive SpecLine SpecSource SpecExport Disassemble Regex Assemble TextAssemble AssembleProofs Json JsonText TextFileProofs SourceTextProofs Samples SampleProofs ReadSamples ReassembleSamples ListingProofs.

(** The text "Café" in Latin 1; the same with another letter in place of é. *)
Definition latin : bytes := file_of [0; 255; 1; 4; 67; 97; 102; 233].
Definition latin' : bytes := file_of [0; 255; 1; 4; 67; 97; 102; 232].
(** A complete message after a delta time of sixteen bytes, the first packet of a message after one of seventeen bytes. *)
Definition complete : bytes := file_of (repeat 128 15 ++ [0; 240; 4; 67; 1; 2; 247]).
Definition unfinished : bytes := file_of (repeat 128 16 ++ [0; 240; 3; 67; 1; 2]).

Definition smf_in (file : bytes) : smf := match decode default_env file with Ok s => s | _ => SMF None [] end.

(** A sequence of bytes that cannot stand at the start of a text is no character. *)
Lemma bad_latin : forall b, 224 <= b < 240 -> forall cp c x, utf8 cp c -> [b] <> c ++ x.
Proof. intros b B cp c x U E. inversion U; subst; cbn in E; injection E as E; try discriminate; lia. Qed.

Lemma latin_repaired : repaired [67; 97; 102; 233] [67; 97; 102; 239; 191; 189].
Proof.
  change (repaired ([67] ++ [97] ++ [102] ++ [233]) ([67] ++ [97] ++ [102] ++ [239; 191; 189])).
  repeat (eapply rp_char; [apply utf8_1; lia|]). apply rp_bad; [apply bad_latin; lia|constructor].
Qed.

(** ** Listings that do not say the file: a text of two lines; a marker with the text "Text A". *)

Definition two_lines_file : bytes := file_of two_lines.
Definition marker_file : bytes := file_of marker_text.
Definition listing_of (file : bytes) : bytes := match disassemble (smf_in file) with Ok t => t | _ => [] end.

(** A text of a header chunk and a track chunk says what the lines of the track chunk say. *)
Lemma one_track : forall says text a b c d f x ess, read_chunks text = Ok [a :: b; c :: d] -> ~ comment_line a -> ~ comment_line c -> ~ header_line c ->
  text_file says text f x ess -> exists es, ess = [es] /\ lines_say says d es.
Proof.
  intros says text a b c d f x ess R Na Nc Nh (lines & before & cs & hs & h & ts & LL & L & D & BF & HD & U & R1 & X & T).
  assert (E : read_chunks text = Ok cs) by (apply read_chunks_ok; split; [exact LL|]; exists lines, before; rewrite first_chunk; auto).
  rewrite R in E. apply Ok_inj in E. subst cs.
  assert (A : hs ++ h :: ts = [a :: b; c :: d]) by (eapply uncommented_one; [exact U|apply uc_chunk; [exact Na|apply uc_chunk; [exact Nc|constructor]]]).
  destruct hs as [|h1 hs].
  - injection A as _ ->. inversion T as [|? es ? r (l & r0 & Q & _ & _ & S0) T']; subst. inversion T'; subst. injection Q as <- <-. exists es. auto.
  - exfalso. injection A as _ A. destruct hs as [|h2 hs]; [|injection A as _ A; destruct hs; discriminate].
    injection A as -> _. destruct X as (l & r & Q & HL & _). injection Q as <- <-. exact (Nh HL).
Qed.

Lemma occurs_short : forall a b, occurs a b -> (length a <= length b)%nat.
Proof. intros a b (p & q & ->). rewrite !app_length. lia. Qed.

Lemma kind_long : forall b, (1 < length (kind_name b))%nat.
Proof. intros []; try (vm_compute; lia). destruct k; vm_compute; lia. Qed.

Lemma says_nothing : exists file s text, decode default_env file = Ok s /\ (forall h, f_mthd s = Some h -> h_smpte h = false) /\ disassemble s = Ok text /\
  map (fun t => map e_body (t_events t)) (f_tracks s) = [[TextEvent KText [65; 10; 66]; EndOfTrack]] /\ forall table f d ess, ~ text_file (line_says table) text f d ess.
Proof.
  exists two_lines_file, (smf_in two_lines_file), (listing_of two_lines_file). split; [vm_compute; reflexivity|]. split; [intros h [= <-]; reflexivity|]. split; [vm_compute; reflexivity|].
  split; [vm_compute; reflexivity|]. intros table f d ess T.
  let x := eval vm_compute in (read_chunks (listing_of two_lines_file)) in assert (R : read_chunks (listing_of two_lines_file) = x) by (vm_compute; reflexivity).
  apply (one_track _ _ _ _ _ _ _ _ _ R) in T as (es & _ & L).
  - inversion L as [| | |? e1 ? es1 _ _ _ L1]; subst; try match goal with H : comment_line _ |- _ => apply comment_is in H; discriminate | H : blank_line _ |- _ => apply blank_line_blank in H; vm_compute in H; discriminate end.
    inversion L1 as [| | |? e2 ? es2 _ _ S0 L2]; subst; try match goal with H : comment_line _ |- _ => apply comment_is in H; discriminate | H : blank_line _ |- _ => apply blank_line_blank in H; vm_compute in H; discriminate end.
    destruct S0 as ((O & _) & _). apply occurs_short in O. pose proof (kind_long (e_body e2)). cbn [length] in O. lia.
  - intro C. apply comment_is in C. discriminate.
  - intro C. apply comment_is in C. discriminate.
  - intro C. apply header_spec in C. discriminate.
Qed.

Lemma says_another : exists file s text, decode default_env file = Ok s /\ (forall h, f_mthd s = Some h -> h_smpte h = false) /\ disassemble s = Ok text /\
  map (fun t => map e_body (t_events t)) (f_tracks s) = [[TextEvent KMarker (str "Text A"); EndOfTrack]] /\
  forall table f d ess, text_file (line_says table) text f d ess -> exists e e', ess = [[e; e']] /\ forall text, e_body e <> TextEvent KMarker text.
Proof.
  exists marker_file, (smf_in marker_file), (listing_of marker_file). split; [vm_compute; reflexivity|]. split; [intros h [= <-]; reflexivity|]. split; [vm_compute; reflexivity|].
  split; [vm_compute; reflexivity|]. intros table f d ess T.
  let x := eval vm_compute in (read_chunks (listing_of marker_file)) in assert (R : read_chunks (listing_of marker_file) = x) by (vm_compute; reflexivity).
  apply (one_track _ _ _ _ _ _ _ _ _ R) in T as (es & -> & L).
  - inversion L as [| | |? e1 ? es1 _ _ S0 L1]; subst; try match goal with H : comment_line _ |- _ => apply comment_is in H; discriminate | H : blank_line _ |- _ => apply blank_line_blank in H; vm_compute in H; discriminate end.
    inversion L1 as [| | |? e2 ? es2 _ _ _ L2]; subst; try match goal with H : comment_line _ |- _ => apply comment_is in H; discriminate | H : blank_line _ |- _ => apply blank_line_blank in H; vm_compute in H; discriminate end.
    inversion L2; subst. exists e1, e2. split; [reflexivity|]. intros txt E. destruct S0 as ((_ & N) & _). rewrite E in N. refine (N (str "Text") _ _).
    + exists 1%nat, 6%nat. split; [lia|]. split; reflexivity.
    + apply contains_spec. vm_compute. reflexivity.
  - intro C. apply comment_is in C. discriminate.
  - intro C. apply comment_is in C. discriminate.
  - intro C. apply header_spec in C. discriminate.
Qed.

(** ** Files that cannot be told apart *)

Lemma sample_listed : Forall (fun t => Forall (fun e => ~ misleading (e_body e) /\ line_safe (e_body e) /\ readable manufacturers (e_body e)) (t_events t)) (f_tracks sample_smf).
Proof. eapply Forall_impl; [|exact sample_track_readable]. intros t [_ R]. eapply Forall_impl; [|exact R]. intros e (A & B & C). split; [exact A|]. split; [exact B|exact (C 0%nat 0%nat)]. Qed.

(** Two notes with and without running status *)
Definition running : bytes := file_of [0; 144; 60; 64; 0; 60; 0].
Definition not_running : bytes := file_of [0; 144; 60; 64; 0; 144; 60; 0].
Lemma same_document_sample : exists r r' s s', r <> r' /\ decode default_env r = Ok s /\ decode default_env r' = Ok s' /\ export_json s = export_json s' /\
  Forall (fun t => Forall (fun e => valid_text (e_body e)) (t_events t)) (f_tracks s ++ f_tracks s').
Proof.
  exists running, not_running, (smf_in running), (smf_in not_running). split; [discriminate|]. split; [vm_compute; reflexivity|]. split; [vm_compute; reflexivity|]. split; [vm_compute; reflexivity|].
  vm_compute. repeat constructor.
Qed.

Lemma same_latin : exists s s', decode default_env latin = Ok s /\ decode default_env latin' = Ok s' /\
  map (fun t => map e_body (t_events t)) (f_tracks s) = [[TextEvent KText [67; 97; 102; 233]; EndOfTrack]] /\
  map (fun t => map e_body (t_events t)) (f_tracks s') = [[TextEvent KText [67; 97; 102; 232]; EndOfTrack]] /\ export_json s = export_json s'.
Proof. exists (smf_in latin), (smf_in latin'). witness. Qed.

Lemma same_packets : exists s s' text, decode default_env complete = Ok s /\ decode default_env unfinished = Ok s' /\ disassemble s = Ok text /\ disassemble s' = Ok text /\
  map (fun t => map e_body (t_events t)) (f_tracks s) = [[SysExMessage (Manufacturer [67] (str "Japanese") (str "Yamaha")) [1; 2] true; EndOfTrack]] /\
  map (fun t => map e_body (t_events t)) (f_tracks s') = [[SysExMessage (Manufacturer [67] (str "Japanese") (str "Yamaha")) [1; 2] false; EndOfTrack]].
Proof. exists (smf_in complete), (smf_in unfinished), (listing_of complete). witness. Qed.
