(** * RoutesSamples: a file for which both ways agree, and files for which they do not. *)
From Verif Require Import Base Strings Tables Event Track File SpecText SpecAssemble SpecRead SpecJson Disassemble TextAssemble Json Samples SampleProofs ReadSamples ReassembleSamples JsonProofs JsonFileProofs JsonSamples SpecRoutes.

(** A track that ends after a message *)
Definition message_last : bytes := [77; 84; 104; 100; 0; 0; 0; 6; 0; 0; 0; 1; 1; 224] ++ sample_track [0; 240; 4; 67; 1; 2; 247].

Definition no_message (b : body) : Prop := match b with SysExMessage _ _ _ => False | _ => True end.
Definition single (e : event) : bool := match e_body e with SysExMessage _ _ false | SysExContinuation _ _ => false | _ => true end.

Lemma sample_quiet : Forall (fun t => ~ ends_in_message (t_events t) /\ unsplit (t_events t)) (f_tracks sample_smf).
Proof.
  let x := eval vm_compute in (f_tracks sample_smf) in assert (X : f_tracks sample_smf = x) by (vm_compute; reflexivity). rewrite X.
  assert (A : forall t es b, t_events t = es -> last (map e_body es) EndOfTrack = b -> no_message b -> forallb single es = true -> ~ ends_in_message (t_events t) /\ unsplit (t_events t)).
  { intros t es b -> L N SI. split.
    - intros (a & e & m & d & E & B). rewrite E, map_app in L. cbn [map] in L. rewrite last_last, B in L. subst b. exact N.
    - apply Forall_forall. intros e I. rewrite forallb_forall in SI. specialize (SI e I). unfold single in SI. split; [intros (d & f & E)|intros m d E]; rewrite E in SI; discriminate SI. }
  repeat (apply Forall_cons; [eapply A; [reflexivity|reflexivity|exact I|reflexivity]|]). apply Forall_nil.
Qed.

Definition again (file : bytes) : outcome bytes := do s <- decode default_env file; encode s.
Definition bytes_of (o : outcome bytes) : bytes := match o with Ok b => b | _ => [] end.

(** Text and document differ: text in another encoding, a message at the very end *)
Lemma routes_differ : exists a b t1 t2 j1 j2, through_text a = Ok t1 /\ through_json a = Ok j1 /\ t1 <> j1 /\ bodies (decode default_env a) = [[TextEvent KText [67; 97; 102; 233]; EndOfTrack]] /\
  through_text b = Ok t2 /\ through_json b = Ok j2 /\ t2 <> j2 /\ j2 = b /\ bodies (decode default_env b) = [[SysExMessage (Manufacturer [67] (str "Japanese") (str "Yamaha")) [1; 2] true]].
Proof.
  exists latin1, message_last, (bytes_of (through_text latin1)), (bytes_of (through_text message_last)), (bytes_of (through_json latin1)), (bytes_of (through_json message_last)).
  split; [vm_compute; reflexivity|]. split; [vm_compute; reflexivity|]. split; [vm_compute; discriminate|]. split; [vm_compute; reflexivity|].
  split; [vm_compute; reflexivity|]. split; [vm_compute; reflexivity|]. split; [vm_compute; discriminate|]. split; vm_compute; reflexivity.
Qed.

(** A message in packets with a note between them: both agree, but not with the file written again. *)
Lemma packets_rewritten : exists file x y, through_text file = Ok x /\ through_json file = Ok x /\ again file = Ok y /\ x <> y /\ zlen x <> zlen y.
Proof.
  exists interleaved, (bytes_of (through_text interleaved)), (bytes_of (again interleaved)).
  split; [vm_compute; reflexivity|]. split; [vm_compute; reflexivity|]. split; [vm_compute; reflexivity|]. split; vm_compute; discriminate.
Qed.
