(** * TransposeFileProofs: transposition of decoded files, composition, keys and scales. *)
From Verif Require Import Base Strings Tables SpecVlq Vlq Event SpecEvent Marshal Parse Track File SpecTrack SpecKey SpecTranspose SpecDecoded
  VlqProofs ParseProofs EncodeProofs FileProofs DecodedProofs Transpose TransposeProofs.

(** ** Decoded files *)

Lemma decoded_movable : forall env r s, is_bytes r -> decode env r = Ok s ->
  Forall (fun t => Forall note_bytes (t_events t)) (f_tracks s) /\
  Forall (fun t => t_ctx t <> None /\ Forall proper_key (t_events t)) (f_tracks s).
Proof.
  intros env r s Hr H. pose proof (decoded_file env r s Hr H) as F.
  assert (E : forall es, Forall (fun e => legal_header e /\ 0 <= e_delta e < 4294967296 /\ decoded_body env (e_body e)) es ->
    Forall note_bytes es /\ Forall proper_key es).
  { intros es G. split; (eapply Forall_impl; [|exact G]); intros e (_ & _ & D); unfold note_bytes, proper_key; destruct (e_body e); auto; try (cbn in D; lia).
    destruct D as (K & minor & -> & _). split; [exact K|]. destruct minor; auto. }
  split; (eapply Forall_impl; [|exact F]); intros t (_ & [c Hc] & G); apply E in G; [apply G|].
  split; [congruence|apply G].
Qed.

Theorem transpose_decoded : forall env n r s, is_bytes r -> decode env r = Ok s -> reasonable n ->
  exists s', transpose_smf env n s = Ok s' /\ moved_file n s s'.
Proof.
  intros env n r s Hr H Hn. destruct (decoded_movable env r s Hr H) as [F1 F2]. destruct (transpose_total env n s F2 Hn) as [s' E].
  exists s'. split; [exact E|]. apply (transpose_file env n s s'); assumption.
Qed.

(** ** Through the file *)

Lemma limited_range : forall v, 0 <= limited v <= 127.
Proof. intro v. unfold limited. lia. Qed.

Lemma moved_legal : forall n e e', moved n e e' -> legal_event e -> legal_event e'.
Proof.
  intros n e e' M (H1 & H2 & H3). destruct M; unfold legal_event, legal_header in *; cbn [e_body e_delta e_status e_type legal_body] in *; auto.
  - split; [exact I|]. split; [assumption|]. rewrite H. pose proof (limited_range (n_value nt + n)). lia.
  - split; [exact I|]. split; [assumption|]. rewrite H. pose proof (limited_range (n_value nt + n)). lia.
  - split; [auto|]. split; [assumption|]. unfold key_range in *. split; [assumption|]. apply H3.
Qed.

Lemma moved_sequence : forall n es es' op, Forall2 (moved n) es es' -> sysex_sequence op (map e_body es) -> sysex_sequence op (map e_body es').
Proof.
  intros n es es' op F. revert op. induction F as [|e e' es es' M F IH]; intros op H; [exact I|]. cbn [map] in *.
  destruct M; cbn [e_body sysex_sequence] in *; auto. destruct (e_body e); cbn [sysex_sequence] in *; try contradiction; auto; tauto || (destruct H; split; auto).
Qed.

Lemma two_length : forall A B (P : A -> B -> Prop) l l', Forall2 P l l' -> length l = length l'.
Proof. intros A B P l l' H. induction H; cbn [length]; auto. Qed.

Lemma moved_smf_legal : forall n s s', moved_file n s s' -> legal_smf s -> legal_smf s'.
Proof.
  intros n s s' [H1 H2] [L1 L2]. split.
  - rewrite H1. destruct (f_mthd s); [|contradiction]. destruct L1 as [L1 L3]. split; [exact L1|].
    unfold zlen in *. rewrite <- (two_length _ _ _ _ _ H2). exact L3.
  - clear H1 L1. induction H2 as [|t t' ts ts' (T1 & T2 & T3) F IH]; [constructor|]. inversion L2 as [|? ? [_ [G1 G2]] L2']; subst.
    constructor; [|auto]. split; [exact T1|]. split; [|eapply moved_sequence; eassumption].
    clear - T3 G1. induction T3; constructor; inversion G1; subst; auto. eapply moved_legal; eassumption.
Qed.

Lemma moved_faithful : forall env n s s', moved_file n s s' -> Forall (fun t => faithful_events env (t_events t)) (f_tracks s) ->
  Forall (fun t => faithful_events env (t_events t)) (f_tracks s').
Proof.
  intros env n s s' [_ H] F. induction H as [|t t' ts ts' (_ & _ & M) H IH]; [constructor|]. inversion F as [|? ? G F']; subst.
  constructor; [|auto]. clear - M G. unfold faithful_events in *. induction M as [|e e' es es' M _ IH]; [constructor|]. inversion G; subst.
  constructor; [|auto]. destruct M; cbn [e_body view ids_faithful] in *; auto.
Qed.

Lemma moved_views : forall n s s', moved_file n s s' -> moved_contents n (smf_contents s) (smf_contents s').
Proof.
  intros n s s' [_ H]. unfold moved_contents, smf_contents. induction H as [|t t' ts ts' (_ & _ & M) H IH]; [constructor|]. cbn [map].
  constructor; [|exact IH]. clear - M. induction M as [|e e' es es' M _ IH]; [constructor|]. cbn [map]. constructor; [|exact IH].
  destruct M; unfold ev_view; cbn [e_delta e_body view fst snd].
  - split; [reflexivity|]. rewrite H. constructor.
  - split; [reflexivity|]. rewrite H. constructor.
  - split; [reflexivity|]. econstructor; eassumption.
  - split; [reflexivity|]. apply mc_same. destruct (e_body e); auto.
Qed.

(** Events of a transposed decoded file: no end flags, so nothing is forgotten. *)
Lemma moved_keeps_end : forall env n r s s', is_bytes r -> decode env r = Ok s -> moved_file n s s' ->
  map (fun t => contents (t_events t)) (f_tracks s') = smf_contents s'.
Proof.
  intros env n r s s' Hr H [_ M]. pose proof (decoded_file env r s Hr H) as F. unfold smf_contents.
  induction M as [|t t' ts ts' (_ & _ & M) H' IH]; [reflexivity|]. inversion F as [|? ? (_ & _ & G) F']; subst. cbn [map]. f_equal; [|auto].
  clear - M G. unfold contents. induction M as [|e e' es es' M _ IH]; [reflexivity|]. inversion G as [|? ? (_ & _ & D) G']; subst.
  cbn [map]. f_equal; [|auto]. unfold ev_view. destruct M; cbn [e_delta e_body view forget_end]; try reflexivity.
  destruct (e_body e); try reflexivity. cbn in D. destruct D as [_ ->]. reflexivity.
Qed.

Theorem transpose_written : forall env n r s, is_bytes r -> decode env r = Ok s -> legal_smf s ->
  Forall (fun t => faithful_events env (t_events t)) (f_tracks s) -> reasonable n ->
  exists bs, transpose_execute env n s = Ok bs /\
    (zlen bs < 4294967296 -> exists s2 h h2, decode env bs = Ok s2 /\ f_mthd s = Some h /\ f_mthd s2 = Some h2 /\ same_header h h2 /\
       moved_contents n (smf_contents s) (smf_contents s2)).
Proof.
  intros env n r s Hr H L F Hn. destruct (transpose_decoded env n r s Hr H Hn) as (s1 & E & M).
  pose proof (moved_smf_legal n s s1 M L) as L1. pose proof (moved_faithful env n s s1 M F) as F1.
  destruct (encode_legal s1 L1) as [bs B]. exists bs. unfold transpose_execute. rewrite E. cbn [bind]. split; [exact B|]. intro Hz.
  destruct L1 as [L1 L1']. destruct (f_mthd s1) as [h|] eqn:Hm; [|contradiction].
  destruct (file_roundtrip env s1 h bs) as (s2 & h2 & D & Hm2 & SH & C); auto.
  { split; [rewrite Hm; exact L1|exact L1']. }
  exists s2, h, h2. split; [exact D|]. destruct M as [M1 M2]. rewrite <- M1. split; [exact Hm|]. split; [exact Hm2|]. split; [exact SH|].
  assert (M : moved_file n s s1) by (split; assumption).
  replace (smf_contents s2) with (smf_contents s1); [apply moved_views; exact M|].
  rewrite <- (moved_keeps_end env n r s s1 Hr H M). symmetry. exact C.
Qed.

(** ** Composition *)

Lemma moved_content_compose : forall a b x y z, fits a x -> moved_content a x y -> moved_content b y z -> moved_content (a + b) x z.
Proof.
  intros a b x y z F M1 M2. destruct M1; inversion M2; subst; try contradiction; cbn [fits] in F.
  - replace (limited (limited (k + a) + b)) with (limited (k + (a + b))) by (unfold limited; lia). constructor.
  - replace (limited (limited (k + a) + b)) with (limited (k + (a + b))) by (unfold limited; lia). constructor.
  - assert (minor0 = minor) by (destruct minor0, minor; congruence). subst minor0. eapply mc_key; [reflexivity|assumption|].
    match goal with E : tonic_class minor ?x = (tonic_class minor acc' + b) mod 12 |- _ => rewrite E end. rewrite H1. rewrite Zplus_mod_idemp_l. f_equal. lia.
  - apply mc_same. assumption.
Qed.

Lemma moved_contents_compose : forall a b X Y Z, Forall (Forall (fun x => fits a (snd x))) X ->
  moved_contents a X Y -> moved_contents b Y Z -> moved_contents (a + b) X Z.
Proof.
  unfold moved_contents. intros a b X Y Z F M. revert Z F. induction M as [|x y X Y M1 M IH]; intros Z F N; inversion N as [|? z ? ? N1 N']; subst; constructor.
  - inversion F as [|? ? F1 F']; subst. clear - F1 M1 N1. revert z F1 N1. induction M1 as [|u v x y [D M1] _ IH]; intros z F N; inversion N as [|? w ? ? [E N1] N']; subst; constructor.
    + split; [congruence|]. inversion F; subst. eapply moved_content_compose; eassumption.
    + inversion F; subst. auto.
  - inversion F; subst. auto.
Qed.

(** ** Legality is a matter of contents *)

Lemma fixup_bytes : forall cs last, Forall (fun c => is_bytes (fst c) /\ is_bytes (snd c)) cs -> is_bytes (flatten (running_status_fixup last cs)).
Proof.
  unfold flatten. induction cs as [|[d e] cs IH]; intros last F; [constructor|]. inversion F as [|? ? [F1 F2] F']; subst. cbn [fst snd] in *.
  cbn [running_status_fixup]. cbv zeta. set (e' := match last with Some _ => _ | None => _ end).
  assert (B : is_bytes e').
  { unfold e'. destruct last; [|exact F2]. destruct (_ && _); [|exact F2]. destruct e; [exact F2|]. cbn [tl]. inversion F2. assumption. }
  clearbody e'. cbn [map concat fst snd]. apply is_bytes_app. split; [apply is_bytes_app; split; assumption|]. apply IH. exact F'.
Qed.

Lemma marshal_events_bytes : forall es cs, Forall legal_event es -> marshal_events es = Ok cs -> Forall (fun c => is_bytes (fst c) /\ is_bytes (snd c)) cs.
Proof.
  induction es as [|e es IH]; intros cs F H; cbn [marshal_events] in H.
  - apply Ok_inj in H. subst. constructor.
  - inversion F as [|? ? L F']; subst. destruct (marshal_form e L) as (b & E & EF). rewrite E in H. cbn [bind] in H.
    destruct (marshal_events es) as [cs'| | | |]; try discriminate. cbn [bind] in H. apply Ok_inj in H. subst cs. constructor; [|auto].
    cbn [fst snd]. split; [apply vlq_encode_is_bytes; apply L|]. destruct EF; assumption.
Qed.

Lemma be32_is_bytes : forall v, is_bytes (be32 v).
Proof. intro v. unfold be32. repeat (apply is_byte_cons; [unfold is_byte; apply Z.mod_pos_bound; lia|]). constructor. Qed.
Lemma be16_is_bytes : forall v, is_bytes (be16 v).
Proof. intro v. unfold be16. repeat (apply is_byte_cons; [unfold is_byte; apply Z.mod_pos_bound; lia|]). constructor. Qed.

Lemma encode_bytes : forall s bs, legal_smf s -> encode s = Ok bs -> is_bytes bs.
Proof.
  intros s bs [L1 L2] H. unfold encode in H. destruct (f_mthd s) as [h|]; [|contradiction]. destruct (negb _); [discriminate|].
  destruct (encode_tracks (f_tracks s)) as [tb| | | |] eqn:E; try discriminate. cbn [bind] in H. apply Ok_inj in H. subst bs.
  assert (T : is_bytes (str "MTrk") /\ is_bytes (str "MThd")) by (split; repeat constructor; discriminate).
  apply is_bytes_app. split.
  - destruct L1 as [(Ht & _) _]. unfold marshal_mthd. rewrite Ht. repeat (apply is_bytes_app; split); try apply be16_is_bytes; try apply be32_is_bytes. apply T.
  - clear L1. revert tb E. induction L2 as [|t ts [T1 [T2 _]] _ IH]; intros tb E; cbn [encode_tracks] in E.
    + apply Ok_inj in E. subst. constructor.
    + unfold encode_mtrk in E. destruct (marshal_events (t_events t)) as [cs| | | |] eqn:M; try discriminate. cbn [bind] in E.
      destruct (encode_tracks ts) as [tb'| | | |]; try discriminate. cbn [bind] in E. apply Ok_inj in E. subst tb.
      rewrite T1. repeat (apply is_bytes_app; split); try apply be32_is_bytes; [apply T| |apply IH; reflexivity].
      apply fixup_bytes. eapply marshal_events_bytes; eassumption.
Qed.

(** The conditions of [legal_body] on the content. *)
Lemma legal_body_view : forall b b', view b = view b' -> legal_body b -> legal_body b'.
Proof.
  intros b b' E H. destruct b, b'; cbn [view] in E; try discriminate E; cbn [legal_body] in *;
  repeat match goal with E : ?f _ = ?g _ |- _ => injection E; clear E; intros end; subst;
  try match goal with H : n_value _ = n_value _ |- _ => rewrite <- H in * end;
  try match goal with H : c_id _ = c_id _ |- _ => rewrite <- H in * end;
  try match goal with H : m_id _ ++ _ = m_id _ ++ _ |- _ => rewrite <- H in * end; auto.
Qed.

Lemma sequence_view : forall es es' op, map ev_view es = map ev_view es' -> sysex_sequence op (map e_body es) -> sysex_sequence op (map e_body es').
Proof.
  induction es as [|e es IH]; intros [|e' es'] op E H; try discriminate E; [exact H|]. cbn [map] in E. injection E as E1 E2 E3.
  cbn [map] in *. destruct (e_body e), (e_body e'); cbn [view] in E2; try discriminate E2; cbn [sysex_sequence] in *; eauto.
  - injection E2 as _ <-. destruct H. split; eauto.
  - injection E2 as _ <-. destruct H. split; eauto.
  - destruct H. split; eauto.
Qed.

Lemma contents_legal : forall s s' h h', smf_contents s = smf_contents s' -> f_mthd s = Some h -> f_mthd s' = Some h' -> same_header h h' ->
  legal_smf s -> Forall (fun t => t_tag t = str "MTrk" /\ Forall legal_header (t_events t)) (f_tracks s') -> legal_smf s'.
Proof.
  intros s s' h h' E H H' S [L1 L2] F. split.
  - rewrite H'. rewrite H in L1. destruct L1 as [L1 L3]. destruct S as (S1 & S2 & S3 & S4 & S5). unfold legal_mthd in *. rewrite S1, S2, S3, S4, S5.
    split; [exact L1|]. rewrite L3. apply (f_equal (@length _)) in E. unfold smf_contents in E. rewrite !map_length in E. unfold zlen. rewrite E. reflexivity.
  - clear - E L2 F. unfold smf_contents in E. revert E L2 F. generalize (f_tracks s) (f_tracks s'). intros ts ts'. revert ts'.
    induction ts as [|t ts IH]; intros [|t' ts'] E L F; try discriminate E; [constructor|]. cbn [map] in E. injection E as E1 E2.
    inversion L as [|? ? [_ [L1 L1']] L2]; inversion F as [|? ? [F1 F1'] F2]; subst. constructor; [|auto]. split; [exact F1|].
    split; [|eapply sequence_view; eassumption]. clear - E1 L1 F1'. revert E1 L1 F1'. generalize (t_events t) (t_events t'). intros es es'. revert es'.
    induction es as [|e es IH]; intros [|e' es'] E L F; try discriminate E; [constructor|]. cbn [map] in E. injection E as E0 E1 E2.
    inversion L as [|? ? (L1 & L2 & L3) L4]; inversion F as [|? ? F1 F2]; subst. constructor; [|auto]. split; [exact F1|]. rewrite <- E0. split; [exact L2|].
    eapply legal_body_view; eassumption.
Qed.

Lemma contents_faithful : forall env s s', smf_contents s = smf_contents s' -> Forall (fun t => faithful_events env (t_events t)) (f_tracks s) ->
  Forall (fun t => faithful_events env (t_events t)) (f_tracks s').
Proof.
  intros env s s' E F. unfold smf_contents in E. revert E F. generalize (f_tracks s) (f_tracks s'). intros ts ts'. revert ts'.
  induction ts as [|t ts IH]; intros [|t' ts'] E F; try discriminate E; [constructor|]. cbn [map] in E. injection E as E1 E2. inversion F as [|? ? F1 F2]; subst.
  constructor; [|auto]. clear - E1 F1. unfold faithful_events in *. revert E1 F1. generalize (t_events t) (t_events t'). intros es es'. revert es'.
  induction es as [|e es IH]; intros [|e' es'] E F; try discriminate E; [constructor|]. cbn [map] in E. injection E as E0 E1 E2. inversion F; subst.
  constructor; [rewrite <- E1; assumption|auto].
Qed.

(** What is read back is again such a file. *)
Theorem transpose_legal : forall env n r s bs s2, is_bytes r -> decode env r = Ok s -> legal_smf s ->
  Forall (fun t => faithful_events env (t_events t)) (f_tracks s) -> reasonable n ->
  transpose_execute env n s = Ok bs -> zlen bs < 4294967296 -> decode env bs = Ok s2 ->
  is_bytes bs /\ legal_smf s2 /\ Forall (fun t => faithful_events env (t_events t)) (f_tracks s2).
Proof.
  intros env n r s bs s2 Hr H L F Hn E Hz D. destruct (transpose_decoded env n r s Hr H Hn) as (s1 & E1 & M).
  unfold transpose_execute in E. rewrite E1 in E. cbn [bind] in E.
  pose proof (moved_smf_legal n s s1 M L) as L1. pose proof (moved_faithful env n s s1 M F) as F1.
  pose proof (encode_bytes s1 bs L1 E) as B. split; [exact B|].
  assert (exists h, f_mthd s1 = Some h) as [h Hm] by (destruct L1 as [L1 _]; destruct (f_mthd s1); [eauto|contradiction]).
  destruct (file_roundtrip env s1 h bs L1 Hm F1 E Hz) as (s2' & h2 & D' & Hm2 & SH & C). assert (s2' = s2) by congruence. subst s2'.
  rewrite (moved_keeps_end env n r s s1 Hr H M) in C. symmetry in C. split; [|eapply contents_faithful; eassumption].
  eapply (contents_legal s1 s2 h h2); eauto. eapply Forall_impl; [|exact (decoded_file env bs s2 B D)]. intros t (T1 & _ & T3). split; [exact T1|].
  eapply Forall_impl; [|exact T3]. intros e X. apply X.
Qed.

(** Two transpositions with a file in between. *)
Theorem transpose_twice : forall env a b r s b1 s1 b2 s2, is_bytes r -> decode env r = Ok s -> legal_smf s ->
  Forall (fun t => faithful_events env (t_events t)) (f_tracks s) ->
  reasonable a -> reasonable b -> Forall (Forall (fun x => fits a (snd x))) (smf_contents s) ->
  transpose_execute env a s = Ok b1 -> zlen b1 < 4294967296 -> decode env b1 = Ok s1 ->
  transpose_execute env b s1 = Ok b2 -> zlen b2 < 4294967296 -> decode env b2 = Ok s2 ->
  moved_contents (a + b) (smf_contents s) (smf_contents s2).
Proof.
  intros env a b r s b1 s1 b2 s2 Hr H L F Ha Hb Hfit E1 Z1 D1 E2 Z2 D2.
  destruct (transpose_written env a r s Hr H L F Ha) as (b1' & E1' & K1). assert (b1' = b1) by congruence. subst b1'.
  destruct (K1 Z1) as (s1' & h & h2 & D1' & _ & _ & _ & M1). assert (s1' = s1) by congruence. subst s1'.
  destruct (transpose_legal env a r s b1 s1 Hr H L F Ha E1 Z1 D1) as (B1 & L1 & F1).
  destruct (transpose_written env b b1 s1 B1 D1 L1 F1 Hb) as (b2' & E2' & K2). assert (b2' = b2) by congruence. subst b2'.
  destruct (K2 Z2) as (s2' & _ & _ & D2' & _ & _ & _ & M2). assert (s2' = s2) by congruence. subst s2'.
  eapply moved_contents_compose; eassumption.
Qed.

(** Nothing is clipped: every note is restored by the opposite step. *)
Lemma moved_back : forall x y, fits 0 x -> moved_content 0 x y ->
  match x with CKeySig acc kt => exists acc', y = CKeySig acc' kt /\ key_range acc' /\
      forall minor : bool, kt = (if minor then 1 else 0) -> tonic_class minor acc' = tonic_class minor acc | _ => y = x end.
Proof.
  intros x y F M. destruct M; cbn [fits] in F.
  - f_equal. unfold limited. lia.
  - f_equal. unfold limited. lia.
  - exists acc'. split; [reflexivity|]. split; [assumption|]. intros m Hm. assert (m = minor) by (destruct m, minor; congruence). subst m. rewrite H1.
    rewrite Z.add_0_r. apply Z.mod_mod. lia.
  - destruct c; try contradiction; reflexivity.
Qed.

(** ** Notes in memory *)

Lemma moved_notes : forall n es es', Forall2 (moved n) es es' -> note_values es' = map (fun v => limited (v + n)) (note_values es).
Proof.
  intros n es es' F. induction F as [|e e' es es' M F IH]; [reflexivity|]. destruct M; cbn [note_values e_body].
  - cbn [map]. rewrite IH, H. reflexivity.
  - cbn [map]. rewrite IH, H. reflexivity.
  - exact IH.
  - destruct (e_body e); try contradiction; exact IH.
Qed.

Lemma moved_note_bytes : forall n es es', Forall2 (moved n) es es' -> Forall note_bytes es -> Forall note_bytes es'.
Proof.
  intros n es es' F. induction F as [|e e' es es' M F IH]; intro B; [constructor|]. inversion B; subst. constructor; [|auto].
  destruct M; unfold note_bytes in *; cbn [e_body] in *; auto; rewrite H; pose proof (limited_range (n_value nt + n)); lia.
Qed.

Lemma shift_value : forall v n, 0 <= v + n <= 127 -> transpose_value v n = v + n.
Proof.
  intros v n H. unfold transpose_value. rewrite wrap64_id by lia. destruct (Z.ltb_spec (v + n) 0); [lia|]. destruct (Z.ltb_spec 127 (v + n)); lia.
Qed.

Theorem notes_shift : forall env a es c es1, Forall (fun v => 0 <= v + a <= 127) (note_values es) ->
  transpose_events env c a es = Ok es1 -> note_values es1 = map (fun v => v + a) (note_values es).
Proof.
  intros env a. induction es as [|e es IH]; intros c es1 F H; cbn [transpose_events] in H; [apply Ok_inj in H; subst; reflexivity|].
  destruct (transpose_event env c a e) as [[e' c']| | | |] eqn:E; try discriminate. cbn [bind] in H.
  destruct (transpose_events env c' a es) as [r| | | |] eqn:R; try discriminate. cbn [bind] in H. apply Ok_inj in H. subst es1.
  unfold transpose_event in E. cbn [note_values] in *.
  destruct (e_body e) eqn:B; try (apply Ok_inj, pair_equal_spec in E as [<- <-]; rewrite B; eapply IH; eassumption).
  - destruct c; [|discriminate]. apply Ok_inj, pair_equal_spec in E as [<- <-]. cbn [e_body n_value map]. inversion F; subst. f_equal; [apply shift_value; assumption|eauto].
  - destruct c; [|discriminate]. apply Ok_inj, pair_equal_spec in E as [<- <-]. cbn [e_body n_value map]. inversion F; subst. f_equal; [apply shift_value; assumption|eauto].
  - destruct (key_scale _ _); try discriminate. cbn [bind] in E. destruct (scale_transpose _ _); try discriminate. cbn [bind] in E. destruct c; [|discriminate].
    apply Ok_inj, pair_equal_spec in E as [<- <-]. cbn [e_body]. eauto.
Qed.

Theorem compose_notes : forall env c1 c2 c3 a b es es1 es2 es3,
  Forall (fun v => 0 <= v + a <= 127 /\ 0 <= v + (a + b) <= 127) (note_values es) ->
  transpose_events env c1 a es = Ok es1 -> transpose_events env c2 b es1 = Ok es2 -> transpose_events env c3 (a + b) es = Ok es3 ->
  note_values es2 = note_values es3.
Proof.
  intros env c1 c2 c3 a b es es1 es2 es3 F E1 E2 E3.
  apply notes_shift in E1; [|eapply Forall_impl; [|exact F]; cbv beta; intros; lia].
  apply notes_shift in E3; [|eapply Forall_impl; [|exact F]; cbv beta; intros; lia].
  apply notes_shift in E2; [|rewrite E1; apply Forall_map; eapply Forall_impl; [|exact F]; cbv beta; intros; lia].
  rewrite E2, E3, E1, map_map. apply map_ext. intro v. lia.
Qed.

Theorem invert_notes : forall env c1 c2 a es es1 es2, Forall (fun v => 0 <= v <= 127 /\ 0 <= v + a <= 127) (note_values es) ->
  transpose_events env c1 a es = Ok es1 -> transpose_events env c2 (- a) es1 = Ok es2 -> note_values es2 = note_values es.
Proof.
  intros env c1 c2 a es es1 es2 F E1 E2.
  apply notes_shift in E1; [|eapply Forall_impl; [|exact F]; cbv beta; intros; lia].
  apply notes_shift in E2; [|rewrite E1; apply Forall_map; eapply Forall_impl; [|exact F]; cbv beta; intros; lia].
  rewrite E2, E1, map_map. rewrite <- (map_id (note_values es)) at 2. apply map_ext. intro v. lia.
Qed.

(** ** Keys *)

Definition z12 : list Z := [0;1;2;3;4;5;6;7;8;9;10;11].

Definition check_compose (acc kt a b : Z) : bool :=
  match key_scale acc kt with
  | Ok s =>
      match scale_transpose s a, scale_transpose s ((a + b) mod 12) with
      | Ok t, Ok v =>
          match key_scale (s_acc t) kt with
          | Ok s' => match scale_transpose s' b with Ok u => (s_acc u =? s_acc v) && bytes_eqb (s_name u) (s_name v) | _ => false end
          | _ => false
          end
      | _, _ => false
      end
  | _ => false
  end.

Lemma checked_compose : forallb (fun kt => forallb (fun acc => forallb (fun a => forallb (check_compose acc kt a) z12) z12) all_accs) [0; 1] = true.
Proof. vm_compute. reflexivity. Qed.

Lemma z12_in : forall n, In (n mod 12) z12.
Proof. intro n. assert (Hm : 0 <= n mod 12 < 12) by (apply Z.mod_pos_bound; lia). revert Hm. generalize (n mod 12). apply range12. auto. Qed.

Lemma key_event : forall env c n e e' c' acc kt name, e_body e = KeySignature acc kt name -> transpose_event env c n e = Ok (e', c') ->
  exists s t, key_scale acc kt = Ok s /\ scale_transpose s n = Ok t /\ e_body e' = KeySignature (s_acc t) kt (s_name t).
Proof.
  intros env c n e e' c' acc kt name B H. unfold transpose_event in H. rewrite B in H. destruct (key_scale acc kt) as [s| | | |] eqn:K; try discriminate.
  cbn [bind] in H. destruct (scale_transpose s n) as [t| | | |] eqn:T; try discriminate. cbn [bind] in H. destruct c; [|discriminate].
  apply Ok_inj, pair_equal_spec in H as [<- _]. exists s, t. auto.
Qed.

Lemma key_compose : forall env c1 c2 c3 a b e e1 e2 e3 c1' c2' c3' acc kt name, e_body e = KeySignature acc kt name ->
  reasonable a -> reasonable b -> reasonable (a + b) ->
  transpose_event env c1 a e = Ok (e1, c1') -> transpose_event env c2 b e1 = Ok (e2, c2') -> transpose_event env c3 (a + b) e = Ok (e3, c3') ->
  e_body e2 = e_body e3.
Proof.
  intros env c1 c2 c3 a b e e1 e2 e3 c1' c2' c3' acc kt name B Ha Hb Hab E1 E2 E3.
  destruct (key_event _ _ _ _ _ _ _ _ _ B E1) as (s & t & K & T & B1). destruct (key_event _ _ _ _ _ _ _ _ _ B1 E2) as (s' & u & K' & U & B2).
  destruct (key_event _ _ _ _ _ _ _ _ _ B E3) as (s3 & v & K3 & V & B3). assert (s3 = s) by congruence. subst s3. rewrite B2, B3.
  destruct (key_scale_in _ _ _ K) as (I & A & Ty & HK). destruct (key_scale_in _ _ _ K') as (I' & _).
  assert (R : key_range acc).
  { unfold key_scale in K. destruct HK as [-> | ->]; cbn [Z.eqb Pos.eqb] in K;
    [destruct (major_scale acc) as [x|] eqn:X|destruct (minor_scale acc) as [x|] eqn:X]; try discriminate;
    [apply (proj1 (key_table acc x) X)|apply (proj2 (key_table acc x) X)]. }
  rewrite scale_transpose_mod in T, U, V by assumption.
  pose proof checked_compose as C. rewrite forallb_forall in C. specialize (C kt ltac:(destruct HK; cbn [In]; auto)). rewrite forallb_forall in C.
  specialize (C acc (all_accs_in acc R)). rewrite forallb_forall in C. specialize (C _ (z12_in a)). rewrite forallb_forall in C. specialize (C _ (z12_in b)).
  unfold check_compose in C. rewrite K, T in C. replace ((a mod 12 + b mod 12) mod 12) with ((a + b) mod 12) in C by apply Zplus_mod.
  rewrite V, K', U in C. apply andb_true_iff in C as [C1 C2]. apply Z.eqb_eq in C1. apply bytes_eqb_eq in C2. rewrite C1, C2. reflexivity.
Qed.

Definition check_spelling (acc kt a : Z) : bool :=
  match key_scale acc kt with
  | Ok s => match scale_transpose s a with Ok t => (-5 <=? s_acc t) && (s_acc t <=? 6) | _ => false end
  | _ => false
  end.

Lemma checked_spelling : forallb (fun kt => forallb (fun acc => forallb (check_spelling acc kt) z12) all_accs) [0; 1] = true.
Proof. vm_compute. reflexivity. Qed.

(** Steps of a decoded key: the right key. *)
Lemma key_moves : forall env c n e e' c' acc (minor : bool) name, e_body e = KeySignature acc (if minor then 1 else 0) name -> key_range acc -> reasonable n ->
  transpose_event env c n e = Ok (e', c') ->
  exists acc', e_body e' = KeySignature acc' (if minor then 1 else 0) (key_name minor acc') /\ -5 <= acc' <= 6 /\
    tonic_class minor acc' = (tonic_class minor acc + n) mod 12.
Proof.
  intros env c n e e' c' acc minor name B R Hn H. destruct (key_event _ _ _ _ _ _ _ _ _ B H) as (s & t & K & T & B').
  destruct (key_transposes minor acc n R Hn) as (s1 & t1 & K1 & T1 & R1 & C1 & N1). assert (s1 = s) by congruence. subst s1. assert (t1 = t) by congruence. subst t1.
  exists (s_acc t). rewrite B', N1. split; [reflexivity|]. split; [|exact C1].
  destruct (key_scale_in _ _ _ K) as (I & _). rewrite scale_transpose_mod in T by assumption.
  pose proof checked_spelling as C. rewrite forallb_forall in C. specialize (C (if minor then 1 else 0) ltac:(destruct minor; cbn [In]; auto)).
  rewrite forallb_forall in C. specialize (C acc (all_accs_in acc R)). rewrite forallb_forall in C. specialize (C _ (z12_in n)).
  unfold check_spelling in C. rewrite K, T in C. lia.
Qed.

Definition respelledb (acc kt : Z) : bool :=
  (kt =? 0) && ((acc =? 7) || (acc =? -6) || (acc =? -7)) || (kt =? 1) && ((acc =? -7) || (acc =? -6) || (acc =? 7)).

Lemma respelledb_spec : forall acc kt, respelledb acc kt = true <-> respelled acc kt.
Proof. intros acc kt. unfold respelledb, respelled. lia. Qed.

Definition check_zero (acc kt : Z) : bool :=
  match key_scale acc kt with
  | Ok s => match scale_transpose s 0 with
            | Ok t => eqb (negb (respelledb acc kt)) (s_acc t =? acc) && bytes_eqb (s_name t) (key_name (kt =? 1) (s_acc t))
            | _ => false end
  | _ => false
  end.

Lemma checked_zero : forallb (fun kt => forallb (fun acc => check_zero acc kt) all_accs) [0; 1] = true.
Proof. vm_compute. reflexivity. Qed.

Lemma key_zero : forall env c e e' c' acc (minor : bool), e_body e = KeySignature acc (if minor then 1 else 0) (key_name minor acc) -> key_range acc ->
  transpose_event env c 0 e = Ok (e', c') -> (e_body e' = e_body e <-> ~ respelled acc (if minor then 1 else 0)).
Proof.
  intros env c e e' c' acc minor B R H. destruct (key_event _ _ _ _ _ _ _ _ _ B H) as (s & t & K & T & B'). rewrite B, B'.
  pose proof checked_zero as C. rewrite forallb_forall in C. specialize (C (if minor then 1 else 0) ltac:(destruct minor; cbn [In]; auto)).
  rewrite forallb_forall in C. specialize (C acc (all_accs_in acc R)). unfold check_zero in C. rewrite K, T in C.
  apply andb_true_iff in C as [C1 C2]. apply eqb_prop in C1. apply bytes_eqb_eq in C2.
  replace ((if minor then 1 else 0) =? 1) with minor in C2 by (destruct minor; reflexivity). rewrite <- respelledb_spec. split.
  - intro E. injection E as E1 E2. destruct (respelledb _ _); [|discriminate]. cbn [negb] in C1. lia.
  - intro E. destruct (respelledb _ _); [congruence|]. cbn [negb] in C1. symmetry in C1. apply Z.eqb_eq in C1. rewrite C2, C1. reflexivity.
Qed.

(** ** The tables *)

Ltac naming := match goal with |- well_named _ ?l _ => let k := eval vm_compute in l in
  first [exact (wn_natural k ltac:(lia)) | exact (wn_sharp k ltac:(lia)) | exact (wn_flat k ltac:(lia))] end.

Definition sign_of (p : pitch) : Z := match p_name p with [_; _; _; 175] => 1 | [_; _; _; 173] => -1 | _ => 0 end.

Ltac proper := match goal with |- s_type ?s = _ /\ _ => split; [reflexivity|]; split; [|vm_compute; reflexivity];
  exists (map (fun p => (p, hd 0 (p_name p), sign_of p)) (s_notes s)); split; [reflexivity|]; split;
  [repeat (eapply asc_cons; [naming|vm_compute; reflexivity|]); apply asc_nil|]; split; [vm_compute; reflexivity|];
  vm_compute; repeat (constructor; [auto|]); constructor end.

Lemma tables_proper : Forall (fun s => s_type s = 0 /\ proper_scale false (s_acc s) (s_notes s) /\ s_name s = key_name false (s_acc s)) MAJOR_SCALES /\
  Forall (fun s => s_type s = 1 /\ proper_scale true (s_acc s) (s_notes s) /\ s_name s = key_name true (s_acc s)) MINOR_SCALES.
Proof. split; repeat (constructor; [proper|]); constructor. Qed.

(** Each key has exactly one scale in the tables. *)
Lemma tables_unique : forall (minor : bool) acc, key_range acc ->
  exists! s, In s (MAJOR_SCALES ++ MINOR_SCALES) /\ s_type s = (if minor then 1 else 0) /\ s_acc s = acc.
Proof.
  intros minor acc R. destruct (key_transposes minor acc 0 R ltac:(unfold reasonable; lia)) as (s & _ & K & _).
  destruct (key_scale_in _ _ _ K) as (I & A & T & _). exists s. split; [auto|]. intros s' (I' & T' & A').
  assert (U : forallb (fun s => forallb (fun s' => negb ((s_type s =? s_type s') && (s_acc s =? s_acc s')) || (s_id s =? s_id s')) (MAJOR_SCALES ++ MINOR_SCALES)) (MAJOR_SCALES ++ MINOR_SCALES) = true)
    by (vm_compute; reflexivity).
  rewrite forallb_forall in U. specialize (U s I). rewrite forallb_forall in U. specialize (U s' I'). rewrite A, A', T, T' in U.
  rewrite !Z.eqb_refl in U. cbn [andb negb orb] in U. apply Z.eqb_eq in U.
  assert (N : NoDup (map s_id (MAJOR_SCALES ++ MINOR_SCALES))) by (vm_compute; repeat (constructor; [cbn [In]; intuition discriminate|]); constructor).
  revert N I I' U. generalize (MAJOR_SCALES ++ MINOR_SCALES). clear. intros l N. induction l as [|x l IH]; intros I I' U; [destruct I|].
  cbn [map] in N. inversion N as [|? ? N1 N2]; subst. destruct I as [<-|I], I' as [<-|I']; auto.
  - exfalso. apply N1. rewrite U. apply in_map. exact I'.
  - exfalso. apply N1. rewrite <- U. apply in_map. exact I.
Qed.

(** ** A second transposition in memory *)

Lemma again_events : forall env m es, Forall proper_key es -> reasonable m ->
  Exists movable es /\ transpose_events env None m es = Panic \/ ~ Exists movable es /\ transpose_events env None m es = Ok es.
Proof.
  intros env m es F Hm. induction F as [|e es K F IH]; [right; split; [intro H; inversion H|reflexivity]|].
  assert (E : movable e /\ transpose_event env None m e = Panic \/ ~ movable e /\ transpose_event env None m e = Ok (e, None)).
  { unfold movable, transpose_event, proper_key in *. destruct (e_body e); auto. left. split; [exact I|]. destruct K as [K1 K2].
    assert (exists minor : bool, keytype = if minor then 1 else 0) as [minor ->] by (destruct K2 as [-> | ->]; [exists false|exists true]; reflexivity).
    destruct (key_transposes minor accidentals m K1 Hm) as (s & t & -> & Ht & _). cbn [bind]. rewrite Ht. reflexivity. }
  cbn [transpose_events]. destruct E as [[E1 ->]|[E1 ->]]; cbn [bind].
  - left. split; [constructor; exact E1|reflexivity].
  - destruct IH as [[I1 ->]|[I1 ->]]; cbn [bind]; [left|right]; (split; [|reflexivity]).
    + apply Exists_cons_tl. exact I1.
    + intro H. inversion H; subst; contradiction.
Qed.

Lemma moved_proper : forall n e e', moved n e e' -> proper_key e -> proper_key e'.
Proof. intros n e e' M. unfold proper_key. destruct M; cbn [e_body]; auto. intros [_ H2]. auto. Qed.

Theorem transpose_again : forall env n m r s s', is_bytes r -> decode env r = Ok s -> reasonable n -> reasonable m -> transpose_smf env n s = Ok s' ->
  (has_movable s' /\ transpose_smf env m s' = Panic) \/
  (~ has_movable s' /\ exists s'', transpose_smf env m s' = Ok s'' /\ map t_events (f_tracks s'') = map t_events (f_tracks s')).
Proof.
  intros env n m r s s' Hr H Hn Hm E. destruct (decoded_movable env r s Hr H) as [F1 F2]. pose proof (transpose_file env n s s' F1 Hn E) as [_ M].
  assert (P : Forall (fun t => t_ctx t = None /\ Forall proper_key (t_events t)) (f_tracks s')).
  { unfold transpose_smf in E. destruct (transpose_tracks env n (f_tracks s)) as [ts| | | |] eqn:T; try discriminate. cbn [bind] in E. apply Ok_inj in E. subst s'.
    cbn [f_tracks] in *. revert ts T M F2. generalize (f_tracks s). clear. induction l as [|t l IH]; intros ts T M F; cbn [transpose_tracks] in T.
    - apply Ok_inj in T. subst. constructor.
    - destruct (transpose_track env n t) as [t'| | | |] eqn:E; try discriminate. cbn [bind] in T. destruct (transpose_tracks env n l) as [ts'| | | |]; try discriminate.
      cbn [bind] in T. apply Ok_inj in T. subst ts. inversion M as [|? ? ? ? (_ & _ & M1) M2]; inversion F as [|? ? [_ G] F']; subst. constructor; [|auto]. split.
      + unfold transpose_track in E. destruct (transpose_events _ _ _ _); try discriminate. cbn [bind] in E. apply Ok_inj in E. subst t'. reflexivity.
      + clear - M1 G. induction M1; constructor; inversion G; subst; auto. eapply moved_proper; eassumption. }
  unfold transpose_smf, has_movable. clear - P Hm. generalize (f_tracks s') P. clear P. intros l P. induction P as [|t l [C K] P IH].
  - right. split; [intros (t & e & [] & _)|]. cbn [transpose_tracks bind]. eexists. split; reflexivity.
  - cbn [transpose_tracks]. unfold transpose_track. rewrite C. destruct (again_events env m (t_events t) K Hm) as [[A ->]|[A ->]]; cbn [bind].
    + left. apply Exists_exists in A as (e & A1 & A2). split; [|reflexivity]. exists t, e. cbn [In]. auto.
    + destruct IH as [[(t' & e & I1 & I2 & I3) IH]|[N (s'' & IH & IE)]].
      * left. destruct (transpose_tracks env m l) as [ts| | | |]; try discriminate. cbn [bind]. split; [|reflexivity]. exists t', e. cbn [In]. auto.
      * right. destruct (transpose_tracks env m l) as [ts| | | |]; try discriminate. cbn [bind] in *. apply Ok_inj in IH. subst s''. cbn [f_tracks] in IE. split.
        -- intros (t' & e & [<-|I1] & I2 & I3); [apply A, Exists_exists; eauto|]. apply N. eauto.
        -- eexists. split; [reflexivity|]. cbn [f_tracks map t_events]. f_equal. exact IE.
Qed.

(** ** Steps beyond the 64-bit range *)

Lemma transpose_pitch_wrap : forall p n, 0 <= p_ord p < 12 -> transpose_pitch p n = Ok (class_pitch (wrap64 (p_ord p + n) mod 12)).
Proof.
  intros p n Hp. unfold transpose_pitch. rewrite class_index by assumption. set (x := wrap64 (p_ord p + n)).
  destruct (up_loop_mod (Z.to_nat (- x)) x) as (y & -> & Hy & M); [lia|]. cbn [bind]. change (zlen SCALE) with 12. rewrite M.
  rewrite class_nth by (apply Z.mod_pos_bound; lia). reflexivity.
Qed.

Lemma overflow_key : scale_transpose C_MAJOR 9223372036854775807 = Ok C_MAJOR.
Proof.
  unfold scale_transpose. cbn [s_notes C_MAJOR transpose_pitches].
  rewrite !transpose_pitch_wrap by (cbn; lia). cbn [bind]. vm_compute. reflexivity.
Qed.

Lemma overflow_event : transpose_event default_env (Some new_context) 9223372036854775807 (Event 0 0 [] 255 89 (KeySignature 0 0 (str "C major"))) =
  Ok (Event 0 0 [] 255 89 (KeySignature 0 0 (str "C major")), Some new_context).
Proof.
  unfold transpose_event. cbn [e_body]. change (key_scale 0 0) with (Ok C_MAJOR). cbn [bind]. rewrite overflow_key. reflexivity.
Qed.
