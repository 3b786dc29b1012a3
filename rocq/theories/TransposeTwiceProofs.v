(** * TransposeTwiceProofs: two runs of transpose write the bytes of one. *)
From Verif Require Import Base Strings Tables SpecVlq Vlq Event SpecEvent Marshal Parse Track File SpecTrack SpecKey SpecTranspose SpecDecoded
  VlqProofs ParseProofs EncodeProofs FileProofs DecodedProofs Transpose TransposeProofs TransposeFileProofs.

(** ** The content after a transposition is determined *)

(** As [moved_content], with the spelling of the key fixed. *)
Inductive settled (n : Z) : content -> content -> Prop :=
| st_on : forall ch k v, settled n (CNoteOn ch k v) (CNoteOn ch (limited (k + n)) v)
| st_off : forall ch k v, settled n (CNoteOff ch k v) (CNoteOff ch (limited (k + n)) v)
| st_key : forall acc acc' kt minor, kt = (if minor : bool then 1 else 0) -> -5 <= acc' <= 6 ->
    tonic_class minor acc' = (tonic_class minor acc + n) mod 12 ->
    settled n (CKeySig acc kt) (CKeySig acc' kt)
| st_same : forall x, match x with CNoteOn _ _ _ | CNoteOff _ _ _ | CKeySig _ _ => False | _ => True end -> settled n x x.

Lemma tonic_inj : forall minor a b, -5 <= a <= 6 -> -5 <= b <= 6 -> tonic_class minor a = tonic_class minor b -> a = b.
Proof. intros minor a b Ha Hb H. unfold tonic_class in H. destruct minor; lia. Qed.

Lemma settled_det : forall n x y z, settled n x y -> settled n x z -> y = z.
Proof.
  intros n x y z H1 H2. destruct H1; inversion H2; subst; try contradiction; try reflexivity.
  assert (minor0 = minor) by (destruct minor0, minor; congruence). subst minor0. f_equal. apply (tonic_inj minor); [assumption..|congruence].
Qed.

Lemma settled_compose : forall a b x y z, fits a x -> settled a x y -> settled b y z -> settled (a + b) x z.
Proof.
  intros a b x y z F M1 M2. destruct M1; inversion M2; subst; try contradiction; cbn [fits] in F.
  - replace (limited (limited (k + a) + b)) with (limited (k + (a + b))) by (unfold limited; lia). constructor.
  - replace (limited (limited (k + a) + b)) with (limited (k + (a + b))) by (unfold limited; lia). constructor.
  - assert (minor0 = minor) by (destruct minor0, minor; congruence). subst minor0. eapply st_key; [reflexivity|assumption|].
    match goal with E : tonic_class minor ?x = (tonic_class minor acc' + b) mod 12 |- _ => rewrite E end. rewrite H1. rewrite Zplus_mod_idemp_l. f_equal. lia.
  - apply st_same. assumption.
Qed.

Definition settled_all (n : Z) : list (list (Z * content)) -> list (list (Z * content)) -> Prop :=
  Forall2 (Forall2 (fun x y => fst y = fst x /\ settled n (snd x) (snd y))).

Lemma settled_all_det : forall n X Y Z, settled_all n X Y -> settled_all n X Z -> Y = Z.
Proof.
  unfold settled_all. intros n X Y Z M. revert Z. induction M as [|x y X Y M1 M IH]; intros Z N; inversion N as [|? z ? ? N1 N']; subst; [reflexivity|].
  f_equal; [|auto]. clear - M1 N1. revert z N1. induction M1 as [|u v x y [D M1] _ IH]; intros z N; inversion N as [|? w ? ? [E N1] N']; subst; [reflexivity|].
  f_equal; [|auto]. destruct v, w. cbn [fst snd] in *. f_equal; [congruence|]. eapply settled_det; eassumption.
Qed.

Lemma settled_all_compose : forall a b X Y Z, Forall (Forall (fun x => fits a (snd x))) X ->
  settled_all a X Y -> settled_all b Y Z -> settled_all (a + b) X Z.
Proof.
  unfold settled_all. intros a b X Y Z F M. revert Z F. induction M as [|x y X Y M1 M IH]; intros Z F N; inversion N as [|? z ? ? N1 N']; subst; constructor.
  - inversion F as [|? ? F1 F']; subst. clear - F1 M1 N1. revert z F1 N1. induction M1 as [|u v x y [D M1] _ IH]; intros z F N; inversion N as [|? w ? ? [E N1] N']; subst; constructor.
    + split; [congruence|]. inversion F; subst. eapply settled_compose; eassumption.
    + inversion F; subst. auto.
  - inversion F; subst. auto.
Qed.

(** ** transpose settles the contents *)

Definition movable (e : event) : Prop :=
  match e_body e with
  | NoteOn _ n _ | NoteOff _ n _ => 0 <= n_value n < 256
  | KeySignature acc kt _ => key_range acc /\ exists minor : bool, kt = if minor then 1 else 0
  | _ => True
  end.

Lemma event_settled : forall env c n e e' c', movable e -> reasonable n -> transpose_event env c n e = Ok (e', c') ->
  e_delta e' = e_delta e /\ settled n (view (e_body e)) (view (e_body e')).
Proof.
  intros env c n e e' c' M Hn H. unfold movable in M. destruct (e_body e) eqn:B;
  try (unfold transpose_event in H; rewrite B in H; apply Ok_inj in H; apply pair_equal_spec in H as [<- <-]; rewrite B; split; [reflexivity|apply st_same; exact I]).
  - unfold transpose_event in H. rewrite B in H. destruct c; [|discriminate]. apply Ok_inj in H. apply pair_equal_spec in H as [<- <-]. split; [reflexivity|].
    cbn [e_body view n_value]. rewrite transpose_value_limited by assumption. constructor.
  - unfold transpose_event in H. rewrite B in H. destruct c; [|discriminate]. apply Ok_inj in H. apply pair_equal_spec in H as [<- <-]. split; [reflexivity|].
    cbn [e_body view n_value]. rewrite transpose_value_limited by assumption. constructor.
  - destruct M as [K [minor ->]]. destruct (key_moves env c n e e' c' _ minor _ B K Hn H) as (acc' & B' & R & T).
    split; [|rewrite B'; cbn [view]; econstructor; eauto].
    unfold transpose_event in H. rewrite B in H. destruct (key_scale _ _); try discriminate. cbn [bind] in H. destruct (scale_transpose _ _); try discriminate. cbn [bind] in H.
    destruct c; [|discriminate]. apply Ok_inj in H. apply pair_equal_spec in H as [<- <-]. reflexivity.
Qed.

Lemma events_settled : forall env n es c es', Forall movable es -> reasonable n -> transpose_events env c n es = Ok es' ->
  Forall2 (fun x y => fst y = fst x /\ settled n (snd x) (snd y)) (map ev_view es) (map ev_view es').
Proof.
  intros env n es. induction es as [|e es IH]; intros c es' F Hn H; cbn [transpose_events] in H.
  - apply Ok_inj in H. subst. constructor.
  - destruct (transpose_event env c n e) as [[e' c']| | | |] eqn:E; try discriminate. cbn [bind] in H.
    destruct (transpose_events env c' n es) as [r| | | |] eqn:R; try discriminate. cbn [bind] in H. apply Ok_inj in H. subst es'. inversion F; subst.
    cbn [map]. constructor; [|eauto]. unfold ev_view. cbn [fst snd]. eapply event_settled; eassumption.
Qed.

Lemma file_settled : forall env n s s', Forall (fun t => Forall movable (t_events t)) (f_tracks s) -> reasonable n ->
  transpose_smf env n s = Ok s' -> settled_all n (smf_contents s) (smf_contents s').
Proof.
  intros env n s s' F Hn H. unfold transpose_smf in H. destruct (transpose_tracks env n (f_tracks s)) as [ts'| | | |] eqn:E; try discriminate.
  cbn [bind] in H. apply Ok_inj in H. subst s'. unfold smf_contents, settled_all. cbn [f_tracks].
  revert ts' E. induction F as [|t ts F1 F IH]; intros ts' E; cbn [transpose_tracks] in E.
  - apply Ok_inj in E. subst. constructor.
  - unfold transpose_track in E. destruct (transpose_events env (t_ctx t) n (t_events t)) as [es| | | |] eqn:T; try discriminate. cbn [bind] in E.
    destruct (transpose_tracks env n ts) as [r| | | |]; try discriminate. cbn [bind] in E. apply Ok_inj in E. subst ts'. cbn [map t_events].
    constructor; [|auto]. eapply events_settled; eassumption.
Qed.

Lemma decoded_settles : forall env r s, is_bytes r -> decode env r = Ok s -> Forall (fun t => Forall movable (t_events t)) (f_tracks s).
Proof.
  intros env r s Hr H. eapply Forall_impl; [|exact (decoded_file env r s Hr H)]. intros t (_ & _ & G). eapply Forall_impl; [|exact G].
  intros e (_ & _ & D). unfold movable. destruct (e_body e); auto; try (cbn in D; lia). destruct D as (K & minor & -> & _). split; [exact K|]. exists minor. reflexivity.
Qed.

(** ** The encoder looks at the contents only *)

Lemma marshal_view : forall e e', legal_header e -> legal_header e' -> view (e_body e) = view (e_body e') -> marshal e = marshal e'.
Proof.
  intros e e' L L' E. unfold legal_header in *. unfold marshal.
  destruct (e_body e), (e_body e'); cbn [view] in E; try discriminate E;
  repeat match goal with E : ?f _ = ?g _ |- _ => injection E; clear E; intros end; subst;
  repeat match goal with H : _ /\ _ |- _ => destruct H end;
  try match goal with H : e_status e = _ |- _ => rewrite H end; try match goal with H : e_status e' = _ |- _ => rewrite H end;
  try match goal with H : e_type e = _ |- _ => rewrite H end; try match goal with H : e_type e' = _ |- _ => rewrite H end;
  try reflexivity; try congruence.
  - rewrite <- !zlen_app. match goal with H : m_id _ ++ _ = _ |- _ => rewrite H end. reflexivity.
  - rewrite !app_assoc. match goal with H : m_id _ ++ _ = _ |- _ => rewrite H end. reflexivity.
Qed.

Lemma marshal_events_view : forall es es', Forall legal_header es -> Forall legal_header es' -> map ev_view es = map ev_view es' ->
  marshal_events es = marshal_events es'.
Proof.
  induction es as [|e es IH]; intros [|e' es'] F F' E; try discriminate E; [reflexivity|]. cbn [map] in E. injection E as E0 E1 E2.
  inversion F; inversion F'; subst. cbn [marshal_events]. rewrite (marshal_view e e') by assumption. rewrite (IH es') by assumption. rewrite E0. reflexivity.
Qed.

Lemma encode_contents : forall s s' h h', legal_smf s -> legal_smf s' -> f_mthd s = Some h -> f_mthd s' = Some h' -> same_header h h' ->
  smf_contents s = smf_contents s' -> encode s = encode s'.
Proof.
  intros s s' h h' [_ L] [_ L'] H H' (S1 & S2 & S3 & S4 & S5) E. unfold encode. rewrite H, H'. rewrite S4.
  replace (zlen (f_tracks s')) with (zlen (f_tracks s))
    by (apply (f_equal (@length _)) in E; unfold smf_contents in E; rewrite !map_length in E; unfold zlen; rewrite E; reflexivity).
  replace (marshal_mthd h') with (marshal_mthd h) by (unfold marshal_mthd; rewrite S1, S2, S3, S4, S5; reflexivity).
  destruct (negb _); [reflexivity|]. f_equal. clear - L L' E. unfold smf_contents in E. revert L L' E. generalize (f_tracks s) (f_tracks s'). intros ts ts'. revert ts'.
  induction ts as [|t ts IH]; intros [|t' ts'] L L' E; try discriminate E; [reflexivity|]. cbn [map] in E. injection E as E1 E2.
  inversion L as [|? ? [T [G _]] L1]; inversion L' as [|? ? [T' [G' _]] L1']; subst. cbn [encode_tracks]. rewrite (IH ts') by assumption. f_equal.
  unfold encode_mtrk. rewrite T, T'. rewrite (marshal_events_view (t_events t) (t_events t')); [reflexivity| | |exact E1];
    (eapply Forall_impl; [|eassumption]); intros e X; apply X.
Qed.

(** ** Two runs and one *)

(** What is read back of a transposed file. *)
Lemma transposed_read : forall env n r s s1 bs s2, is_bytes r -> decode env r = Ok s -> legal_smf s ->
  Forall (fun t => faithful_events env (t_events t)) (f_tracks s) -> reasonable n ->
  transpose_smf env n s = Ok s1 -> encode s1 = Ok bs -> zlen bs < 4294967296 -> decode env bs = Ok s2 ->
  legal_smf s1 /\ exists h h2, f_mthd s1 = Some h /\ f_mthd s2 = Some h2 /\ same_header h h2 /\ smf_contents s2 = smf_contents s1.
Proof.
  intros env n r s s1 bs s2 Hr H L F Hn E B Hz D. destruct (transpose_decoded env n r s Hr H Hn) as (s1' & E1 & M). assert (s1' = s1) by congruence. subst s1'.
  pose proof (moved_smf_legal n s s1 M L) as L1. pose proof (moved_faithful env n s s1 M F) as F1. split; [exact L1|].
  assert (exists h, f_mthd s1 = Some h) as [h Hm] by (destruct L1 as [L1 _]; destruct (f_mthd s1); [eauto|contradiction]).
  destruct (file_roundtrip env s1 h bs L1 Hm F1 B Hz) as (s2' & h2 & D' & Hm2 & SH & C). assert (s2' = s2) by congruence. subst s2'.
  exists h, h2. split; [exact Hm|]. split; [exact Hm2|]. split; [exact SH|]. rewrite <- (moved_keeps_end env n r s s1 Hr H M). exact C.
Qed.

Theorem transpose_runs : forall env a b r s b1 s1, is_bytes r -> decode env r = Ok s -> legal_smf s ->
  Forall (fun t => faithful_events env (t_events t)) (f_tracks s) ->
  reasonable a -> reasonable b -> reasonable (a + b) -> Forall (Forall (fun x => fits a (snd x))) (smf_contents s) ->
  transpose_execute env a s = Ok b1 -> zlen b1 < 4294967296 -> decode env b1 = Ok s1 ->
  transpose_execute env b s1 = transpose_execute env (a + b) s.
Proof.
  intros env a b r s b1 s1 Hr H L F Ha Hb Hab Hf E1 Z1 D1.
  destruct (transpose_legal env a r s b1 s1 Hr H L F Ha E1 Z1 D1) as (B1 & L1 & F1).
  unfold transpose_execute in *. destruct (transpose_smf env a s) as [t1| | | |] eqn:T1; try discriminate. cbn [bind] in E1.
  destruct (transposed_read env a r s t1 b1 s1 Hr H L F Ha T1 E1 Z1 D1) as (LT1 & h1 & h1' & M1 & M1' & SH & C).
  destruct (transpose_decoded env b b1 s1 B1 D1 Hb) as (t2 & T2 & V2). destruct (transpose_decoded env (a + b) r s Hr H Hab) as (t3 & T3 & V3).
  rewrite T2, T3. cbn [bind].
  pose proof (file_settled env a s t1 (decoded_settles env r s Hr H) Ha T1) as P1. pose proof (file_settled env b s1 t2 (decoded_settles env b1 s1 B1 D1) Hb T2) as P2.
  pose proof (file_settled env (a + b) s t3 (decoded_settles env r s Hr H) Hab T3) as P3. rewrite C in P2.
  pose proof (settled_all_compose a b _ _ _ Hf P1 P2) as P4.
  assert (X1 : f_mthd t1 = f_mthd s).
  { destruct (transpose_decoded env a r s Hr H Ha) as (t1' & T1' & V1). assert (t1' = t1) by congruence. subst. apply V1. }
  symmetry. apply (encode_contents t3 t2 h1 h1').
  - eapply moved_smf_legal; eassumption.
  - eapply moved_smf_legal; eassumption.
  - destruct V3 as [X3 _]. congruence.
  - destruct V2 as [X2 _]. congruence.
  - exact SH.
  - eapply settled_all_det; eassumption.
Qed.
