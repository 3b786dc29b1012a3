From Coq Require Import Permutation.
From Verif Require Import Base Strings Tables Vlq SpecVlq VlqProofs Event SpecEvent Marshal Parse Track File
  SpecTrack SpecFile ParseProofs EncodeProofs.

Lemma is_bytes_inv : forall x l, is_bytes (x :: l) -> 0 <= x < 256 /\ is_bytes l.
Proof. intros x l H. inversion H; subst. split; assumption. Qed.

Ltac bytes_inv :=
  repeat match goal with H : is_bytes (_ :: _) |- _ =>
    let A := fresh "B" in let B := fresh "Bs" in apply is_bytes_inv in H as [A B] end.

Lemma next_chunk_ok : forall r c rest, is_bytes r -> next_chunk r = Ok (c, rest) ->
  exists tag payload, chunk_bytes tag payload c /\ r = c ++ rest.
Proof.
  intros r c rest Hb H. unfold next_chunk in H.
  destruct r as [|a [|b [|c0 [|d [|l0 [|l1 [|l2 [|l3 r']]]]]]]]; try discriminate.
  cbv zeta in H. destruct (Z.leb_spec (of_be32 l0 l1 l2 l3) (zlen r')) as [L|L]; [|destruct r'; discriminate].
  bytes_inv.
  set (n := of_be32 l0 l1 l2 l3) in *.
  assert (Hn : 0 <= n) by (unfold n, of_be32; lia).
  injection H as <- <-. exists [a; b; c0; d], (firstn (Z.to_nat n) r'). split.
  - apply chunk_intro; try lia. unfold zlen in *. rewrite firstn_length.
    replace (Nat.min (Z.to_nat n) (length r')) with (Z.to_nat n) by lia. unfold n, of_be32 in *. lia.
  - cbn [app]. rewrite firstn_skipn. reflexivity.
Qed.

Lemma chunk_next : forall tag payload w rest, chunk_bytes tag payload w -> next_chunk (w ++ rest) = Ok (w, rest).
Proof.
  intros tag payload w rest H. destruct H as [a b c d l0 l1 l2 l3 payload B0 B1 B2 B3 E].
  cbn [app]. unfold next_chunk. cbv zeta.
  replace (of_be32 l0 l1 l2 l3) with (zlen payload) by (unfold of_be32; lia).
  rewrite zlen_app. pose proof (zlen_nonneg _ rest).
  destruct (Z.leb_spec (zlen payload) (zlen payload + zlen rest)); [|lia].
  unfold zlen. rewrite Nat2Z.id, firstn_app_exact, skipn_app_exact. reflexivity.
Qed.

Lemma land_high : forall d0 d1, 0 <= d0 < 256 -> 0 <= d1 < 256 ->
  Z.land (d0 * 256 + d1) 32768 = (if d0 <? 128 then 0 else 32768)
  /\ Z.land (d0 * 256 + d1) 255 = d1 /\ Z.shiftr (Z.land (d0 * 256 + d1) 65280) 8 = d0.
Proof.
  intros d0 d1 H0 H1.
  assert (E : forallb (fun d0 => forallb (fun d1 =>
     (Z.land (d0 * 256 + d1) 32768 =? (if d0 <? 128 then 0 else 32768))
     && (Z.land (d0 * 256 + d1) 255 =? d1) && (Z.shiftr (Z.land (d0 * 256 + d1) 65280) 8 =? d0)) all_bytes) all_bytes = true)
    by (vm_compute; reflexivity).
  rewrite forallb_forall in E. specialize (E d0 (all_bytes_in d0 H0)). rewrite forallb_forall in E.
  specialize (E d1 (all_bytes_in d1 H1)). lia.
Qed.

Lemma smpte_fps_spec : forall hi fps drop, smpte_fps hi = Some (fps, drop) <-> smpte_division hi fps drop.
Proof.
  intros hi fps drop. unfold smpte_fps, smpte_division. split.
  - destruct (Z.eqb_spec hi 232); [intro H; injection H as <- <-; auto|].
    destruct (Z.eqb_spec hi 231); [intro H; injection H as <- <-; auto|].
    destruct (Z.eqb_spec hi 227); [intro H; injection H as <- <-; auto 6|].
    destruct (Z.eqb_spec hi 226); [intro H; injection H as <- <-; auto 8|]. discriminate.
  - intros [H|[H|[H|H]]]; destruct H as (-> & -> & ->); reflexivity.
Qed.

(** C05 *)
Theorem header_exact : forall r c rest, is_bytes r -> next_chunk r = Ok (c, rest) ->
  (forall hf, header_bytes c hf <-> exists h, unmarshal_mthd c = Ok h /\ fields_of h = hf) /\
  (forall h, unmarshal_mthd c = Ok h -> marshal_mthd h = c /\ h_bytes h = c) /\
  unmarshal_mthd c <> Panic.
Proof.
  intros r c rest Hb H. destruct (next_chunk_ok r c rest Hb H) as (tag & payload & Hc & Er).
  assert (Hbc : is_bytes c) by (subst r; apply is_bytes_app in Hb; tauto). clear H Er Hb r rest.
  destruct Hc as [a b c d l0 l1 l2 l3 payload B0 B1 B2 B3 E].
  cbn [app] in *.
  assert (D : unmarshal_mthd (a :: b :: c :: d :: l0 :: l1 :: l2 :: l3 :: payload) = Err
     /\ (forall hf, ~ header_bytes (a :: b :: c :: d :: l0 :: l1 :: l2 :: l3 :: payload) hf)
     \/ exists f t0 t1 d0 d1, a :: b :: c :: d :: l0 :: l1 :: l2 :: l3 :: payload
          = [77; 84; 104; 100; 0; 0; 0; 6; 0; f; t0; t1; d0; d1] /\ (f = 0 \/ f = 1 \/ f = 2)).
  { unfold unmarshal_mthd. destruct (bytes_eqb [a; b; c; d] (str "MThd")) eqn:Et; cbn [negb].
    2:{ left. split; [reflexivity|]. intros hf Hh. inversion Hh; subst; discriminate. }
    apply bytes_eqb_eq in Et. rewrite str_MThd in Et. injection Et as -> -> -> ->.
    destruct (Z.eqb_spec (of_be32 l0 l1 l2 l3) 6) as [El|El]; cbn [negb].
    2:{ left. split; [reflexivity|]. intros hf Hh. inversion Hh; subst; apply El; reflexivity. }
    assert (l0 = 0 /\ l1 = 0 /\ l2 = 0 /\ l3 = 6) as (-> & -> & -> & ->) by (unfold of_be32 in El; lia).
    assert (Hl : length payload = 6%nat) by (unfold zlen in E; lia).
    destruct payload as [|f0 [|f1 [|t0 [|t1 [|d0 [|d1 [|]]]]]]]; try discriminate. cbv zeta.
    bytes_inv.
    destruct ((of_be16 f0 f1 =? 0) || (of_be16 f0 f1 =? 1) || (of_be16 f0 f1 =? 2)) eqn:Ef; cbn [negb].
    2:{ left. split; [reflexivity|]. intros hf Hh. inversion Hh; subst; unfold of_be16 in Ef; lia. }
    right. unfold of_be16 in Ef. assert (f0 = 0) by lia. subst f0.
    exists f1, t0, t1, d0, d1. split; [reflexivity|lia]. }
  destruct D as [[D1 D2]|(f & t0 & t1 & d0 & d1 & Ec & Hf)].
  { rewrite D1. split; [|split; [discriminate|discriminate]]. intro hf. split; [intro Hh; elim (D2 hf Hh)|intros (h & X & _); discriminate]. }
  rewrite Ec in *. clear - Hbc Hf. bytes_inv.
  unfold unmarshal_mthd. change (bytes_eqb [77; 84; 104; 100] (str "MThd")) with true. cbn [negb].
  change (of_be32 0 0 0 6 =? 6) with true. cbn [negb]. cbv zeta.
  replace (of_be16 0 f) with f by (unfold of_be16; lia).
  replace (negb ((f =? 0) || (f =? 1) || (f =? 2))) with false by lia.
  change (of_be16 d0 d1) with (d0 * 256 + d1). change (of_be16 t0 t1) with (t0 * 256 + t1).
  destruct (land_high d0 d1) as (L1 & L2 & L3); [assumption|assumption|].
  rewrite L1, L2, L3.
  assert (M : forall h, h_tag h = str "MThd" -> h_length h = 6 -> h_format h = f -> h_tracks h = t0 * 256 + t1 ->
     h_division h = d0 * 256 + d1 -> marshal_mthd h = [77; 84; 104; 100; 0; 0; 0; 6; 0; f; t0; t1; d0; d1]).
  { intros h E1 E2 E3 E4 E5. unfold marshal_mthd, be16. rewrite E1, E2, E3, E4, E5, str_MThd. change (be32 6) with [0; 0; 0; 6]. cbn [app].
    list_lia. }
  destruct (Z.ltb_spec d0 128) as [Lt|Ge].
  - change (0 =? 0) with true. cbn iota. split; [|split; [|discriminate]].
    + intro hf. split.
      * intro Hh. inversion Hh; subst.
        -- eexists. split; [reflexivity|]. unfold fields_of. cbn [h_format h_tracks h_division h_ppqn h_smpte]. f_equal.
           apply division_metrical. lia.
        -- exfalso. match goal with H : smpte_division _ _ _ |- _ => destruct H as [H|[H|[H|H]]]; lia end.
      * intros (h & Eh & <-). injection Eh as <-. unfold fields_of. cbn [h_format h_tracks h_division h_ppqn h_smpte].
        replace (Z.land (d0 * 256 + d1) 32767) with (d0 * 256 + d1) by (symmetry; apply division_metrical; lia).
        apply hb_metrical; [assumption|lia].
    + intros h Eh. injection Eh as <-. split; [apply M; reflexivity|reflexivity].
  - change (32768 =? 0) with false. cbn iota.
    destruct (smpte_fps d0) as [[fps drop]|] eqn:Es.
    + pose proof (proj1 (smpte_fps_spec _ _ _) Es) as Hs. split; [|split; [|discriminate]].
      * intro hf. split.
        -- intro Hh. inversion Hh; subst; [lia|].
           match goal with H : smpte_division d0 ?a ?b |- _ => apply smpte_fps_spec in H; assert (X : (a, b) = (fps, drop)) by congruence end.
           injection X as -> ->. eexists. split; [reflexivity|]. reflexivity.
        -- intros (h & Eh & <-). injection Eh as <-. unfold fields_of. cbn [h_format h_tracks h_division h_ppqn h_smpte h_fps h_drop h_subframes].
           apply hb_smpte; assumption.
      * intros h Eh. injection Eh as <-. split; [apply M; reflexivity|reflexivity].
    + split; [|split; [discriminate|discriminate]]. intro hf. split; [|intros (h & X & _); discriminate].
      intro Hh. inversion Hh; subst; [lia|].
      match goal with H : smpte_division d0 ?a ?b |- _ => apply smpte_fps_spec in H; congruence end.
Qed.

(** C06 *)
Lemma be32_chunk : forall tag body, length tag = 4%nat -> zlen body < 4294967296 ->
  chunk_bytes tag body (tag ++ be32 (zlen body mod 4294967296) ++ body).
Proof.
  intros tag body Ht Hb. pose proof (zlen_nonneg _ body).
  destruct tag as [|a [|b [|c [|d [|]]]]]; try discriminate. unfold be32. cbn [app].
  rewrite Z.mod_small by lia. apply (chunk_intro a b c d); lia.
Qed.

Theorem encode_framing : forall s bs, encode s = Ok bs ->
  Forall (fun t => t_tag t = tag_mtrk) (f_tracks s) ->
  exists h, f_mthd s = Some h /\ h_tracks h = zlen (f_tracks s) /\
  exists bodies tracks,
    Forall2 (fun t body => exists cs, marshal_events (t_events t) = Ok cs
               /\ body = flatten (running_status_fixup None cs)) (f_tracks s) bodies /\
    bs = marshal_mthd h ++ tracks /\
    (Forall (fun body => zlen body < 4294967296) bodies ->
     file_bytes (map (fun body => (tag_mtrk, body)) bodies) tracks).
Proof.
  intros s bs H Ht. unfold encode in H. destruct (f_mthd s) as [h|]; [|discriminate].
  destruct (Z.eqb_spec (h_tracks h) (zlen (f_tracks s))) as [En|En]; cbn [negb] in H; [|discriminate].
  destruct (encode_tracks (f_tracks s)) as [tb| | | |] eqn:E; try discriminate. apply Ok_inj in H. subst bs.
  exists h. split; [reflexivity|]. split; [exact En|]. clear En.
  enough (X : exists bodies, Forall2 (fun t body => exists cs, marshal_events (t_events t) = Ok cs
               /\ body = flatten (running_status_fixup None cs)) (f_tracks s) bodies /\
     (Forall (fun body => zlen body < 4294967296) bodies ->
     file_bytes (map (fun body => (tag_mtrk, body)) bodies) tb)).
  { destruct X as (bodies & X1 & X2). exists bodies, tb. auto. }
  revert tb E. induction Ht as [|t ts Htag Hts IH]; intros tb E.
  - injection E as <-. exists []. split; constructor.
  - cbn [encode_tracks] in E. unfold encode_mtrk in E.
    destruct (marshal_events (t_events t)) as [cs| | | |] eqn:Em; try discriminate. cbn [bind] in E.
    destruct (encode_tracks ts) as [tb'| | | |] eqn:Ets; try discriminate. cbn [bind] in E.
    apply Ok_inj in E. subst tb. destruct (IH tb' eq_refl) as (bodies & X1 & X2).
    exists (flatten (running_status_fixup None cs) :: bodies). split.
    + constructor; [|exact X1]. exists cs. split; [exact Em|reflexivity].
    + intro Hall. inversion Hall; subst. cbn [map]. rewrite Htag. apply file_cons; [|auto].
      apply be32_chunk; [reflexivity|assumption].
Qed.

(** C07 *)
Lemma chunk_wire_det : forall tag payload w, chunk_bytes tag payload w -> length tag = 4%nat /\ firstn 4 w = tag.
Proof. intros tag payload w H. destruct H. split; reflexivity. Qed.

Lemma file_chunks : forall items r, file_bytes items r ->
  exists ws, chunks r = Ok ws /\ Forall2 (fun it w => chunk_bytes (fst it) (snd it) w) items ws /\ r = concat ws.
Proof.
  intros items r H. induction H as [|tag payload w items r Hc Hf (ws & E & F & R)].
  - exists []. repeat split. constructor.
  - exists (w :: ws). rewrite chunks_eq, (chunk_next _ _ _ _ Hc), E. repeat split.
    + constructor; assumption.
    + cbn [concat]. rewrite <- R. reflexivity.
Qed.

(** Keep the wire chunks whose item satisfies [is_mtrk]. *)
Fixpoint keep (items : list (bytes * bytes)) (ws : list bytes) : list bytes :=
  match items, ws with
  | it :: items, w :: ws => if is_mtrk it then w :: keep items ws else keep items ws
  | _, _ => []
  end.

Lemma decode_tracks_keep : forall env items ws n,
  Forall2 (fun it w => chunk_bytes (fst it) (snd it) w) items ws ->
  decode_tracks env n ws = decode_tracks env n (keep items ws).
Proof.
  intros env items ws n H. revert n. induction H as [|[tag payload] w items ws Hc _ IH]; intro n; [reflexivity|].
  cbn [decode_tracks keep]. unfold is_mtrk at 1. cbn [fst snd] in *.
  destruct (chunk_wire_det _ _ _ Hc) as [_ E]. rewrite E. change (str "MTrk") with tag_mtrk.
  destruct (bytes_eqb tag tag_mtrk) eqn:Et; [|apply IH].
  cbn [decode_tracks]. rewrite E. change (str "MTrk") with tag_mtrk. rewrite Et. rewrite IH. reflexivity.
Qed.

Lemma keep_file : forall items ws, Forall2 (fun it w => chunk_bytes (fst it) (snd it) w) items ws ->
  Forall2 (fun it w => chunk_bytes (fst it) (snd it) w) (filter is_mtrk items) (keep items ws).
Proof.
  intros items ws H. induction H as [|it w items ws Hc _ IH]; [constructor|]. cbn [filter keep].
  destruct (is_mtrk it); [constructor; assumption|assumption].
Qed.

Lemma chunk_bytes_det : forall tag payload w w', chunk_bytes tag payload w -> chunk_bytes tag payload w' -> w = w'.
Proof.
  intros tag payload w w' H H'. destruct H as [a b c d l0 l1 l2 l3 payload B0 B1 B2 B3 E].
  inversion H' as [a' b' c' d' l0' l1' l2' l3' p' B0' B1' B2' B3' E']; subst.
  assert (l0 = l0' /\ l1 = l1' /\ l2 = l2' /\ l3 = l3') as (-> & -> & -> & ->) by lia. reflexivity.
Qed.

Lemma forall2_det : forall items ws ws', Forall2 (fun it w => chunk_bytes (fst it) (snd it) w) items ws ->
  Forall2 (fun it w => chunk_bytes (fst it) (snd it) w) items ws' -> ws = ws'.
Proof.
  intros items ws ws' H. revert ws'. induction H as [|it w items ws Hc _ IH]; intros ws' H'; inversion H'; subst; [reflexivity|].
  f_equal; [eapply chunk_bytes_det; eassumption|apply IH; assumption].
Qed.

Theorem decode_skips : forall env first items r r',
  file_bytes (first :: items) r -> file_bytes (first :: filter is_mtrk items) r' -> decode env r = decode env r'.
Proof.
  intros env first items r r' H H'. destruct (file_chunks _ _ H) as (ws & E & F & _).
  destruct (file_chunks _ _ H') as (ws' & E' & F' & _). unfold decode. rewrite E, E'. cbn [bind].
  inversion F as [|? w0 ? ws0 Hw0 F0]; subst. inversion F' as [|? w1 ? ws1 Hw1 F1]; subst.
  rewrite (chunk_bytes_det _ _ _ _ Hw0 Hw1).
  rewrite (decode_tracks_keep env items ws0 0 F0).
  rewrite (forall2_det _ _ _ (keep_file _ _ F0) F1). reflexivity.
Qed.

(** The chunks with their index. *)
Lemma decode_tracks_each : forall env ws n ts, Forall (fun w => firstn 4 w = tag_mtrk) ws ->
  decode_tracks env n ws = Ok ts ->
  length ts = length ws /\
  forall i w, nth_error ws i = Some w ->
    exists t, nth_error ts i = Some t /\ unmarshal_mtrk env (n + Z.of_nat i) new_context w = Ok t.
Proof.
  intros env ws. induction ws as [|w ws IH]; intros n ts Hall H.
  - injection H as <-. split; [reflexivity|]. intros [|i] w Hi; discriminate.
  - inversion Hall as [|? ? Hw Hws]; subst. cbn [decode_tracks] in H. rewrite Hw in H.
    change (bytes_eqb tag_mtrk (str "MTrk")) with true in H. cbn iota in H.
    destruct (unmarshal_mtrk env n new_context w) as [t| | | |] eqn:Et; try discriminate. cbn [bind] in H.
    destruct (decode_tracks env (n + 1) ws) as [ts'| | | |] eqn:Ets; try discriminate. cbn [bind] in H.
    apply Ok_inj in H. subst ts. destruct (IH _ _ Hws Ets) as [L F].
    split; [cbn; lia|]. intros [|i] w0 Hi.
    + cbn in Hi. injection Hi as <-. exists t. split; [reflexivity|]. rewrite Z.add_0_r. exact Et.
    + cbn in Hi. destruct (F i w0 Hi) as (t0 & F1 & F2). exists t0. split; [exact F1|].
      rewrite <- F2. f_equal. lia.
Qed.

Lemma keep_tags : forall items ws, Forall2 (fun it w => chunk_bytes (fst it) (snd it) w) items ws ->
  Forall (fun w => firstn 4 w = tag_mtrk) (keep items ws).
Proof.
  intros items ws H. induction H as [|[tag payload] w items ws Hc _ IH]; [constructor|]. cbn [keep].
  destruct (is_mtrk (tag, payload)) eqn:E; [|assumption]. constructor; [|assumption].
  destruct (chunk_wire_det _ _ _ Hc) as [_ ->]. apply bytes_eqb_eq, E.
Qed.

Lemma forall2_length : forall A B (P : A -> B -> Prop) l l', Forall2 P l l' -> length l = length l'.
Proof. intros A B P l l' H. induction H; cbn; lia. Qed.

Lemma forall2_nth : forall A B (P : A -> B -> Prop) l l' i x, Forall2 P l l' -> nth_error l i = Some x ->
  exists y, nth_error l' i = Some y /\ P x y.
Proof.
  intros A B P l l' i x H. revert i. induction H as [|a b l l' Hp _ IH]; intros [|i] Hi; try discriminate.
  - injection Hi as <-. exists b. split; [reflexivity|assumption].
  - apply IH, Hi.
Qed.

Theorem decode_each : forall env tag0 payload0 items r s,
  file_bytes ((tag0, payload0) :: items) r -> decode env r = Ok s ->
  exists h w0, chunk_bytes tag0 payload0 w0 /\ unmarshal_mthd w0 = Ok h /\ f_mthd s = Some h /\
    h_tracks h = zlen (filter is_mtrk items) /\
    length (f_tracks s) = length (filter is_mtrk items) /\
    forall i tag payload, nth_error (filter is_mtrk items) i = Some (tag, payload) ->
      exists w t, chunk_bytes tag payload w /\ nth_error (f_tracks s) i = Some t /\
        unmarshal_mtrk env (Z.of_nat i) new_context w = Ok t.
Proof.
  intros env tag0 payload0 items r s Hf H. destruct (file_chunks _ _ Hf) as (ws & E & F & _).
  unfold decode in H. rewrite E in H. cbn [bind] in H.
  inversion F as [|? w0 ? ws0 Hw0 F0]; subst. cbn [fst snd] in Hw0.
  destruct (unmarshal_mthd w0) as [h| | | |] eqn:Eh; try discriminate. cbn [bind] in H.
  rewrite (decode_tracks_keep env items ws0 0 F0) in H.
  destruct (decode_tracks env 0 (keep items ws0)) as [ts| | | |] eqn:Et; try discriminate. cbn [bind] in H.
  destruct (Z.eqb_spec (zlen ts) (h_tracks h)) as [En|En]; [|discriminate]. apply Ok_inj in H. subst s.
  pose proof (keep_file _ _ F0) as K.
  destruct (decode_tracks_each _ _ _ _ (keep_tags _ _ F0) Et) as [L X].
  pose proof (forall2_length _ _ _ _ _ K) as L2.
  exists h, w0. repeat split; auto; cbn [f_tracks].
  - rewrite <- En. unfold zlen. lia.
  - lia.
  - intros i tag payload Hi. destruct (forall2_nth _ _ _ _ _ _ _ K Hi) as (w & Hw & Hc).
    destruct (X i w Hw) as (t & Ht & Eu). exists w, t. auto.
Qed.

(** C53 *)
Lemma unmarshal_mtrk_number : forall env n m c w t, unmarshal_mtrk env n c w = Ok t ->
  exists t', unmarshal_mtrk env m c w = Ok t' /\ same_track t t' /\ t_number t = n /\ t_number t' = m.
Proof.
  intros env n m c w t H. unfold unmarshal_mtrk in *.
  destruct w as [|a0 [|a1 [|a2 [|a3 [|a4 [|a5 [|a6 [|a7 r]]]]]]]]; try discriminate;
  destruct (negb (bytes_eqb [a0; a1; a2; a3] (str "MTrk"))); try discriminate.
  destruct (decode_events env c r) as [[es c']| | | |]; try discriminate. cbn [bind] in *.
  apply Ok_inj in H. subst t. eexists. split; [reflexivity|]. repeat split.
Qed.

Theorem tracks_independent : forall env first first' items items' r r' s s' i j item t t',
  file_bytes (first :: items) r -> file_bytes (first' :: items') r' ->
  decode env r = Ok s -> decode env r' = Ok s' ->
  nth_error (filter is_mtrk items) i = Some item -> nth_error (filter is_mtrk items') j = Some item ->
  nth_error (f_tracks s) i = Some t -> nth_error (f_tracks s') j = Some t' ->
  same_track t t' /\ t_number t = Z.of_nat i /\ t_number t' = Z.of_nat j.
Proof.
  intros env [tag0 p0] [tag0' p0'] items items' r r' s s' i j [tag payload] t t' F F' D D' Hi Hj Ht Ht'.
  destruct (decode_each _ _ _ _ _ _ F D) as (h & w0 & _ & _ & _ & _ & _ & X).
  destruct (decode_each _ _ _ _ _ _ F' D') as (h' & w0' & _ & _ & _ & _ & _ & X').
  destruct (X i tag payload Hi) as (w & t1 & C1 & N1 & U1).
  destruct (X' j tag payload Hj) as (w' & t1' & C1' & N1' & U1').
  rewrite (chunk_bytes_det _ _ _ _ C1' C1) in U1'.
  assert (t1 = t) by congruence. assert (t1' = t') by congruence. subst.
  destruct (unmarshal_mtrk_number _ _ (Z.of_nat j) _ _ _ U1) as (t2 & U2 & S & N & N2).
  assert (t2 = t') by congruence. subst. auto.
Qed.

Lemma decode_tracks_all : forall env ws n, Forall (fun w => firstn 4 w = tag_mtrk) ws ->
  (forall w, In w ws -> exists m t, unmarshal_mtrk env m new_context w = Ok t) ->
  exists ts, decode_tracks env n ws = Ok ts.
Proof.
  intros env ws. induction ws as [|w ws IH]; intros n Hall H; [exists []; reflexivity|].
  inversion Hall as [|? ? Hw Hws]; subst. destruct (H w (or_introl eq_refl)) as (m & t & Hu).
  destruct (unmarshal_mtrk_number _ _ n _ _ _ Hu) as (t' & Hu' & _).
  destruct (IH (n + 1) Hws (fun w0 Hw0 => H w0 (or_intror Hw0))) as (ts & E).
  cbn [decode_tracks]. rewrite Hw. change (bytes_eqb tag_mtrk (str "MTrk")) with true. cbn iota.
  rewrite Hu'. cbn [bind]. rewrite E. cbn [bind]. eexists. reflexivity.
Qed.

Theorem tracks_permuted : forall env first items items' r r' s,
  file_bytes (first :: items) r -> file_bytes (first :: items') r' ->
  Permutation (filter is_mtrk items) (filter is_mtrk items') ->
  decode env r = Ok s -> exists s', decode env r' = Ok s' /\ f_mthd s' = f_mthd s.
Proof.
  intros env [tag0 p0] items items' r r' s F F' P D.
  destruct (decode_each _ _ _ _ _ _ F D) as (h & w0 & C0 & U0 & Hh & Hn & Hl & X).
  destruct (file_chunks _ _ F') as (ws & E & FW & _).
  inversion FW as [|? w1 ? ws1 Hw1 F1]; subst. cbn [fst snd] in Hw1.
  unfold decode. rewrite E. cbn [bind]. rewrite (chunk_bytes_det _ _ _ _ Hw1 C0), U0. cbn [bind].
  rewrite (decode_tracks_keep env items' ws1 0 F1). pose proof (keep_file _ _ F1) as K.
  destruct (decode_tracks_all env (keep items' ws1) 0 (keep_tags _ _ F1)) as (ts & Ets).
  { intros w Hw. apply In_nth_error in Hw as [j Hj].
    assert (Hx : exists it, nth_error (filter is_mtrk items') j = Some it /\ chunk_bytes (fst it) (snd it) w).
    { clear - K Hj. revert j Hj. induction K as [|it w' l l' Hc _ IH]; intros [|j] Hj; try discriminate.
      - cbn in Hj. injection Hj as <-. exists it. split; [reflexivity|assumption].
      - apply IH, Hj. }
    destruct Hx as ([tag payload] & Hit & Hc). apply nth_error_In in Hit.
    apply (Permutation_in _ (Permutation_sym P)) in Hit. apply In_nth_error in Hit as [i Hi].
    destruct (X i tag payload Hi) as (w' & t & C' & _ & U'). rewrite (chunk_bytes_det _ _ _ _ Hc C').
    exists (Z.of_nat i), t. exact U'. }
  rewrite Ets. cbn [bind].
  destruct (decode_tracks_each _ _ _ _ (keep_tags _ _ F1) Ets) as [L _].
  pose proof (forall2_length _ _ _ _ _ K) as L2. pose proof (Permutation_length P) as L3.
  replace (zlen ts =? h_tracks h) with true by (unfold zlen in *; lia).
  eexists. split; [reflexivity|]. symmetry. exact Hh.
Qed.

(** C51 *)
Definition cont_open (b : body) : Prop := match b with SysExContinuation _ fin => fin = false | _ => True end.

Ltac break H :=
  repeat match type of H with
  | context[if ?c then _ else _] => destruct c eqn:?
  | context[match ?d with [] => _ | _ => _ end] => destruct d eqn:?
  | context[match ?d with Some _ => _ | None => _ end] => destruct d eqn:?
  end.

Lemma unmarshal_midi_header : forall env tick delta st data raw e,
  unmarshal_midi env tick delta st data raw = Ok e -> legal_header e /\ cont_open (e_body e).
Proof.
  intros env tick delta st data raw e H. unfold unmarshal_midi, make_note_off, make_note_on,
    make_polyphonic_pressure, make_controller, make_program_change, make_channel_pressure, make_pitch_bend in H.
  break H; try discriminate; injection H as <-; split; exact I.
Qed.

Ltac done_header H := injection H as <-; unfold legal_header; cbn; auto.

Lemma unmarshal_meta_header : forall env tick delta ty data raw e,
  unmarshal_meta env tick delta ty data raw = Ok e -> legal_header e /\ cont_open (e_body e).
Proof.
  intros env tick delta ty data raw e H. unfold unmarshal_meta in H.
  destruct (text_kind ty) as [k|]; [injection H as <-; destruct k; split; cbn; auto|].
  destruct (ty =? 0); [break H; try discriminate; done_header H|].
  destruct (ty =? 32); [unfold make_channel_prefix in H; break H; try discriminate; done_header H|].
  destruct (ty =? 33); [unfold make_port in H; break H; try discriminate; done_header H|].
  destruct (ty =? 47); [done_header H|].
  destruct (ty =? 81); [break H; try discriminate; done_header H|].
  destruct (ty =? 84); [unfold unmarshal_smpte, make_smpte_offset in H; cbv zeta in H; break H; try discriminate; done_header H|].
  destruct (ty =? 88).
  { destruct data as [|a [|b [|c [|d [|]]]]]; try discriminate. unfold make_time_signature in H.
    destruct (log2_loop _ _ _ _); try discriminate. done_header H. }
  destruct (ty =? 89); [unfold unmarshal_key, make_key_signature in H; cbv zeta in H; break H; try discriminate; done_header H|].
  destruct (ty =? 127); [unfold unmarshal_seqspec in H; break H; try discriminate; done_header H|].
  discriminate.
Qed.

Lemma new_event_inv : forall x e, new_event x = Ok e -> x = Ok e.
Proof. destruct x; cbn; congruence. Qed.

Lemma sysex_parse_header : forall env tick casio raw e, sysex_parse env tick casio raw = Ok e ->
  legal_header e /\ cont_open (e_body e).
Proof.
  intros env tick casio raw e H. unfold sysex_parse in H.
  destruct (slice_vlq raw) as [[delta rem]| | | |]; try discriminate. cbn [bind] in H.
  destruct rem as [|st r]; [discriminate|]. destruct (negb _); [discriminate|].
  destruct (slice_vlf r) as [data| | | |]; try discriminate. cbn [bind] in H.
  destruct (st =? 240).
  - unfold unmarshal_sysex in H. destruct data as [|a [|b d]]; try discriminate.
    destruct (ends_f7 (b :: d)); done_header H.
  - destruct casio; [|done_header H]. unfold unmarshal_continuation in H. destruct data; done_header H.
Qed.

Lemma parse_header : forall env c tick r e c' rest, parse env c tick r = Ok (e, c', rest) ->
  legal_header e /\ cont_open (e_body e).
Proof.
  intros env c tick r e c' rest H. unfold parse in H.
  destruct (stream_vlq r) as [[delta r1]| | | |]; try discriminate. cbn [bind] in H.
  destruct r1 as [|b r1]; [discriminate|].
  destruct ((b <? 128) && (c_running c <? 128)); [discriminate|]. cbv zeta in H.
  set (st := if b <? 128 then c_running c else b) in *.
  set (r2 := if b <? 128 then b :: r1 else r1) in *. clearbody st r2.
  destruct (st =? 255).
  - destruct r2 as [|ty r3]; [discriminate|].
    destruct (stream_vlf r3) as [[x rest']| | | |]; try discriminate. cbn [bind] in H.
    destruct (new_event _) as [e'| | | |] eqn:E; try discriminate. cbn [bind] in H. injection H as <- <- <-.
    apply new_event_inv in E. unfold meta_parse in E.
    destruct (slice_vlq _) as [[d rem]| | | |]; try discriminate. cbn [bind] in E.
    destruct rem as [|s [|t rr]]; try discriminate; destruct (negb _); try discriminate.
    destruct (slice_vlf rr) as [data| | | |]; try discriminate. cbn [bind] in E.
    eapply unmarshal_meta_header, E.
  - destruct ((st =? 240) || (st =? 247)).
    + destruct (stream_vlf r2) as [[x rest']| | | |]; try discriminate. cbn [bind] in H.
      destruct ((st =? 240) && c_casio c); [discriminate|].
      destruct (sysex_parse _ _ _ _) as [e'| | | |] eqn:E; try discriminate. cbn [bind] in H. injection H as <- <- <-.
      eapply sysex_parse_header, E.
    + destruct (length r2 <? data_length st)%nat; [discriminate|].
      destruct (new_event _) as [e'| | | |] eqn:E; try discriminate. cbn [bind] in H. injection H as <- <- <-.
      apply new_event_inv in E. unfold midi_parse in E.
      destruct (slice_vlq _) as [[d rem]| | | |]; try discriminate. cbn [bind] in E.
      destruct rem as [|s rr]; try discriminate. destruct (s <? 128); eapply unmarshal_midi_header, E.
Qed.

Lemma post_process_header : forall env c e e' c', post_process env c e = (e', c') ->
  legal_header e -> cont_open (e_body e) -> legal_header e' /\ cont_open (e_body e').
Proof.
  intros env c e e' c' H Hh Hc. unfold post_process in H.
  destruct (e_body e) eqn:E; try (injection H as <- <-; unfold legal_header; cbn; rewrite ?E; split; auto; fail);
    try (injection H as <- <-; split; [exact Hh|rewrite E; exact Hc]).
  destruct (c_id c0 =? 0); [|destruct (c_id c0 =? 32)]; injection H as <- <-; (split; [exact Hh|rewrite E; exact Hc]).
Qed.

Lemma loop_headers : forall n env c tick r es c', (length r <= n)%nat -> loop_from env c tick r = Ok (es, c') ->
  Forall (fun e => legal_header e /\ cont_open (e_body e)) es.
Proof.
  induction n as [|n IH]; intros env c tick r es c' Hn H.
  - destruct r; [|cbn in Hn; lia]. rewrite loop_from_eq, parse_nil in H. injection H as <- <-. constructor.
  - rewrite loop_from_eq in H. destruct (parse env c tick r) as [[[e c1] rest]| | | |] eqn:E; try discriminate.
    + pose proof (parse_shorter _ _ _ _ _ _ _ E). apply parse_header in E as [E1 E2].
      destruct (post_process env c1 e) as [e' c2] eqn:P.
      destruct (loop_from env c2 _ rest) as [[es1 c3]| | | |] eqn:L; try discriminate.
      cbn [bind] in H. injection H as <- <-. constructor; [eapply post_process_header; eauto|].
      eapply IH, L. lia.
    + injection H as <- <-. constructor.
Qed.

Lemma decode_headers : forall env r s, decode env r = Ok s ->
  (exists h, f_mthd s = Some h) /\
  Forall (fun t => t_tag t = str "MTrk" /\ Forall (fun e => legal_header e /\ cont_open (e_body e)) (t_events t)) (f_tracks s).
Proof.
  intros env r s H. unfold decode in H. destruct (chunks r) as [cs| | | |]; try discriminate. cbn [bind] in H.
  destruct cs as [|c cs]; [discriminate|]. destruct (unmarshal_mthd c) as [h| | | |]; try discriminate. cbn [bind] in H.
  destruct (decode_tracks env 0 cs) as [ts| | | |] eqn:E; try discriminate. cbn [bind] in H.
  destruct (_ =? _); [|discriminate]. injection H as <-. split; [exists h; reflexivity|]. cbn [f_tracks].
  generalize 0 E. clear E. revert ts. induction cs as [|w cs IH]; intros ts n E; cbn [decode_tracks] in E.
  - injection E as <-. constructor.
  - destruct (bytes_eqb _ _); [|eapply IH, E].
    destruct (unmarshal_mtrk env n new_context w) as [t| | | |] eqn:Et; try discriminate. cbn [bind] in E.
    destruct (decode_tracks env (n + 1) cs) as [ts'| | | |] eqn:E'; try discriminate. cbn [bind] in E.
    injection E as <-. constructor; [|eapply IH, E'].
    unfold unmarshal_mtrk in Et.
    destruct w as [|a0 [|a1 [|a2 [|a3 [|a4 [|a5 [|a6 [|a7 r']]]]]]]]; try discriminate;
    destruct (negb (bytes_eqb [a0; a1; a2; a3] (str "MTrk"))); try discriminate.
    destruct (decode_events env new_context r') as [[es c']| | | |] eqn:Ed; try discriminate. cbn [bind] in Et.
    injection Et as <-. split; [reflexivity|]. eapply loop_headers; [|exact Ed]. apply le_n.
Qed.

Lemma marshal_view : forall e e', legal_header e -> legal_header e' ->
  view (e_body e) = view (e_body e') -> marshal e = marshal e'.
Proof.
  intros e e' H H' V. unfold marshal, legal_header in *.
  destruct (e_body e); destruct (e_body e'); cbn [view] in V; try discriminate;
    try (injection V as V1 V2 V3 V4 V5 V6; subst);
    try (injection V as V1 V2 V3 V4; subst);
    try (injection V as V1 V2 V3; subst);
    try (injection V as V1 V2; subst);
    try (injection V as V1; subst);
    try match goal with A : _ /\ _, B : _ /\ _ |- _ => destruct A as [-> ->]; destruct B as [-> ->] end;
    try (rewrite H, H'); try reflexivity; try congruence.
  - rewrite <- !zlen_app, V1. reflexivity.
  - rewrite !(app_assoc (m_id _)), V1. reflexivity.
Qed.

Lemma marshal_events_view : forall es es', Forall legal_header es -> Forall legal_header es' ->
  map ev_view es = map ev_view es' -> marshal_events es = marshal_events es'.
Proof.
  induction es as [|e es IH]; intros [|e' es'] H H' V; try discriminate; [reflexivity|].
  cbn [map] in V. injection V as V1 V2 V3. inversion H; inversion H'; subst. cbn [marshal_events].
  rewrite (marshal_view e e') by assumption. rewrite V1. rewrite (IH es') by assumption. reflexivity.
Qed.

Lemma contents_open : forall es, Forall (fun e => cont_open (e_body e)) es -> contents es = map ev_view es.
Proof.
  induction es as [|e es IH]; intro H; [reflexivity|]. inversion H as [|? ? He Hes]; subst. unfold contents in *. cbn [map].
  rewrite IH by assumption. f_equal. unfold ev_view. f_equal. destruct (e_body e); cbn in *; subst; reflexivity.
Qed.

Theorem reencode_stable : forall env b0 s b1, decode env b0 = Ok s -> legal_smf s ->
  Forall (fun t => faithful_events env (t_events t)) (f_tracks s) ->
  encode s = Ok b1 -> zlen b1 < 4294967296 ->
  exists s' h h', decode env b1 = Ok s' /\ f_mthd s = Some h /\ f_mthd s' = Some h' /\ same_header h h' /\
    map (fun t => map ev_view (t_events t)) (f_tracks s') = map (fun t => map ev_view (t_events t)) (f_tracks s) /\
    encode s' = Ok b1.
Proof.
  intros env b0 s b1 D Hl Hf He Hlen. destruct (decode_headers _ _ _ D) as [[h Hh] Hts].
  destruct (file_roundtrip env s h b1 Hl Hh Hf He Hlen) as (s' & h' & D' & Hh' & Hsame & Hc).
  destruct (decode_headers _ _ _ D') as [_ Hts'].
  assert (Hc2 : map (fun t => map ev_view (t_events t)) (f_tracks s') = map (fun t => map ev_view (t_events t)) (f_tracks s)).
  { rewrite Hc. apply map_ext_in. intros t Ht. rewrite Forall_forall in Hts. destruct (Hts t Ht) as [_ X].
    apply contents_open. eapply Forall_impl; [|exact X]. intros e [_ Y]. exact Y. }
  exists s', h, h'. repeat split; try apply Hsame; auto.
  assert (Et : encode_tracks (f_tracks s') = encode_tracks (f_tracks s)).
  { clear - Hts Hts' Hc2. revert Hts Hts' Hc2. generalize (f_tracks s) (f_tracks s').
    induction l as [|t ts IH]; intros [|t' ts'] H H' E; try discriminate; [reflexivity|].
    cbn [map] in E. injection E as E1 E2. inversion H as [|? ? [A1 A2] A3]; inversion H' as [|? ? [B1 B2] B3]; subst.
    cbn [encode_tracks]. rewrite (IH ts') by assumption. unfold encode_mtrk. rewrite A1, B1.
    rewrite (marshal_events_view (t_events t') (t_events t)); [reflexivity| | |assumption].
    - eapply Forall_impl; [|exact B2]. intros e [X _]. exact X.
    - eapply Forall_impl; [|exact A2]. intros e [X _]. exact X. }
  unfold encode in *. rewrite Hh in He. rewrite Hh'. rewrite Et.
  assert (Hn : zlen (f_tracks s') = zlen (f_tracks s)).
  { unfold zlen. f_equal. apply (f_equal (@length _)) in Hc2. rewrite !map_length in Hc2. exact Hc2. }
  rewrite Hn. destruct Hsame as (S1 & S2 & S3 & S4 & S5).
  unfold marshal_mthd in *. rewrite S1, S2, S3, S4, S5. exact He.
Qed.

Theorem encode_wellformed : forall s bs, encode s = Ok bs ->
  Forall (fun t => t_tag t = tag_mtrk) (f_tracks s) ->
  exists h hdr tracks bodies, f_mthd s = Some h /\ bs = hdr ++ tracks /\ h_tracks h = zlen (f_tracks s) /\
    (legal_mthd h -> exists hf, header_bytes hdr hf /\ hf_format hf = h_format h /\
       hf_tracks hf = zlen (f_tracks s) /\ hf_division hf = h_division h) /\
    Forall2 (fun t body => legal_events (t_events t) -> track_bytes 0 false (map ev_view (t_events t)) body) (f_tracks s) bodies /\
    (Forall (fun body => zlen body < 4294967296) bodies ->
     file_bytes (map (fun body => (tag_mtrk, body)) bodies) tracks).
Proof.
  intros s bs H Ht. destruct (encode_framing s bs H Ht) as (h & E1 & E2 & bodies & tracks & F & -> & G).
  exists h, (marshal_mthd h), tracks, bodies. repeat split; auto.
  - intro L. destruct (mthd_roundtrip h [] L) as [N (h' & U & S & _)]. rewrite app_nil_r in N.
    assert (B : is_bytes (marshal_mthd h)).
    { unfold marshal_mthd. destruct L as (-> & -> & L). repeat (apply Forall_app; split); 
      unfold be32, be16; repeat constructor; unfold is_byte; lia. }
    destruct (header_exact _ _ _ B N) as (X & _ & _). exists (fields_of h'). split; [apply X; exists h'; auto|].
    destruct S as (S1 & S2 & S3 & S4 & S5). unfold fields_of. cbn [hf_format hf_tracks hf_division]. rewrite <- E2. auto.
  - clear - F. induction F as [|t body ts bodies (cs & M & ->) F IH]; constructor; [|exact IH].
    intros [L1 L2]. apply (proj1 (encode_grammar (t_events t) cs false 0 None L1 L2 M I)).
Qed.
