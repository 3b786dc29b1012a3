(** * SourceProofs: assembled JSON documents (C81). *)
From Verif Require Import Base Strings Tables Event Track File Marshal NoteProofs SpecTable SpecEvent SpecTrack SpecAssemble SpecLine Assemble TextAssemble Json SpecJsonEvent SpecSource
  JsonReadProofs AssembleProofs EncodeProofs FileProofs LineProofs JsonEventProofs.

Lemma closes_spec : forall es es', fixups es = Ok es' <-> closes es es'.
Proof.
  intros es es'. assert (F : forall e r, fixups (e :: r) = Ok (close_all (e :: r))) by (intros e r; cbn [fixups]; rewrite close_both; reflexivity).
  split.
  - destruct es as [|e es]; [discriminate|]. rewrite F. intros H. apply Ok_inj in H. subst es'. revert e. induction es as [|n r IH]; intros e; [constructor|].
    change (close_all (e :: n :: r)) with ((if is_continuation n then e else close_continuation (close_message e)) :: close_all (n :: r)).
    destruct (is_continuation n) eqn:C; [apply cl_open; [apply is_continuation_spec, C|apply IH]|].
    apply cl_closed; [intros K; apply is_continuation_spec in K; congruence|apply marked_close|apply IH].
  - intros H. assert (N : exists e r, es = e :: r) by (destruct H; eauto). destruct N as (e0 & r0 & N). subst es. rewrite F. f_equal.
    remember (e0 :: r0) as es eqn:E. clear E F e0 r0. induction H as [e|e n r r' C H IH|e e' n r r' C M H IH]; [reflexivity| |].
    + change (close_all (e :: n :: r)) with ((if is_continuation n then e else close_continuation (close_message e)) :: close_all (n :: r)). apply is_continuation_spec in C. rewrite C, IH. reflexivity.
    + change (close_all (e :: n :: r)) with ((if is_continuation n then e else close_continuation (close_message e)) :: close_all (n :: r)). rewrite IH.
      destruct (is_continuation n) eqn:K; [apply is_continuation_spec in K; contradiction|]. f_equal.
      pose proof (marked_close e) as M'. destruct e as [t d b s ty body], e', (close_continuation (close_message (Event t d b s ty body))); unfold marked in *; cbn in *.
      destruct M as (-> & -> & -> & -> & -> & M), M' as (-> & -> & -> & -> & -> & M'). destruct body; congruence.
Qed.

(** ** JSON documents *)

Lemma pointer_is : forall A (r : A -> json -> outcome A) sort z, (forall x v y, r x v = Ok y <-> (v = JNull /\ y = x) \/ sort v y) -> (forall y, ~ sort JNull y) ->
  forall x v y, read_pointer (r z) x v = Ok y <-> maybe sort v y.
Proof.
  intros A r sort z H N x v y. split.
  - intros E. destruct v; cbn [read_pointer] in E; try (apply bind_ok in E as (y' & E & E'); apply Ok_inj in E'; subst y; apply H in E as [[? ?] |E]; [discriminate|]; constructor; exact E).
    apply Ok_inj in E. subst y. constructor.
  - intros E. destruct E as [|v y E]; [reflexivity|]. destruct v; [exfalso; eapply N, E|..]; cbn [read_pointer]; rewrite (proj2 (H z _ y) (or_intror E)); reflexivity.
Qed.

Lemma string_pointer : forall x v y, read_pointer (read_string []) x v = Ok y <-> maybe is_string v y.
Proof. apply pointer_is; [apply read_string_is|intros y K; discriminate]. Qed.

Lemma number_pointer : forall lo hi x v y, read_pointer (read_int lo hi 0) x v = Ok y <-> maybe (is_number lo hi) v y.
Proof. intros lo hi. apply pointer_is; [apply read_int_is|intros y [K _]; discriminate]. Qed.

Lemma tag_is : forall name o x, field name (read_pointer (read_string [])) None o = Ok x <-> maybe_field name is_string o x.
Proof. intros name o x. unfold maybe_field. apply field_is, latest_is, string_pointer. Qed.

Lemma figure_is : forall name o x, field name (read_pointer (read_int 0 65535 0)) None o = Ok x <-> maybe_field name (is_number 0 65535) o x.
Proof. intros name o x. unfold maybe_field. apply field_is, latest_is, number_pointer. Qed.

Lemma array_is : forall v l, Json.elements v = Ok l <-> is_array v l.
Proof.
  intros v l. split.
  - intros H. destruct v; cbn in H; try discriminate; apply Ok_inj in H; subst; constructor.
  - intros H. destruct H; reflexivity.
Qed.

Lemma each_is : forall A (f : json -> outcome A) sort, (forall v x, f v = Ok x <-> sort v x) -> forall l l', each f l = Ok l' <-> Forall2 sort l l'.
Proof.
  intros A f sort H l. induction l as [|v l IH]; intros l'; cbn [each].
  - split; intros E; [apply Ok_inj in E; subst; constructor|inversion E; reflexivity].
  - split; intros E.
    + apply bind_ok in E as (x & X & E). apply bind_ok in E as (r & R & E). apply Ok_inj in E. subst l'. constructor; [apply H, X|apply IH, R].
    + inversion E as [|? x ? r X R]. subst. apply H in X. apply IH in R. rewrite X, R. reflexivity.
Qed.

Definition track_of (t : option bytes * list json) (n : option Z) : jtrack := JTrack (fst t) n (snd t).

Lemma track_is : forall v t, (exists n, read_track v = Ok (track_of t n)) <-> is_track v t.
Proof.
  intros v [tag es]. unfold is_track, track_of. cbn [fst snd]. split.
  - intros (n & H). unfold read_track in H. apply bind_ok in H as (o & O & H). apply bind_ok in H as (a & A & H). apply bind_ok in H as (b & B & H). apply bind_ok in H as (c & C & H).
    apply Ok_inj in H. injection H as -> -> ->. apply object_is in O. apply tag_is in A. apply figure_is in B.
    destruct (under_some (str "events") o) as [l U]. exists o, n, l. repeat split; auto. rewrite (field_under _ _ _ _ _ _ U) in C.
    apply (latest_is _ (fun _ v => Json.elements v)); [intros; apply array_is|exact C].
  - intros (o & n & l & O & A & B & U & L). exists n. unfold read_track. apply object_is in O. apply tag_is in A. apply figure_is in B. rewrite O. cbn [bind]. rewrite A, B. cbn [bind].
    rewrite (field_under _ _ _ _ _ _ U). rewrite (proj2 (latest_is _ (fun _ v => Json.elements v) is_array [] ltac:(intros; apply array_is) l es) L). reflexivity.
Qed.

Definition plain (t : jtrack) : option bytes * list json := (jt_tag t, jt_events t).

Lemma tracks_each : forall l ts, (exists js, each read_track l = Ok js /\ map plain js = ts) <-> Forall2 is_track l ts.
Proof.
  induction l as [|v l IH]; intros ts; cbn [each].
  - split; [intros (js & H & <-); apply Ok_inj in H; subst; constructor|]. intros H. inversion H. exists []. auto.
  - split.
    + intros (js & H & <-). apply bind_ok in H as (j & J & H). apply bind_ok in H as (r & R & H). apply Ok_inj in H. subst js. cbn [map]. constructor.
      * apply track_is. exists (jt_number j). unfold track_of, plain. cbn [fst snd]. destruct j. exact J.
      * apply IH. eauto.
    + intros H. inversion H as [|? t ? r X R]. subst. apply track_is in X as (n & X). apply IH in R as (js & R & E). rewrite X, R. cbn [bind]. eexists. split; [reflexivity|].
      cbn [map]. rewrite E. unfold plain, track_of. cbn [jt_tag jt_events]. destruct t. reflexivity.
Qed.

Lemma tracks_over : forall l ts, (exists js, each_over (fun (_ : list jtrack) v => do l <- Json.elements v; each read_track l) [] l = Ok js /\ map plain js = ts) <-> latest (is_list is_track) [] l ts.
Proof.
  induction l as [|v l IH] using rev_ind; intros ts.
  - split; [intros (js & H & <-); apply Ok_inj in H; subst; constructor|]. intros H. inversion H as [|l' x' v' y' _ _ N]; [|destruct l'; discriminate]. exists []. auto.
  - split.
    + intros (js & H & <-). rewrite each_over_app in H. apply bind_ok in H as (ks & K & H). cbn [each_over] in H. apply bind_ok in H as (z & Z & H). apply Ok_inj in H. subst z.
      apply bind_ok in Z as (a & A & Z). apply (lt_value _ _ l (map plain ks)); [apply IH; eauto|]. exists a. split; [apply array_is, A|apply tracks_each; eauto].
    + intros H. inversion H as [N|l' x' v' y' E1 (a & A & E2) N]; [destruct l; discriminate|]. apply app_inj_tail in N as [-> ->]. subst y'.
      apply IH in E1 as (ks & K & _). apply tracks_each in E2 as (js & J & E). apply array_is in A. exists js. split; [|exact E].
      rewrite each_over_app, K. cbn [bind each_over]. rewrite A. cbn [bind]. rewrite J. reflexivity.
Qed.

Lemma headers_is : forall l a h, each_over read_header a l = Ok h <->
  exists r, together l r /\ field (str "tag") (read_pointer (read_string [])) (jh_tag a) r = Ok (jh_tag h) /\
    field (str "format") (read_pointer (read_int 0 65535 0)) (jh_format a) r = Ok (jh_format h) /\
    field (str "PPQN") (read_pointer (read_int 0 65535 0)) (jh_ppqn a) r = Ok (jh_ppqn h).
Proof.
  induction l as [|v l IH]; intros a n; cbn [each_over].
  - split.
    + intros H. apply Ok_inj in H. subst. exists []. split; [constructor|]. auto.
    + intros (r & T & V & N & A). inversion T. subst r. cbn [field] in *. apply Ok_inj in V, N, A. destruct a, n; cbn in *; congruence.
  - split.
    + intros H. apply bind_ok in H as (b & B & H). unfold read_header in B. apply bind_ok in B as (o & O & B). apply bind_ok in B as (x & X & B).
      apply bind_ok in B as (y & Y & B). apply bind_ok in B as (z & Z & B). apply Ok_inj in B. subst b. apply IH in H as (r & T & V & N & A). cbn [jh_tag jh_format jh_ppqn] in *.
      exists (o ++ r). split; [constructor; [apply object_is, O|exact T]|]. rewrite !field_app, X, Y, Z. cbn [bind]. auto.
    + intros (r & T & V & N & A). inversion T as [|v' o l' r' O T' E1 E2]. subst. rewrite field_app in V, N, A.
      apply bind_ok in V as (x & X & V). apply bind_ok in N as (y & Y & N). apply bind_ok in A as (z & Z & A).
      unfold read_header. apply object_is in O. rewrite O. cbn [bind]. rewrite X, Y, Z. cbn [bind]. apply IH. exists r'. auto.
Qed.

(** The header made from the values. *)
Definition mthd_of (n f d : Z) : mthd :=
  if d <? 32768 then MThd (str "MThd") 6 f n d d false 0 0 false []
  else match smpte_fps (d / 256) with
       | Some (fps, drop) => MThd (str "MThd") 6 f n d 0 true (d mod 128) fps drop []
       | None => MThd [] 0 0 0 0 0 false 0 0 false []
       end.

Lemma mthd_made : forall f d, 0 <= d < 65536 -> 
  (forall h, json_mthd (JHeader (Some (str "MThd")) (Some f) (Some d)) = Ok h <-> header_values f d /\ h = mthd_of 0 f d).
Proof.
  intros f d Hd h. unfold json_mthd, header_values. cbn [jh_tag jh_format jh_ppqn]. replace (bytes_eqb (str "MThd") (str "MThd")) with true by reflexivity. cbn [negb].
  destruct (land_high (d / 256) (d mod 256) ltac:(lia) ltac:(lia)) as (M & _ & L).
  replace (d / 256 * 256 + d mod 256) with d in M, L by lia. replace (d / 256 <? 128) with (d <? 32768) in M by lia.
  assert (F : negb ((f =? 0) || (f =? 1) || (f =? 2)) = negb ((0 <=? f) && (f <=? 2))) by lia. rewrite F, L, M.
  unfold make_mthd. rewrite F. destruct ((0 <=? f) && (f <=? 2)) eqn:B; cbn [negb]; [|split; [discriminate|intros [[? _] _]; lia]].
  rewrite M, L. unfold mthd_of. destruct (d <? 32768) eqn:D.
  - replace (0 =? 32768) with false by reflexivity. cbn [andb]. replace (0 =? 0) with true by reflexivity.
    assert (X : Z.land d 32767 = d) by (change 32767 with (Z.ones 15); rewrite Z.land_ones by lia; change (2 ^ 15) with 32768; rewrite Z.mod_small; lia). rewrite X.
    split; [intros H; apply Ok_inj in H; subst; split; [|reflexivity]; repeat split; try lia|intros [_ ->]; reflexivity].
  - replace (32768 =? 32768) with true by reflexivity. replace (32768 =? 0) with false by reflexivity. cbn [andb].
    assert (X : Z.land d 127 = d mod 128) by (change 127 with (Z.ones 7); rewrite Z.land_ones by lia; reflexivity). rewrite X.
    unfold smpte_fps. cbn [In].
    destruct ((d / 256 =? 232) || (d / 256 =? 231) || (d / 256 =? 227) || (d / 256 =? 226)) eqn:Q; cbn [negb].
    + assert (P : d / 256 = 232 \/ d / 256 = 231 \/ d / 256 = 227 \/ d / 256 = 226) by lia.
      destruct P as [P|[P|[P|P]]]; rewrite P; (split; [intros H; apply Ok_inj in H; subst; split; [|reflexivity]; repeat split; try lia|intros [_ ->]; reflexivity]).
    + split; [discriminate|]. intros [[_ [_ K]] _]. exfalso. assert (32768 <= d) as K' by lia. specialize (K K'). lia.
Qed.

Definition tracks_of (n : Z) (ess : list (list event)) : list mtrk := map (fun x => assembled_mtrk (n + Z.of_nat (fst x)) (snd x)) (combine (seq 0 (length ess)) ess).

Lemma tracks_of_cons : forall n es ess, tracks_of n (es :: ess) = assembled_mtrk n es :: tracks_of (n + 1) ess.
Proof.
  intros n es ess. unfold tracks_of. cbn [length seq combine map]. f_equal; [f_equal; cbn [fst]; lia|].
  rewrite <- seq_shift. generalize (seq 0 (length ess)). clear. induction ess as [|e ess IH]; intros [|k l]; cbn [map combine]; try reflexivity.
  f_equal; [f_equal; cbn [fst]; lia|apply IH].
Qed.

Lemma tracks_of_length : forall ess n, length (tracks_of n ess) = length ess.
Proof. induction ess as [|es ess IH]; intros n; [reflexivity|]. rewrite tracks_of_cons. cbn [length]. rewrite IH. reflexivity. Qed.

Lemma tracks_of_events : forall A (f : mtrk -> A) (g : list event -> A) ess n, (forall k es, f (assembled_mtrk k es) = g es) -> map f (tracks_of n ess) = map g ess.
Proof. induction ess as [|es ess IH]; intros n H; [reflexivity|]. rewrite tracks_of_cons. cbn [map]. rewrite H, IH; auto. Qed.

Lemma json_tracks_is : forall env js n ts', json_tracks env n js = Ok ts' <->
  exists ess ess', Forall2 (fun t es => fst t = Some (str "MTrk") /\ Forall2 (json_says (env_manufacturers env) (middle_octave env)) (snd t) es) (map plain js) ess /\
    Forall2 closes ess ess' /\ ts' = tracks_of n ess'.
Proof.
  intros env. induction js as [|j js IH]; intros n ts'; cbn [json_tracks map].
  - split.
    + intros H. apply Ok_inj in H. subst. exists [], []. repeat split; constructor.
    + intros (ess & ess' & H & C & ->). inversion H. subst. inversion C. reflexivity.
  - split.
    + intros H. apply bind_ok in H as (es' & E & H). apply bind_ok in H as (r & R & H). apply Ok_inj in H. subst ts'. apply IH in R as (ess & ess' & R & C & ->).
      unfold json_mtrk in E. destruct (jt_tag j) as [tag|] eqn:T; [|discriminate]. destruct (bytes_eqb tag (str "MTrk")) eqn:B; [|discriminate]. cbn [negb] in E.
      apply bytes_eqb_eq in B. subst tag. apply bind_ok in E as (es & E & F). apply closes_spec in F.
      apply (each_is _ _ _ (json_reads env)) in E. exists (es :: ess), (es' :: ess'). rewrite tracks_of_cons. split; [|split; [constructor; assumption|reflexivity]].
      constructor; [|exact R]. unfold plain. cbn [fst snd]. auto.
    + intros (ess & ess' & H & C & ->). inversion H as [|? es ? r [T E] R]. subst. inversion C as [|? es' ? r' C1 C2]. subst. rewrite tracks_of_cons.
      unfold plain in T, E. cbn [fst snd] in T, E. unfold json_mtrk. rewrite T. replace (bytes_eqb (str "MTrk") (str "MTrk")) with true by reflexivity. cbn [negb].
      apply (each_is _ _ _ (json_reads env)) in E. rewrite E. cbn [bind]. apply closes_spec in C1. rewrite C1. cbn [bind].
      rewrite (proj2 (IH (n + 1) (tracks_of (n + 1) r'))); [reflexivity|]. eauto.
Qed.

Lemma json_header_range : forall name o x, maybe_field name (is_number 0 65535) o (Some x) -> 0 <= x <= 65535.
Proof. intros name o x (l & _ & H). inversion H as [|l' x' v y H1 S H2 E]. inversion S as [|v' n K]. subst. destruct K. lia. Qed.

Definition smf_of (f d : Z) (ess : list (list event)) : smf := SMF (Some (mthd_of (zlen ess mod 65536) f d)) (tracks_of 0 ess).

Lemma mthd_of_tracks : forall n k f d, let h := mthd_of k f d in header_values f d ->
  MThd (h_tag h) (h_length h) (h_format h) n (h_division h) (h_ppqn h) (h_smpte h) (h_subframes h) (h_fps h) (h_drop h) (h_bytes h) = mthd_of n f d.
Proof.
  intros n k f d. unfold mthd_of, header_values. cbn [In]. destruct (d <? 32768) eqn:D; [reflexivity|]. intros (_ & _ & H).
  destruct H as [H|[H|[H|[H|[]]]]]; [lia|rewrite <- H; reflexivity..].
Qed.

Theorem json_assembled : forall env v bs, assemble_json env v = Ok bs <->
  exists f d ess ess', json_file (env_manufacturers env) (middle_octave env) v f d ess /\ Forall2 closes ess ess' /\ encode (smf_of f d ess') = Ok bs.
Proof.
  intros env v bs. unfold assemble_json. split.
  - intros H. apply bind_ok in H as (o & O & H). apply bind_ok in H as (jh & JH & H). apply bind_ok in H as (js & JS & H). apply bind_ok in H as (h & M & H). apply bind_ok in H as (ts & T & H).
    destruct (under_some (str "header") o) as [lh UH]. rewrite (field_under _ _ _ _ _ _ UH) in JH. apply headers_is in JH as (r & TG & F1 & F2 & F3). cbn [jh_tag jh_format jh_ppqn] in F1, F2, F3.
    destruct (under_some (str "tracks") o) as [lt UT]. rewrite (field_under _ _ _ _ _ _ UT) in JS.
    destruct jh as [[tag|] [f|] [d|]]; unfold json_mthd in M; cbn [jh_tag jh_format jh_ppqn] in *; try discriminate;
      destruct (bytes_eqb tag (str "MThd")) eqn:B; try discriminate; try (destruct (negb ((f =? 0) || (f =? 1) || (f =? 2))); discriminate).
    apply bytes_eqb_eq in B. subst tag. apply figure_is in F2, F3. apply tag_is in F1. pose proof (json_header_range _ _ _ F3) as RD.
    assert (RD' : 0 <= d < 65536) by lia. pose proof (proj1 (mthd_made f d RD' h) M) as [HV ->]. apply json_tracks_is in T as (ess & ess' & E & C & ->).
    exists f, d, ess, ess'. split; [|split; [exact C|]].
    + exists o, lh, r, lt, (map plain js). split; [apply object_is, O|]. split; [exact UH|]. split; [exact TG|]. split; [exact F1|]. split; [exact F2|]. split; [exact F3|].
      split; [exact HV|]. split; [exact UT|]. split; [apply tracks_over; eauto|exact E].
    + rewrite mthd_of_tracks in H by exact HV. unfold smf_of. unfold zlen in *. rewrite tracks_of_length in H. exact H.
  - intros (f & d & ess & ess' & (o & lh & r & lt & ts & O & UH & TG & F1 & F2 & F3 & HV & UT & L & E) & C & H).
    apply object_is in O. rewrite O. cbn [bind]. rewrite (field_under _ _ _ _ _ _ UH).
    pose proof (json_header_range _ _ _ F3) as RD. assert (RD' : 0 <= d < 65536) by lia. apply figure_is in F2, F3. apply tag_is in F1.
    rewrite (proj2 (headers_is lh (JHeader None None None) (JHeader (Some (str "MThd")) (Some f) (Some d)))) by (exists r; auto). cbn [bind].
    rewrite (field_under _ _ _ _ _ _ UT). apply tracks_over in L as (js & J & <-). rewrite J. cbn [bind].
    rewrite (proj2 (mthd_made f d RD' (mthd_of 0 f d))) by auto. cbn [bind].
    rewrite (proj2 (json_tracks_is env js 0 (tracks_of 0 ess'))) by eauto. cbn [bind]. rewrite mthd_of_tracks by exact HV.
    unfold smf_of in H. unfold zlen in *. rewrite tracks_of_length. exact H.
Qed.

(** ** What is written *)

Lemma mthd_of_fields : forall n f d, header_values f d -> h_tag (mthd_of n f d) = str "MThd" /\ h_length (mthd_of n f d) = 6 /\
  h_format (mthd_of n f d) = f /\ h_tracks (mthd_of n f d) = n /\ h_division (mthd_of n f d) = d.
Proof.
  intros n f d (_ & _ & H). unfold mthd_of. cbn [In] in H. destruct (d <? 32768) eqn:D; [cbn; auto|]. destruct H as [H|[H|[H|[H|[]]]]]; [lia|rewrite <- H; cbn; auto..].
Qed.

Lemma smf_of_legal : forall f d ess, header_values f d -> zlen ess < 65536 -> Forall legal_events ess -> legal_smf (smf_of f d ess).
Proof.
  intros f d ess HV L E. destruct (mthd_of_fields (zlen ess mod 65536) f d HV) as (A1 & A2 & A3 & A4 & A5). pose proof (zlen_nonneg _ ess).
  unfold legal_smf, smf_of, legal_mthd. cbn [f_mthd f_tracks]. rewrite A1, A2, A3, A4, A5. destruct HV as (F & D1 & D2). split; [split; [split; [reflexivity|split; [reflexivity|split; [lia|split; [lia|]]]]|]|].
  - destruct (Z.ltb_spec d 32768); [left; lia|]. right. exists (d / 256), (d mod 256). split; [apply D2; lia|lia].
  - unfold zlen. rewrite tracks_of_length. unfold zlen in L. lia.
  - clear - E. generalize 0. induction E as [|es ess E1 E2 IH]; intros n; [constructor|]. rewrite tracks_of_cons. constructor; [split; [reflexivity|exact E1]|apply IH].
Qed.

Lemma smf_of_encoded : forall f d ess bs, header_values f d -> encode (smf_of f d ess) = Ok bs -> zlen ess < 65536.
Proof.
  intros f d ess bs HV H. unfold encode, smf_of in H. cbn [f_mthd f_tracks] in H. destruct (mthd_of_fields (zlen ess mod 65536) f d HV) as (_ & _ & _ & A4 & _). rewrite A4 in H.
  unfold zlen in *. rewrite tracks_of_length in H. destruct (Z.of_nat (length ess) mod 65536 =? Z.of_nat (length ess)) eqn:E; [lia|discriminate].
Qed.

Lemma smf_of_decoded : forall env f d ess bs, header_values f d -> encode (smf_of f d ess) = Ok bs -> Forall legal_events ess -> Forall (faithful_events env) ess -> zlen bs < 4294967296 ->
  exists s h, decode env bs = Ok s /\ f_mthd s = Some h /\ h_format h = f /\ h_division h = d /\ h_tracks h = zlen ess /\
    map (fun t => map ev_view (t_events t)) (f_tracks s) = map contents ess.
Proof.
  intros env f d ess bs HV E L F Z. pose proof (smf_of_encoded _ _ _ _ HV E) as C. pose proof (smf_of_legal f d ess HV C L) as LS.
  destruct (mthd_of_fields (zlen ess mod 65536) f d HV) as (A1 & A2 & A3 & A4 & A5). pose proof (zlen_nonneg _ ess).
  destruct (file_roundtrip env (smf_of f d ess) (mthd_of (zlen ess mod 65536) f d) bs LS eq_refl) as (s & h & D & M & (S1 & S2 & S3 & S4 & S5) & V); [|exact E|exact Z|].
  - cbn [smf_of f_tracks]. clear - F. generalize 0. induction F as [|es ess E1 E2 IH]; intros n; [constructor|]. rewrite tracks_of_cons. constructor; [exact E1|apply IH].
  - exists s, h. split; [exact D|]. split; [exact M|]. split; [congruence|]. split; [congruence|]. split; [rewrite S4, A4; lia|].
    rewrite V. cbn [smf_of f_tracks]. apply tracks_of_events. reflexivity.
Qed.

Theorem json_source : forall env v bs, assemble_json env v = Ok bs ->
  exists f d ess ess', json_file (env_manufacturers env) (middle_octave env) v f d ess /\ Forall2 closes ess ess' /\ zlen ess < 65536 /\
    (Forall legal_events ess' -> Forall (faithful_events env) ess' -> zlen bs < 4294967296 ->
     exists s h, decode env bs = Ok s /\ f_mthd s = Some h /\ h_format h = f /\ h_division h = d /\ h_tracks h = zlen ess /\
       map (fun t => map ev_view (t_events t)) (f_tracks s) = map contents ess').
Proof.
  intros env v bs H. apply json_assembled in H as (f & d & ess & ess' & J & C & E). pose proof J as (o & lh & r & lt & ts & _ & _ & _ & _ & _ & _ & HV & _).
  assert (LE : zlen ess = zlen ess') by (unfold zlen; rewrite (forall2_length _ _ _ _ _ C); reflexivity).
  exists f, d, ess, ess'. split; [exact J|]. split; [exact C|]. split; [rewrite LE; apply (smf_of_encoded _ _ _ _ HV E)|].
  intros L F Z. rewrite LE. apply (smf_of_decoded env f d ess' bs HV E L F Z).
Qed.

Theorem json_accepted : forall env v f d ess ess', json_file (env_manufacturers env) (middle_octave env) v f d ess -> Forall2 closes ess ess' -> zlen ess < 65536 ->
  Forall legal_events ess' -> exists bs, assemble_json env v = Ok bs.
Proof.
  intros env v f d ess ess' J C N L. pose proof J as (o & lh & r & lt & ts & _ & _ & _ & _ & _ & _ & HV & _).
  assert (LE : zlen ess = zlen ess') by (unfold zlen; rewrite (forall2_length _ _ _ _ _ C); reflexivity).
  destruct (encode_legal (smf_of f d ess')) as [bs B]; [apply smf_of_legal; [exact HV|lia|exact L]|]. exists bs. apply json_assembled. exists f, d, ess, ess'. auto.
Qed.

(** ** From the text on *)
From Verif Require Import JsonText SpecJsonText.

Theorem json_text_source : forall env s bs, is_bytes s -> assemble_json_text env s = Ok bs ->
  exists w t rest v f d ess ess', s = w ++ t ++ rest /\ white w /\ json_in lax_chars v t /\
    json_file (env_manufacturers env) (middle_octave env) v f d ess /\ Forall2 closes ess ess' /\ zlen ess < 65536 /\
    (Forall legal_events ess' -> Forall (faithful_events env) ess' -> zlen bs < 4294967296 ->
     exists s h, decode env bs = Ok s /\ f_mthd s = Some h /\ h_format h = f /\ h_division h = d /\ h_tracks h = zlen ess /\
       map (fun t => map ev_view (t_events t)) (f_tracks s) = map contents ess').
Proof.
  intros env s bs B H. destruct (assembled_text env s bs B H) as (w & t & rest & v & E & W & T & A). destruct (json_source env v bs A) as (f & d & ess & ess' & J & C & N & K).
  exists w, t, rest, v, f, d, ess, ess'. split; [exact E|]. split; [exact W|]. split; [exact T|]. split; [exact J|]. split; [exact C|]. split; [exact N|exact K].
Qed.
