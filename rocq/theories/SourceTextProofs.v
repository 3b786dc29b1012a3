(** * SourceTextProofs: assembled texts (C82). *)
From Verif Require Import Base Strings Tables Event Track File Marshal NoteProofs Utf8 SpecText SpecTable SpecDecimal SpecEvent SpecTrack SpecAssemble SpecSurvive SpecRead SpecLine Regex
  TextEvent Assemble TextAssemble Json SpecSource DecimalProofs Utf8Proofs RegexProofs TextProofs JsonReadProofs AssembleProofs EncodeProofs FileProofs LineProofs LineReadProofs SourceProofs.

(** ** Header lines *)

Lemma rfind_first : forall r (says : bytes -> list bytes -> Prop), (forall s y, rmatch r [] s fin = Some y <-> says s y) ->
  forall s y, rfind r s = Some y <-> first_place says s y.
Proof.
  intros r says H s y. split.
  - induction s as [|x s IH]; intros E; cbn [rfind] in E.
    + destruct (rmatch r [] [] fin) as [z|] eqn:M; [|discriminate]. injection E as ->. exists [], []. split; [reflexivity|]. split; [apply H, M|]. intros; cbn [length]; lia.
    + destruct (rmatch r [] (x :: s) fin) as [z|] eqn:M.
      * injection E as ->. exists [], (x :: s). split; [reflexivity|]. split; [apply H, M|]. intros; cbn [length]; lia.
      * destruct (IH E) as (p & q & -> & S & F). exists (x :: p), q. split; [reflexivity|]. split; [exact S|]. intros p' q' z E' S'. destruct p' as [|x' p'].
        { cbn [app] in E'. subst q'. apply H in S'. congruence. }
        cbn [app length] in *. injection E' as -> E'. specialize (F p' q' z E' S'). lia.
  - intros (p & q & -> & S & F). rewrite rfind_skip; [apply rfind_here, H, S|].
    intros a b E B. destruct (rmatch r [] (b ++ q) _) as [z|] eqn:M; [|reflexivity]. exfalso. apply H in M.
    specialize (F a (b ++ q) z). rewrite E, <- app_assoc in F. specialize (F eq_refl M). rewrite app_length in F. destruct b; [congruence|cbn [length] in F; lia].
Qed.

Lemma first_map : forall A B (P : bytes -> A -> Prop) (Q : bytes -> B -> Prop) (g : A -> B), (forall s y, P s y -> Q s (g y)) -> (forall s z, Q s z -> exists y, P s y /\ g y = z) ->
  forall s z, first_place Q s z <-> exists y, first_place P s y /\ g y = z.
Proof.
  intros A B P Q g H1 H2 s z. split.
  - intros (p & q & E & S & F). apply H2 in S as (y & S & G). exists y. split; [|exact G]. exists p, q. split; [exact E|]. split; [exact S|]. intros p' q' y' E' S'. apply (F p' q' (g y') E'), H1, S'.
  - intros (y & (p & q & E & S & F) & <-). exists p, q. split; [exact E|]. split; [apply H1, S|]. intros p' q' z' E' S'. apply H2 in S' as (y' & S' & _). apply (F p' q' y' E' S').
Qed.

Lemma strip_inv : forall l s r, strip l s = Some r <-> s = l ++ r.
Proof.
  intros l s r. split; [|intros ->; apply strip_self]. revert s. induction l as [|c l IH]; intros s H; [cbn in H; destruct s; injection H as <-; reflexivity|].
  destruct s as [|x s]; [discriminate|]. cbn [strip] in H. destruct (c =? x) eqn:E; [|discriminate]. apply Z.eqb_eq in E. subst x. rewrite (IH s H). reflexivity.
Qed.

Lemma i_lit : forall l rs caps s y, rmatch (cat (lit l :: rs)) caps s fin = Some y <-> exists v, s = l ++ v /\ rmatch (cat rs) caps v fin = Some y.
Proof.
  intros l rs caps s y. rewrite rmatch_cat. cbn [rmatch lit]. destruct (strip l s) as [v|] eqn:E.
  - apply strip_inv in E. subst s. split; [intros H; eauto|]. intros (v' & E & H). apply app_inv_head in E. subst. exact H.
  - split; [discriminate|]. intros (v & -> & _). rewrite strip_self in E. discriminate.
Qed.

Lemma format_is : forall s y, rmatch format_re [] s fin = Some y <-> exists c r, s = str "format:" ++ c :: r /\ 48 <= c <= 50 /\ y = [[c]].
Proof.
  intros s y. unfold format_re. rewrite i_lit. split.
  - intros (v & -> & H). rewrite rmatch_cat in H. cbn [rmatch cls] in H. destruct v as [|c v]; [discriminate|]. cbn [byte1] in H.
    destruct ((48 <=? c) && (c <=? 50)) eqn:B; [|discriminate]. change (c :: v) with ([c] ++ v) in H. rewrite group_capture in H. injection H as <-. exists c, v. split; [reflexivity|]. split; [lia|reflexivity].
  - intros (c & r & -> & B & ->). exists (c :: r). split; [reflexivity|]. rewrite rmatch_cat. cbn [rmatch cls byte1]. replace ((48 <=? c) && (c <=? 50)) with true by lia.
    change (c :: r) with ([c] ++ r). rewrite group_capture. reflexivity.
Qed.

Lemma ppqn_passes : forall rs, passes digit (fun caps s => rmatch (cat (star_of white :: lit (str "ppqn") :: rs)) caps s fin).
Proof.
  intros rs caps caps' x r P H. exfalso. apply H. rewrite rmatch_cat. cbn [rmatch star_of star]. replace (white x) with false by (unfold white, digit in *; lia).
  rewrite rmatch_cat. cbn [rmatch lit]. change (str "ppqn") with (112 :: [112; 113; 110]). cbn [strip]. replace (112 =? x) with false by (unfold digit in *; lia). reflexivity.
Qed.

Lemma division_is : forall s y, rmatch metrical_re [] s fin = Some y <-> exists d, division_says s d /\ y = [d].
Proof.
  intros s y. unfold metrical_re. rewrite i_lit. 
  assert (T : forall v, rmatch (cat [lit (str "time:"); number; star_of white; lit (str "ppqn")]) [] v fin = Some y <->
    exists d w r, v = str "time:" ++ d ++ w ++ str "ppqn" ++ r /\ d <> [] /\ Forall is_digit d /\ blanks w /\ y = [d]).
  { intros v. rewrite i_lit. split.
    - intros (v1 & -> & H). apply i_group_plus in H as (d & v2 & -> & N & D & H & _). apply digits_are in D. apply i_ws in H as (w & v3 & -> & W & H). apply i_lit in H as (r & -> & H).
      injection H as <-. exists d, w, r. split; [reflexivity|]. auto.
    - intros (d & w & r & -> & N & D & W & ->). eexists. split; [reflexivity|]. apply (f_num _ _ (digits_value d)); [repeat split; auto| |].
      + destruct W as [|x w W1 W2]; [reflexivity|]. cbn [app starts]. apply white_is in W1. unfold white, digit in *. lia.
      + apply f_ws; [exact W|reflexivity|]. apply i_lit. exists r. split; reflexivity. }
  split.
  - intros (v & -> & H). rewrite rmatch_cat in H. cbn [rmatch opt] in H. 
    destruct (rmatch (cls (fun c => (c =? 32) || (c =? 45))) [] v (fun caps' s' => rmatch (cat [lit (str "time:"); number; star_of white; lit (str "ppqn")]) caps' s' fin)) as [z|] eqn:M.
    + cbn [rmatch cls] in M. destruct v as [|c v]; [discriminate|]. cbn [byte1] in M. destruct ((c =? 32) || (c =? 45)) eqn:C; [|discriminate].
      injection H as ->. apply T in M as (d & w & r & -> & N & D & W & E). exists d. split; [|exact E]. exists [c], w, r. split; [reflexivity|]. split; [|auto]. right.
      assert (K : c = 32 \/ c = 45) by lia. destruct K; subst; auto.
    + apply T in H as (d & w & r & -> & N & D & W & E). exists d. split; [|exact E]. exists [], w, r. split; [reflexivity|]. auto.
  - intros (d & (sep & w & r & -> & S & N & D & W) & E). eexists. split; [reflexivity|].
    assert (M : rmatch (cat [lit (str "time:"); number; star_of white; lit (str "ppqn")]) [] (str "time:" ++ d ++ w ++ str "ppqn" ++ r) fin = Some y) by (apply T; eauto 10).
    rewrite rmatch_cat. cbn [rmatch opt]. destruct S as [-> |[-> | ->]]; cbn [app].
    + change (str "time:" ++ d ++ w ++ str "ppqn" ++ r) with (116 :: [105; 109; 101; 58] ++ d ++ w ++ str "ppqn" ++ r) at 1. cbn [rmatch cls byte1]. replace ((116 =? 32) || (116 =? 45)) with false by reflexivity. exact M.
    + cbn [rmatch cls byte1]. replace ((32 =? 32) || (32 =? 45)) with true by reflexivity. rewrite M. reflexivity.
    + cbn [rmatch cls byte1]. replace ((45 =? 32) || (45 =? 45)) with true by reflexivity. rewrite M. reflexivity.
Qed.

Lemma find_format : forall l y, rfind format_re l = Some y <-> exists f, first_place format_says l f /\ y = [[48 + f]].
Proof.
  intros l y. rewrite (rfind_first _ _ format_is). rewrite (first_map _ _ format_says _ (fun f => [[48 + f]])).
  - split; intros (f & H & E); exists f; auto.
  - intros s f (r & -> & B). exists (48 + f), r. split; [reflexivity|]. split; [lia|reflexivity].
  - intros s z (c & r & -> & B & ->). exists (c - 48). replace (48 + (c - 48)) with c by lia. split; [|reflexivity]. exists r. replace (48 + (c - 48)) with c by lia. split; [reflexivity|lia].
Qed.

Lemma find_division : forall l y, rfind metrical_re l = Some y <-> exists d, first_place division_says l d /\ y = [d].
Proof.
  intros l y. rewrite (rfind_first _ _ division_is). rewrite (first_map _ _ division_says _ (fun d => [d])).
  - split; intros (d & H & E); exists d; auto.
  - intros s d H. eauto.
  - intros s z (d & H & ->). eauto.
Qed.

Lemma one_digit : forall f, digits_value [48 + f] = f.
Proof. intros f. unfold digits_value. cbn [fold_left]. lia. Qed.

Lemma header_is_read : forall l h, parse_mthd_line l = Ok h <-> exists f d, header_says l f d /\ h = mthd_of 0 f d.
Proof.
  intros l h. unfold parse_mthd_line, header_says. split.
  - intros H. destruct (rfind format_re l) as [y|] eqn:F; [|discriminate]. apply find_format in F as (f & F & ->).
    assert (Rf : 0 <= f <= 2) by (destruct F as (? & ? & _ & (? & _ & K) & _); exact K).
    apply bind_ok in H as (f' & P & H). apply LineProofs.uint16 in P as [(_ & _ & P) _]. assert (f' = f) by (rewrite P, one_digit; lia). clear P. subst f'.
    destruct (rfind metrical_re l) as [y|] eqn:M; [|discriminate]. apply find_division in M as (d & M & ->). apply bind_ok in H as (n & P & H). apply LineProofs.uint16 in P as [(_ & _ & P) R].
    assert (J : json_mthd (JHeader (Some (str "MThd")) (Some f) (Some n)) = Ok h).
    { unfold json_mthd. cbn [jh_tag jh_format jh_ppqn]. replace (negb (bytes_eqb (str "MThd") (str "MThd"))) with false by reflexivity. replace (negb ((f =? 0) || (f =? 1) || (f =? 2))) with false by lia. exact H. }
    apply (mthd_made f n R) in J as [HV ->]. exists f, n. split; [|reflexivity]. split; [exact F|]. split; [eauto|exact HV].
  - intros (f & n & (F & (d & M & P) & HV) & ->). rewrite (proj2 (find_format l [[48 + f]])) by eauto. pose proof HV as (Rf & R & _).
    rewrite (parse_uint_num 16 [48 + f] f); [|split; [discriminate|split; [repeat constructor; unfold is_digit; lia|rewrite one_digit; lia]]|change (2 ^ 16) with 65536; lia]. cbn [bind].
    rewrite (proj2 (find_division l [d])) by eauto. assert (N : num n d) by (destruct M as (? & ? & _ & (? & ? & ? & _ & _ & N & D & _) & _); repeat split; auto).
    rewrite (parse_uint_num 16 d n N) by (change (2 ^ 16) with 65536; lia). cbn [bind].
    pose proof (proj2 (mthd_made f n R _) (conj HV eq_refl)) as J. unfold json_mthd in J. cbn [jh_tag jh_format jh_ppqn] in J.
    replace (negb (bytes_eqb (str "MThd") (str "MThd"))) with false in J by reflexivity. replace (negb ((f =? 0) || (f =? 1) || (f =? 2))) with false in J by lia. exact J.
Qed.

(** ** Lines *)

Lemma white_rune : forall c, In c white_runes <-> exists cp, white_point cp /\ utf8 cp c.
Proof.
  intros c. split.
  - intros H. unfold white_runes in H. cbn [In] in H. 
    assert (K : exists cp, white_point cp /\ c = JsonText.encode_rune cp /\ 0 <= cp < 65536 /\ ~ (55296 <= cp < 57344)).
    { repeat (destruct H as [<- |H]; [
        first [exists 9; split; [unfold white_point; lia|split; [reflexivity|lia]] | exists 10; split; [unfold white_point; lia|split; [reflexivity|lia]]
          | exists 11; split; [unfold white_point; lia|split; [reflexivity|lia]] | exists 12; split; [unfold white_point; lia|split; [reflexivity|lia]]
          | exists 13; split; [unfold white_point; lia|split; [reflexivity|lia]] | exists 32; split; [unfold white_point; lia|split; [reflexivity|lia]]
          | exists 133; split; [unfold white_point; lia|split; [reflexivity|lia]] | exists 160; split; [unfold white_point; lia|split; [reflexivity|lia]]
          | exists 5760; split; [unfold white_point; lia|split; [reflexivity|lia]]
          | exists 8192; split; [unfold white_point; lia|split; [reflexivity|lia]] | exists 8193; split; [unfold white_point; lia|split; [reflexivity|lia]]
          | exists 8194; split; [unfold white_point; lia|split; [reflexivity|lia]] | exists 8195; split; [unfold white_point; lia|split; [reflexivity|lia]]
          | exists 8196; split; [unfold white_point; lia|split; [reflexivity|lia]] | exists 8197; split; [unfold white_point; lia|split; [reflexivity|lia]]
          | exists 8198; split; [unfold white_point; lia|split; [reflexivity|lia]] | exists 8199; split; [unfold white_point; lia|split; [reflexivity|lia]]
          | exists 8200; split; [unfold white_point; lia|split; [reflexivity|lia]] | exists 8201; split; [unfold white_point; lia|split; [reflexivity|lia]]
          | exists 8202; split; [unfold white_point; lia|split; [reflexivity|lia]] | exists 8232; split; [unfold white_point; lia|split; [reflexivity|lia]]
          | exists 8233; split; [unfold white_point; lia|split; [reflexivity|lia]] | exists 8239; split; [unfold white_point; lia|split; [reflexivity|lia]]
          | exists 8287; split; [unfold white_point; lia|split; [reflexivity|lia]] | exists 12288; split; [unfold white_point; lia|split; [reflexivity|lia]]] |]). contradiction. }
    destruct K as (cp & W & -> & R & N). exists cp. split; [exact W|]. apply encode_rune_utf8; [lia|exact N].
  - intros (cp & W & U).
    assert (K : cp = 9 \/ cp = 10 \/ cp = 11 \/ cp = 12 \/ cp = 13 \/ cp = 32 \/ cp = 133 \/ cp = 160 \/ cp = 5760 \/ cp = 8192 \/ cp = 8193 \/ cp = 8194 \/ cp = 8195 \/ cp = 8196 \/ cp = 8197 \/ cp = 8198 \/ cp = 8199 \/ cp = 8200 \/ cp = 8201 \/ cp = 8202 \/ cp = 8232 \/ cp = 8233 \/ cp = 8239 \/ cp = 8287 \/ cp = 12288) by (unfold white_point in W; lia). clear W.
    destruct U as [cp R|cp R|cp R N|cp R]; repeat (destruct K as [-> |K]; [try lia; unfold white_runes; vm_compute; tauto|]); subst; try lia; vm_compute; tauto.
Qed.

Lemma blank_is : forall l, is_bytes l -> (TextAssemble.blank l = true <-> blank_line l).
Proof.
  intros l B. unfold TextAssemble.blank. split.
  - remember (length l) as n eqn:E. assert (L : (length l <= n)%nat) by lia. clear E. revert l L B.
    induction n as [|n IH]; intros l L B H; (destruct l as [|b0 r0]; [constructor|]); cbn [length] in L; [lia|].
    apply Forall_cons_iff in B as B'. destruct B' as [B0 B1]. destruct (runes_step b0 r0) as [(cp & c & r & U & E & R)|(N & R)]; [unfold is_byte in B0; lia| |]; rewrite R in H; cbn [forallb] in H; apply andb_prop in H as [H1 H2].
    + apply existsb_exists in H1 as (x & I & X). apply bytes_eqb_eq in X. subst x. apply white_rune in I as (cp' & W & U'). rewrite E. apply (bl_char cp'); [exact W|exact U'|].
      pose proof (utf8_nonempty _ _ U). rewrite E in B. apply Forall_app in B as [_ B]. apply IH; [|exact B|exact H2].
      apply (f_equal (@length Z)) in E. rewrite app_length in E. cbn [length] in E. lia.
    + exfalso. revert H1. vm_compute. discriminate.
  - intros H. induction H as [|cp c r W U H IH]; [reflexivity|]. apply Forall_app in B as [_ B]. rewrite (runes_char _ _ _ U). cbn [forallb]. rewrite (IH B), andb_true_r.
    apply existsb_exists. exists c. split; [apply white_rune; eauto|apply bytes_eqb_eq; reflexivity].
Qed.

Lemma comment_is : forall l, has_prefix (str "%%") l = true <-> comment_line l.
Proof. intros l. rewrite has_prefix_spec. reflexivity. Qed.

Lemma lines_sound : forall (says : bytes -> event -> Prop) lines tables es, Forall is_bytes lines -> (forall i l e, unmarshal_text (tables i) l = Ok e -> says l e) ->
  parse_events tables lines = Ok es -> lines_say says lines es.
Proof.
  intros says lines. induction lines as [|l lines IH]; intros tables es B S H; cbn [parse_events] in H; [apply Ok_inj in H; subst; constructor|].
  apply Forall_cons_iff in B as [B1 B2]. pose proof (blank_is l B1) as BL. pose proof (comment_is l) as CL. unfold is_event_line in H.
  destruct (has_prefix (str "%%") l); cbn [negb andb] in H; [apply ls_comment; [apply CL; reflexivity|]; apply (IH (fun i => tables (Datatypes.S i)) _ B2); [intros i; apply S|exact H]|].
  destruct (TextAssemble.blank l); cbn [negb] in H; [apply ls_blank; [apply BL; reflexivity|]; apply (IH (fun i => tables (Datatypes.S i)) _ B2); [intros i; apply S|exact H]|].
  apply bind_ok in H as (e & E & H). apply bind_ok in H as (r & R & H). apply Ok_inj in H. subst es.
  apply ls_event; [intros K; apply CL in K; discriminate|intros K; apply BL in K; discriminate|apply (S O), E|]. apply (IH (fun i => tables (Datatypes.S i)) _ B2); [intros i; apply S|exact R].
Qed.

Lemma lines_complete : forall (says : bytes -> event -> Prop) lines es, lines_say says lines es -> Forall is_bytes lines ->
  forall tables, (forall i l e, says l e -> unmarshal_text (tables i) l = Ok e) -> parse_events tables lines = Ok es.
Proof.
  intros says lines es H. induction H as [|l r es C H IH|l r es W H IH|l e r es C W E H IH]; intros B tables S; cbn [parse_events]; [reflexivity|..];
    apply Forall_cons_iff in B as [B1 B2]; pose proof (blank_is l B1) as BL; pose proof (comment_is l) as CL; unfold is_event_line.
  - rewrite (proj2 CL C). cbn [negb andb]. apply (IH B2). intros i. apply S.
  - rewrite (proj2 BL W). cbn [negb]. rewrite andb_false_r. apply (IH B2). intros i. apply S.
  - destruct (has_prefix (str "%%") l); [exfalso; apply C, CL; reflexivity|]. destruct (TextAssemble.blank l); [exfalso; apply W, BL; reflexivity|]. cbn [negb andb].
    rewrite (S O l e E). cbn [bind]. rewrite (IH B2 (fun i => tables (Datatypes.S i))) by (intros i; apply S). reflexivity.
Qed.

(** ** Chunks *)

Lemma track_spec : forall l, contains l (str "MTrk") = true <-> track_line l.
Proof. intros l. apply contains_spec. Qed.

Lemma rest_of_chunk : forall tables c r s, Forall (fun l => ~ tag_line l) r -> assemble_chunk tables c s r = Ok s.
Proof.
  intros tables c r s H. induction H as [|l r N H IH]; [reflexivity|]. cbn [assemble_chunk]. unfold assemble_line.
  destruct (contains l (str "MThd")) eqn:E1; [exfalso; apply N; left; apply header_spec, E1|].
  destruct (contains l (str "MTrk")) eqn:E2; [exfalso; apply N; right; apply track_spec, E2|].
  destruct (has_prefix (str "%%") l); exact IH.
Qed.

Lemma one_line : forall tables l r s, tag_line l -> Forall (fun l => ~ tag_line l) r -> assemble_chunk tables (l :: r) s (l :: r) =
  if has_prefix (str "%%") l then Ok s
  else if contains l (str "MThd") then do h <- parse_mthd_line l; Ok (SMF (Some h) (f_tracks s))
  else do es0 <- parse_events tables r; do es <- fixups es0;
    match f_mthd s with
    | None => Panic
    | Some h => Ok (SMF (Some (MThd (h_tag h) (h_length h) (h_format h) ((h_tracks h + 1) mod 65536) (h_division h) (h_ppqn h) (h_smpte h) (h_subframes h) (h_fps h) (h_drop h) (h_bytes h)))
                        (f_tracks s ++ [assembled_mtrk (zlen (f_tracks s)) es]))
    end.
Proof.
  intros tables l r s T N. cbn [assemble_chunk]. assert (E : forall x, bind x (fun s' => assemble_chunk tables (l :: r) s' r) = x).
  { intros x. destruct x; cbn [bind]; try reflexivity. apply rest_of_chunk, N. }
  rewrite E. unfold assemble_line, parse_mthd, parse_mtrk. cbn [find after_mtrk]. destruct (has_prefix (str "%%") l); [reflexivity|].
  destruct (contains l (str "MThd")) eqn:H1; [reflexivity|]. destruct (contains l (str "MTrk")) eqn:H2; [|exfalso; destruct T as [T|T]; [apply header_spec in T|apply track_spec in T]; congruence].
  destruct (parse_events tables r); reflexivity.
Qed.

(** The chunks one after the other: header, tracks since, all tracks. *)
Inductive run (says : bytes -> event -> Prop) : list (list bytes) -> option (Z * Z) -> Z -> list (list event) -> option (Z * Z) -> Z -> list (list event) -> Prop :=
| run_end : forall h k t, run says [] h k t h k t
| run_comment : forall l r cs h k t h' k' t', comment_line l -> run says cs h k t h' k' t' -> run says ((l :: r) :: cs) h k t h' k' t'
| run_header : forall l r cs h k t f d h' k' t', ~ comment_line l -> header_line l -> header_says l f d -> run says cs (Some (f, d)) 0 t h' k' t' -> run says ((l :: r) :: cs) h k t h' k' t'
| run_track : forall l r cs h k t es es' h' k' t', ~ comment_line l -> ~ header_line l -> track_line l -> lines_say says r es -> closes es es' ->
    run says cs (Some h) (k + 1) (t ++ [es']) h' k' t' -> run says ((l :: r) :: cs) (Some h) k t h' k' t'.

Definition state (h : option (Z * Z)) (k : Z) (t : list (list event)) : smf :=
  SMF (match h with Some (f, d) => Some (mthd_of (k mod 65536) f d) | None => None end) (tracks_of 0 t).

Definition good (h : option (Z * Z)) : Prop := match h with Some (f, d) => header_values f d | None => True end.

Lemma tracks_snoc : forall t n es, tracks_of n (t ++ [es]) = tracks_of n t ++ [assembled_mtrk (n + zlen t) es].
Proof.
  induction t as [|x t IH]; intros n es; [unfold zlen; cbn [app length]; rewrite tracks_of_cons; cbn; f_equal; f_equal; lia|].
  cbn [app]. rewrite !tracks_of_cons, IH. cbn [app]. do 4 f_equal. unfold zlen. cbn [length]. lia.
Qed.

Lemma next_state : forall f d k t es, header_values f d -> let s := state (Some (f, d)) k t in
  match f_mthd s with
    | None => Panic
    | Some h => Ok (SMF (Some (MThd (h_tag h) (h_length h) (h_format h) ((h_tracks h + 1) mod 65536) (h_division h) (h_ppqn h) (h_smpte h) (h_subframes h) (h_fps h) (h_drop h) (h_bytes h)))
                        (f_tracks s ++ [assembled_mtrk (zlen (f_tracks s)) es]))
    end = Ok (state (Some (f, d)) (k + 1) (t ++ [es])).
Proof.
  intros f d k t es HV. unfold state. cbn [f_mthd f_tracks]. rewrite mthd_of_tracks by exact HV. destruct (mthd_of_fields (k mod 65536) f d HV) as (_ & _ & _ & A & _). rewrite A.
  rewrite tracks_snoc. unfold zlen. rewrite tracks_of_length. rewrite Zplus_mod_idemp_l. reflexivity.
Qed.

Lemma run_sound : forall (says : bytes -> event -> Prop) cs tables h k t s', Forall one_chunk cs -> Forall (Forall is_bytes) cs -> good h -> (forall j i l e, unmarshal_text (tables j i) l = Ok e -> says l e) ->
  assemble_chunks tables (state h k t) cs = Ok s' -> exists h' k' t', run says cs h k t h' k' t' /\ s' = state h' k' t' /\ good h'.
Proof.
  intros says cs. induction cs as [|c cs IH]; intros tables h k t s' C B G S H; cbn [assemble_chunks] in H.
  - apply Ok_inj in H. subst. exists h, k, t. split; [constructor|]. auto.
  - apply Forall_cons_iff in C as [(l & r & -> & T & N) C]. apply Forall_cons_iff in B as [B1 B]. apply Forall_cons_iff in B1 as [_ B1].
    rewrite one_line in H by assumption. pose proof (comment_is l) as CL. pose proof (header_spec l) as HL.
    assert (S' : forall j i l e, unmarshal_text (tables (Datatypes.S j) i) l = Ok e -> says l e) by (intros; eapply S; eassumption).
    destruct (has_prefix (str "%%") l).
    { cbn [bind] in H. destruct (IH (fun j => tables (Datatypes.S j)) h k t s' C B G S' H) as (h' & k' & t' & R & E & G'). exists h', k', t'. split; [apply run_comment; [apply CL; reflexivity|exact R]|]. auto. }
    assert (NC : ~ comment_line l) by (intros K; apply CL in K; discriminate).
    destruct (contains l (str "MThd")).
    { apply bind_ok in H as (s1 & H1 & H). apply bind_ok in H1 as (m & M & H1). apply Ok_inj in H1. subst s1. apply header_is_read in M as (f & d & M & ->).
      change (SMF (Some (mthd_of 0 f d)) (f_tracks (state h k t))) with (state (Some (f, d)) 0 t) in H.
      destruct (IH (fun j => tables (Datatypes.S j)) (Some (f, d)) 0 t s' C B) as (h' & k' & t' & R & E & G'); [apply M|exact S'|exact H|].
      exists h', k', t'. split; [apply (run_header _ l r cs h k t f d); auto; apply HL; reflexivity|]. auto. }
    assert (NH : ~ header_line l) by (intros K; apply HL in K; discriminate).
    apply bind_ok in H as (s1 & H1 & H). apply bind_ok in H1 as (es & E & H1). apply bind_ok in H1 as (es' & F & H1). apply closes_spec in F.
    apply (lines_sound says) in E; [|exact B1|intros i; apply S]. destruct h as [[f d]|]; [|discriminate]. rewrite next_state in H1 by exact G. apply Ok_inj in H1. subst s1.
    destruct (IH (fun j => tables (Datatypes.S j)) (Some (f, d)) (k + 1) (t ++ [es']) s' C B G S' H) as (h' & k' & t' & R & E' & G').
    exists h', k', t'. split; [|auto]. apply (run_track _ l r cs (f, d) k t es es'); auto. destruct T; [contradiction|assumption].
Qed.

Lemma run_complete : forall (says : bytes -> event -> Prop) cs h k t h' k' t', run says cs h k t h' k' t' -> Forall one_chunk cs -> Forall (Forall is_bytes) cs -> good h ->
  forall tables, (forall j i l e, says l e -> unmarshal_text (tables j i) l = Ok e) -> assemble_chunks tables (state h k t) cs = Ok (state h' k' t').
Proof.
  intros says cs h k t h' k' t' H. induction H as [h k t|l r cs h k t h' k' t' NC H IH|l r cs h k t f d h' k' t' NC HL M H IH|l r cs h k t es es' h' k' t' NC NH TL E F H IH]; intros C B G tables S; cbn [assemble_chunks]; [reflexivity|..];
    apply Forall_cons_iff in C as [(l' & r' & Q & T & N) C]; injection Q as <- <-; apply Forall_cons_iff in B as [B1 B]; apply Forall_cons_iff in B1 as [_ B1]; rewrite one_line by assumption.
  - rewrite (proj2 (comment_is l) NC). cbn [bind]. apply (IH C B G (fun j => tables (Datatypes.S j))). intros; apply S; assumption.
  - destruct (has_prefix (str "%%") l) eqn:Q; [exfalso; apply NC, comment_is, Q|]. rewrite (proj2 (header_spec l) HL). rewrite (proj2 (header_is_read l _)) by eauto. cbn [bind].
    change (SMF (Some (mthd_of 0 f d)) (f_tracks (state h k t))) with (state (Some (f, d)) 0 t).
    apply (IH C B (proj2 (proj2 M)) (fun j => tables (Datatypes.S j))). intros; apply S; assumption.
  - destruct (has_prefix (str "%%") l) eqn:Q; [exfalso; apply NC, comment_is, Q|]. destruct (contains l (str "MThd")) eqn:Q2; [exfalso; apply NH, header_spec, Q2|].
    rewrite (lines_complete says r es E B1 (tables O)) by (intros; apply S; assumption). cbn [bind]. rewrite (proj2 (closes_spec es es') F). cbn [bind]. destruct h as [f d]. rewrite next_state by exact G. cbn [bind].
    apply (IH C B G (fun j => tables (Datatypes.S j))). intros; apply S; assumption.
Qed.

(** ** The order of the chunks *)

Lemma run_counts : forall says cs h k t h' k' t', run says cs h k t h' k' t' -> 0 <= k <= zlen t -> 0 <= k' <= zlen t' /\ (k < zlen t -> k' < zlen t').
Proof.
  intros says cs h k t h' k' t' H. induction H as [h k t|l r cs h k t h' k' t' NC H IH|l r cs h k t f d h' k' t' NC HL M H IH|l r cs h k t es es' h' k' t' NC NH TL E F H IH]; intros K; auto.
  - destruct IH; [lia|]. split; [assumption|]. intros. lia.
  - assert (Z : zlen (t ++ [es']) = zlen t + 1) by (unfold zlen; rewrite app_length; cbn [length]; lia). rewrite Z in IH. destruct IH; [lia|]. split; [assumption|]. intros. lia.
Qed.

Lemma run_tracks : forall says cs h k t h' k' t', run says cs h k t h' k' t' -> k' = zlen t' -> 0 < k -> k = zlen t ->
  exists ts ess ess', uncommented cs ts /\ Forall2 (track_chunk says) ts ess /\ Forall2 closes ess ess' /\ t' = t ++ ess' /\ h' = h.
Proof.
  intros says cs h k t h' k' t' H. induction H as [h k t|l r cs h k t h' k' t' NC H IH|l r cs h k t f d h' k' t' NC HL M H IH|l r cs h k t es es' h' k' t' NC NH TL E F H IH]; intros Z P Q.
  - exists [], [], []. rewrite app_nil_r. repeat split; constructor.
  - destruct (IH Z P Q) as (ts & ess & ess' & U & R). exists ts, ess, ess'. split; [apply uc_comment; assumption|exact R].
  - exfalso. apply run_counts in H as [_ K]; lia.
  - assert (L : zlen (t ++ [es']) = zlen t + 1) by (unfold zlen; rewrite app_length; cbn [length]; lia).
    destruct IH as (ts & ess & ess' & U & R1 & R2 & -> & ->); [exact Z|lia|lia|]. exists ((l :: r) :: ts), (es :: ess), (es' :: ess'). split; [apply uc_chunk; assumption|].
    split; [constructor; [exists l, r; auto|exact R1]|]. split; [constructor; assumption|]. rewrite <- app_assoc. auto.
Qed.

Lemma run_headers : forall says cs h k t h' k' t', run says cs h k t h' k' t' -> k' = zlen t' -> k = 0 -> t = [] ->
  exists hs ts ess ess', uncommented cs (hs ++ ts) /\ Forall (fun c => exists f d, header_chunk c f d) hs /\ Forall2 (track_chunk says) ts ess /\ Forall2 closes ess ess' /\ t' = ess' /\
    ((hs = [] /\ h' = h) \/ exists hs0 c f d, hs = hs0 ++ [c] /\ header_chunk c f d /\ h' = Some (f, d)).
Proof.
  intros says cs h k t h' k' t' H. induction H as [h k t|l r cs h k t h' k' t' NC H IH|l r cs h k t f d h' k' t' NC HL M H IH|l r cs h k t es es' h' k' t' NC NH TL E F H IH]; intros Z P Q; subst k t.
  - exists [], [], [], []. cbn [app]. repeat split; try constructor. auto.
  - destruct (IH Z eq_refl eq_refl) as (hs & ts & ess & ess' & U & R). exists hs, ts, ess, ess'. split; [apply uc_comment; assumption|exact R].
  - destruct (IH Z eq_refl eq_refl) as (hs & ts & ess & ess' & U & R1 & R2 & R3 & R4 & R5). assert (HC : header_chunk (l :: r) f d) by (exists l, r; auto).
    exists ((l :: r) :: hs), ts, ess, ess'. split; [cbn [app]; apply uc_chunk; assumption|]. split; [constructor; [eauto|exact R1]|]. split; [exact R2|]. split; [exact R3|]. split; [exact R4|]. right.
    destruct R5 as [[-> ->] |(hs0 & c & f' & d' & -> & X & ->)]; [exists [], (l :: r), f, d; auto|exists ((l :: r) :: hs0), c, f', d'; auto].
  - destruct (run_tracks _ _ _ _ _ _ _ _ H Z ltac:(lia) ltac:(reflexivity)) as (ts & ess & ess' & U & R1 & R2 & -> & ->).
    exists [], ((l :: r) :: ts), (es :: ess), (es' :: ess'). split; [cbn [app]; apply uc_chunk; assumption|]. split; [constructor|]. split; [constructor; [exists l, r; auto|exact R1]|].
    split; [constructor; assumption|]. split; [reflexivity|]. left. auto.
Qed.

Lemma tracks_run : forall says cs ts, uncommented cs ts -> forall ess ess', Forall2 (track_chunk says) ts ess -> Forall2 closes ess ess' ->
  forall h k t, run says cs (Some h) k t (Some h) (k + zlen ess') (t ++ ess').
Proof.
  intros says cs ts U. induction U as [|l r cs cs' C U IH|l r cs cs' C U IH]; intros ess ess' T F h k t.
  - inversion T. subst. inversion F. subst. unfold zlen. cbn [length]. rewrite app_nil_r, Z.add_0_r. constructor.
  - apply run_comment; [exact C|]. apply (IH ess); assumption.
  - inversion T as [|c es ? ess0 (l' & r' & Q & NH & TL & E) T' X1 X2]. subst. injection Q as <- <-. inversion F as [|? es' ? ess0' F1 F2]. subst.
    apply (run_track says l r cs h k t es es'); auto. specialize (IH ess0 ess0' T' F2 h (k + 1) (t ++ [es'])). rewrite <- app_assoc in IH. cbn [app] in IH.
    replace (k + zlen (es' :: ess0')) with (k + 1 + zlen ess0') by (unfold zlen; cbn [length]; lia). exact IH.
Qed.

Lemma headers_run : forall says cs all, uncommented cs all -> forall hs c ts, all = hs ++ c :: ts -> Forall (fun c => exists f d, header_chunk c f d) hs ->
  forall f d ess ess', header_chunk c f d -> Forall2 (track_chunk says) ts ess -> Forall2 closes ess ess' -> forall h, run says cs h 0 [] (Some (f, d)) (zlen ess') ess'.
Proof.
  intros says cs all U. induction U as [|l r cs cs' C U IH|l r cs cs' C U IH]; intros hs c ts A H f d ess ess' X T F h.
  - destruct hs; discriminate.
  - apply run_comment; [exact C|]. apply (IH hs c ts A H f d ess ess' X T F).
  - destruct hs as [|c0 hs]; cbn [app] in A; injection A as <- A.
    + subst cs'. destruct X as (l' & r' & Q & HL & HS). injection Q as <- <-. apply (run_header says l r cs h 0 [] f d); auto.
      pose proof (tracks_run says cs ts U ess ess' T F (f, d) 0 []) as R. exact R.
    + apply Forall_cons_iff in H as [(f0 & d0 & l' & r' & Q & HL & HS) H]. injection Q as <- <-. apply (run_header says l r cs h 0 [] f0 d0); auto. apply (IH hs c ts A H f d ess ess' X T F).
Qed.

Lemma chomped_bytes : forall l l', chomped l l' -> is_bytes l -> is_bytes l'.
Proof. intros l l' H B. destruct H; [apply Forall_app in B; apply B|exact B]. Qed.

Lemma lines_bytes : forall text lines, lines_of text lines -> is_bytes text -> Forall is_bytes lines.
Proof.
  intros text lines H. induction H as [|l l' N I C|l l' r ls I C H IH]; intros B; [constructor|constructor; [eapply chomped_bytes; eassumption|constructor]|].
  apply Forall_app in B as [B1 B2]. apply Forall_cons_iff in B2 as [_ B2]. constructor; [eapply chomped_bytes; eassumption|auto].
Qed.

Lemma chunks_bytes : forall lines before cs, divides lines before cs -> Forall is_bytes lines -> Forall (Forall is_bytes) cs.
Proof.
  intros lines before cs [-> _] B. apply Forall_app in B as [_ B]. revert B. induction cs as [|c cs IH]; intros B; [constructor|]. cbn [concat] in B. apply Forall_app in B as [B1 B2]. constructor; auto.
Qed.

Lemma first_chunk : forall cs : list (list bytes), match cs with [] => True | c :: _ => header_line (hd [] c) end <-> (forall c r, cs = c :: r -> header_line (hd [] c)).
Proof. intros [|c cs]; split; auto; [intros _ c r; discriminate|intros H c' r E; injection E as <- _; exact H|intros H; apply (H c cs eq_refl)]. Qed.

Theorem text_assembled_sound : forall (says : bytes -> event -> Prop) tables text bs, is_bytes text -> (forall j i l e, unmarshal_text (tables j i) l = Ok e -> says l e) -> assemble_text tables text = Ok bs ->
  exists f d ess ess', text_file says text f d ess /\ Forall2 closes ess ess' /\ encode (smf_of f d ess') = Ok bs.
Proof.
  intros says tables text bs B S H. unfold assemble_text in H. apply bind_ok in H as (cs & R & H). apply bind_ok in H as (s & A & H).
  apply read_chunks_ok in R as (LL & lines & before & L & D & BF & HD).
  change (SMF None []) with (state None 0 []) in A. apply (run_sound says) in A as (h' & k' & t' & A & -> & G); [|apply D|eapply chunks_bytes; [exact D|eapply lines_bytes; eassumption]|exact I|exact S].
  pose proof (run_counts _ _ _ _ _ _ _ _ A ltac:(unfold zlen; cbn [length]; lia)) as [K _].
  destruct h' as [[f d]|]; [|discriminate]. cbn [good] in G.
  assert (E : k' = zlen t').
  { unfold encode, state in H. cbn [f_mthd f_tracks] in H. destruct (mthd_of_fields (k' mod 65536) f d G) as (_ & _ & _ & Q & _). rewrite Q in H. unfold zlen in *. rewrite tracks_of_length in H.
    destruct (k' mod 65536 =? Z.of_nat (length t')) eqn:Z; [|discriminate]. lia. }
  pose proof (run_headers _ _ _ _ _ _ _ _ A E eq_refl eq_refl) as (hs & ts & ess & ess' & U & R1 & R2 & R3 & -> & R4).
  destruct R4 as [[_ ?] |(hs0 & c & f' & d' & -> & X & Q)]; [discriminate|]. injection Q as <- <-. exists f, d, ess, ess'. split; [|split; [exact R3|]].
  - exists lines, before, cs, hs0, c, ts. rewrite <- app_assoc in U. apply Forall_app in R1 as [R1 _]. rewrite first_chunk in HD. auto 10.
  - unfold smf_of. unfold state in H. rewrite E in H. exact H.
Qed.

Theorem text_assembled_complete : forall (says : bytes -> event -> Prop) tables text f d ess ess', is_bytes text -> (forall j i l e, says l e -> unmarshal_text (tables j i) l = Ok e) ->
  text_file says text f d ess -> Forall2 closes ess ess' -> assemble_text tables text = encode (smf_of f d ess').
Proof.
  intros says tables text f d ess ess' B S (lines & before & cs & hs & h & ts & LL & L & D & BF & HD & U & R1 & X & T) F. unfold assemble_text.
  rewrite (proj2 (read_chunks_ok text cs)) by (split; [exact LL|]; exists lines, before; rewrite first_chunk; auto). cbn [bind].
  pose proof (headers_run says cs _ U hs h ts eq_refl R1 f d ess ess' X T F None) as R.
  change (SMF None []) with (state None 0 []). rewrite (run_complete says cs _ _ _ _ _ _ R) with (1 := proj2 D); [reflexivity|eapply chunks_bytes; [exact D|eapply lines_bytes; eassumption]|exact I|exact S].
Qed.

Lemma text_values : forall says text f d ess, text_file says text f d ess -> header_values f d.
Proof. intros says text f d ess (? & ? & ? & ? & ? & ? & _ & _ & _ & _ & _ & _ & _ & (l & r & _ & _ & HS) & _). apply HS. Qed.

Theorem text_source : forall env tables text bs, is_bytes text -> assemble_text tables text = Ok bs ->
  exists f d ess ess', text_file (fun l e => exists j i, line_says (tables j i) l e) text f d ess /\ Forall2 closes ess ess' /\ zlen ess < 65536 /\
    (Forall legal_events ess' -> Forall (faithful_events env) ess' -> zlen bs < 4294967296 ->
     exists s h, decode env bs = Ok s /\ f_mthd s = Some h /\ h_format h = f /\ h_division h = d /\ h_tracks h = zlen ess /\
       map (fun t => map ev_view (t_events t)) (f_tracks s) = map contents ess').
Proof.
  intros env tables text bs B H. apply (text_assembled_sound (fun l e => exists j i, line_says (tables j i) l e)) in H as (f & d & ess & ess' & J & C & E); [|exact B|intros j i l e U; exists j, i; apply line_sound, U].
  pose proof (text_values _ _ _ _ _ J) as HV. assert (LE : zlen ess = zlen ess') by (unfold zlen; rewrite (forall2_length _ _ _ _ _ C); reflexivity).
  exists f, d, ess, ess'. split; [exact J|]. split; [exact C|]. split; [rewrite LE; apply (smf_of_encoded _ _ _ _ HV E)|].
  intros L F Z. rewrite LE. apply (smf_of_decoded env f d ess' bs HV E L F Z).
Qed.

Theorem text_accepted : forall env tables text f d ess ess', is_bytes text -> text_file (fun l e => forall j i, plainly (tables j i) l e) text f d ess -> Forall2 closes ess ess' ->
  zlen ess < 65536 -> Forall legal_events ess' ->
  exists bs, assemble_text tables text = Ok bs /\ (Forall (faithful_events env) ess' -> zlen bs < 4294967296 ->
     exists s h, decode env bs = Ok s /\ f_mthd s = Some h /\ h_format h = f /\ h_division h = d /\ h_tracks h = zlen ess /\
       map (fun t => map ev_view (t_events t)) (f_tracks s) = map contents ess').
Proof.
  intros env tables text f d ess ess' B J C N L. pose proof (text_values _ _ _ _ _ J) as HV. assert (LE : zlen ess = zlen ess') by (unfold zlen; rewrite (forall2_length _ _ _ _ _ C); reflexivity).
  destruct (encode_legal (smf_of f d ess')) as [bs E]; [apply smf_of_legal; [exact HV|lia|exact L]|]. exists bs. split.
  - rewrite <- E. apply (text_assembled_complete (fun l e => forall j i, plainly (tables j i) l e)) with (ess := ess); [exact B| |exact J|exact C].
    intros j i l e P. destruct (P j i) as (K & HL & pre & x & dd & mid & y & tail & P1 & P2). apply (line_complete _ _ _ _ _ _ _ _ _ K HL P1 P2).
  - intros F Z. rewrite LE. apply (smf_of_decoded env f d ess' bs HV E L F Z).
Qed.
