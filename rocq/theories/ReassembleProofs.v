(** * ReassembleProofs: a disassembled file assembled again. *)
From Verif Require Import Base Strings Tables Event Marshal Track File SpecDecimal DecimalProofs SpecEvent SpecText SpecTable SpecAssemble SpecNote SpecTrack
  SpecDecoded SpecRead Utf8 Hex Disassemble Regex TextEvent Assemble TextAssemble FileProofs DecodedProofs NoteProofs ValidateProofs NotesTimeProofs EncodeProofs HexProofs Utf8Proofs
  AssembleProofs RegexProofs TextProofs TextReadProofs TextFileProofs.

(** ** Header and track lines *)

Definition column (bs : bytes) (n : Z) : bytes := pad 42 (ellipsize (hex_string bs) n).

Lemma Forall_firstn' : forall A (P : A -> Prop) n l, Forall P l -> Forall P (firstn n l).
Proof. intros A P n. induction n as [|n IH]; intros l F; [constructor|]. destruct F; [constructor|]. cbn [firstn]. constructor; auto. Qed.

Lemma column_calm : forall bs n, is_bytes bs -> 0 < n -> Forall calm (column bs n).
Proof.
  intros bs n B N. unfold column. pose proof (calm_hex _ _ (hex_string_form bs B)) as C.
  assert (A : ascii (hex_string bs)). { rewrite hex_string_hexsp by exact B; apply hexsp_ascii, B. }
  destruct (pad_spaces 42 (ellipsize (hex_string bs) n)) as [k ->]. apply Forall_app. split; [|apply calm_spaces].
  rewrite (ellipsize_ascii _ _ A N). destruct (_ <=? _); [exact C|]. apply Forall_app. split; [apply Forall_firstn', C|].
  repeat constructor; unfold calm; lia.
Qed.

Definition mthd_l (h : mthd) : bytes :=
  column (h_bytes h) 42 ++ str "  " ++ h_tag h ++ str " length:" ++ dec (h_length h) ++
  str ", format:" ++ dec (h_format h) ++ str ", tracks:" ++ dec (h_tracks h) ++ str ", " ++
  (if h_smpte h then str "SMPTE:" ++ dec (h_fps h) ++ str " fps," ++ dec (h_subframes h) ++ str " sub-frames"
   else str "metrical time:" ++ dec (h_ppqn h) ++ str " ppqn").

Lemma mthd_line_l : forall h, mthd_line h = mthd_l h ++ [10].
Proof. intros h. unfold mthd_line, mthd_l, column. rewrite <- !app_assoc. reflexivity. Qed.

Definition mtrk_l (t : mtrk) : bytes :=
  column (t_bytes t) 24 ++ str "  " ++ t_tag t ++ str " " ++ pad 2 (dec (t_number t)) ++ str " length:" ++ dec (t_length t).

Definition join (ls : list bytes) : bytes := concat (map (fun l => l ++ [10]) ls).

Lemma join_app : forall a b, join (a ++ b) = join a ++ join b.
Proof. intros. unfold join. rewrite map_app, concat_app. reflexivity. Qed.

(** The lines of a track. *)
Definition track_lines (env : env) (t : mtrk) (ls : list bytes) : Prop := Forall2 (decoded_line env) (t_events t) ls.

Lemma event_lines_shape : forall env es x, Forall (fun e => exists l, event_line e = Ok (l ++ [10]) /\ decoded_line env e l) es -> event_lines es = Ok x ->
  exists ls, x = join ls /\ Forall2 (decoded_line env) es ls.
Proof.
  intros env es. induction es as [|e es IH]; intros x F H; cbn [event_lines] in H.
  - apply Ok_inj in H. subst. exists []. split; [reflexivity|constructor].
  - inversion F as [|? ? (l & E & D) F']; subst. rewrite E in H. cbn [bind] in H. destruct (event_lines es) as [y| | | |]; try discriminate.
    cbn [bind] in H. apply Ok_inj in H. subst x. destruct (IH y F' eq_refl) as (ls & -> & G). exists (l :: ls). split; [reflexivity|]. constructor; assumption.
Qed.

Lemma mtrks_shape : forall env ts x, Forall (fun t => Forall (fun e => exists l, event_line e = Ok (l ++ [10]) /\ decoded_line env e l) (t_events t)) ts ->
  mtrks_text ts = Ok x -> exists pl : list (mtrk * list bytes), map fst pl = ts /\ Forall (fun p => track_lines env (fst p) (snd p)) pl /\
    x = join (concat (map (fun p => [] :: mtrk_l (fst p) :: snd p) pl)).
Proof.
  intros env ts. induction ts as [|t ts IH]; intros x F H; cbn [mtrks_text] in H.
  - apply Ok_inj in H. subst. exists []. split; [reflexivity|]. split; [constructor|reflexivity].
  - inversion F as [|? ? F1 F2]; subst. unfold mtrk_text in H. destruct (event_lines (t_events t)) as [y| | | |] eqn:E; try discriminate. cbn [bind] in H.
    destruct (mtrks_text ts) as [z| | | |]; try discriminate. cbn [bind] in H. apply Ok_inj in H. subst x.
    destruct (event_lines_shape env _ _ F1 E) as (ls & -> & L). destruct (IH z F2 eq_refl) as (pl & M & P & ->).
    exists ((t, ls) :: pl). split; [cbn [map fst]; congruence|]. split; [constructor; [exact L|exact P]|].
    cbn [map concat fst snd]. rewrite join_app. f_equal. change ([] :: mtrk_l t :: ls) with ([[]; mtrk_l t] ++ ls). rewrite join_app. unfold join at 2. cbn [map concat].
    rewrite app_nil_r. unfold mtrk_l, column. rewrite <- !app_assoc. cbn [app]. reflexivity.
Qed.

Lemma join_lines : forall ls, Forall (fun l => ~ In 10 l /\ ends_ok l) ls -> lines_of (join ls) ls.
Proof.
  induction ls as [|l ls IH]; intros F; [constructor|]. inversion F as [|? ? [A B] F']; subst.
  unfold join. cbn [map concat]. rewrite <- app_assoc. cbn [app]. apply lines_next; [exact A|apply chomped_none; exact B|apply IH, F'].
Qed.

(** ** Chunks *)

Fixpoint segments (c : list bytes) (pl : list (mtrk * list bytes)) : list (list bytes) :=
  match pl with
  | [] => [c]
  | p :: pl => (c ++ [[]]) :: segments (mtrk_l (fst p) :: snd p) pl
  end.

Lemma segments_concat : forall pl c, concat (segments c pl) = c ++ concat (map (fun p => [] :: mtrk_l (fst p) :: snd p) pl).
Proof.
  induction pl as [|p pl IH]; intros c; cbn [segments concat map]; [rewrite !app_nil_r; reflexivity|].
  rewrite IH, <- app_assoc. reflexivity.
Qed.

Lemma nil_no_tag : ~ tag_line [].
Proof. intros [(a & b & E)|(a & b & E)]; destruct a; discriminate. Qed.

Lemma one_chunk_more : forall c, one_chunk c -> one_chunk (c ++ [[]]).
Proof. intros c (h & t & -> & H & F). exists h, (t ++ [[]]). split; [reflexivity|]. split; [exact H|]. apply Forall_app. split; [exact F|]. constructor; [apply nil_no_tag|constructor]. Qed.

Lemma segments_chunks : forall pl c, one_chunk c -> Forall (fun p => one_chunk (mtrk_l (fst p) :: snd p)) pl -> Forall one_chunk (segments c pl).
Proof.
  induction pl as [|p pl IH]; intros c C F; cbn [segments]; [constructor; [exact C|constructor]|].
  inversion F; subst. constructor; [apply one_chunk_more, C|apply IH; assumption].
Qed.

(** ** The header line *)

Lemma lit_none : forall c l rs b s k, Forall (fun x => x <> c) b -> b <> [] -> rmatch (cat (lit (c :: l) :: rs)) [] (b ++ s) k = None.
Proof.
  intros c l rs b s k F N. destruct b as [|x b]; [congruence|]. inversion F as [|? ? X _]; subst. cbn [cat fold_right rmatch lit app strip].
  replace (c =? x) with false by lia. reflexivity.
Qed.

Lemma lit_skip : forall c l rs p s, Forall (fun x => x <> c) p -> rfind (cat (lit (c :: l) :: rs)) (p ++ s) = rfind (cat (lit (c :: l) :: rs)) s.
Proof.
  intros c l rs p s F. apply rfind_skip. intros a b -> B. apply Forall_app in F as [_ F]. apply lit_none; assumption.
Qed.

Lemma calm_not : forall c s, Forall calm s -> 72 <= c < 128 -> Forall (fun x => x <> c) s.
Proof. intros c s F R. eapply Forall_impl; [|exact F]. intros x X. unfold calm in X. lia. Qed.

Lemma const_not : forall c s, forallb (fun x => negb (x =? c)) s = true -> Forall (fun x => x <> c) s.
Proof. intros c s F. apply Forall_forall. intros x I. rewrite forallb_forall in F. specialize (F x I). lia. Qed.

Ltac skipping := repeat first [apply Forall_app; split]; first [apply calm_not; [first [apply calm_dec|assumption]|lia]|apply const_not; reflexivity].

Lemma m_opt : forall c x rs caps v k y, c x = true -> rmatch (cat rs) caps v k = Some y -> rmatch (cat (opt (cls c) :: rs)) caps ([x] ++ v) k = Some y.
Proof. intros c x rs caps v k y X K. rewrite rmatch_cat. unfold opt, cls. cbn [rmatch app byte1]. rewrite X, K. reflexivity. Qed.

Lemma header_read : forall h, Forall calm (column (h_bytes h) 42) -> h_tag h = str "MThd" -> h_smpte h = false -> 0 <= h_format h <= 2 -> 0 <= h_ppqn h < 32768 -> h_ppqn h = h_division h ->
  parse_mthd_line (mthd_l h) = Ok (MThd (str "MThd") 6 (h_format h) 0 (h_division h) (h_ppqn h) false 0 0 false []).
Proof.
  intros h C T S F P D. unfold parse_mthd_line, mthd_l. rewrite T, S.
  assert (R1 : rfind format_re (column (h_bytes h) 42 ++ str "  " ++ str "MThd" ++ str " length:" ++ dec (h_length h) ++ str ", format:" ++ dec (h_format h) ++
    str ", tracks:" ++ dec (h_tracks h) ++ str ", " ++ str "metrical time:" ++ dec (h_ppqn h) ++ str " ppqn") = Some [dec (h_format h)]).
  { change (str ", format:") with (str ", " ++ str "format:"). rewrite <- (app_assoc (str ", ") (str "format:")).
    rewrite !(app_assoc (column _ _)), !(app_assoc (_ ++ _)). unfold format_re. change (str "format:") with (102 :: [111; 114; 109; 97; 116; 58]).
    rewrite <- !app_assoc.
    match goal with |- rfind _ (?a ++ ?b ++ ?c ++ ?d ++ ?e ++ ?f ++ ?g) = _ => change (a ++ b ++ c ++ d ++ e ++ f ++ g) with (a ++ b ++ c ++ d ++ e ++ f ++ g) end.
    rewrite (lit_skip 102 _ _ (column (h_bytes h) 42)) by skipping. rewrite (lit_skip 102 _ _ (str "  ")) by skipping. rewrite (lit_skip 102 _ _ (str "MThd")) by skipping.
    rewrite (lit_skip 102 _ _ (str " length:")) by skipping. rewrite (lit_skip 102 _ _ (dec (h_length h))) by skipping. rewrite (lit_skip 102 _ _ (str ", ")) by skipping.
    apply rfind_here. rewrite rmatch_cat. apply m_lit.
    assert (X : h_format h = 0 \/ h_format h = 1 \/ h_format h = 2) by lia. destruct X as [-> | [-> | ->]]; (rewrite rmatch_cat; apply m_group; [intros k' K; exact K|reflexivity]). }
  rewrite R1. clear R1.
  assert (X : parse_uint 16 (dec (h_format h)) = Ok (h_format h)) by (apply dec16; lia). rewrite X. cbn [bind].
  assert (R2 : rfind metrical_re (column (h_bytes h) 42 ++ str "  " ++ str "MThd" ++ str " length:" ++ dec (h_length h) ++ str ", format:" ++ dec (h_format h) ++
    str ", tracks:" ++ dec (h_tracks h) ++ str ", " ++ str "metrical time:" ++ dec (h_ppqn h) ++ str " ppqn") = Some [dec (h_ppqn h)]).
  { unfold metrical_re. change (str "metrical") with (109 :: [101; 116; 114; 105; 99; 97; 108]).
    rewrite (lit_skip 109 _ _ (column (h_bytes h) 42)) by skipping. rewrite (lit_skip 109 _ _ (str "  ")) by skipping. rewrite (lit_skip 109 _ _ (str "MThd")) by skipping.
    rewrite (lit_skip 109 _ _ (str " length:")) by skipping. rewrite (lit_skip 109 _ _ (dec (h_length h))) by skipping.
    change (str ", format:") with (str ", for" ++ 109 :: str "at:"). rewrite <- (app_assoc (str ", for")). rewrite (lit_skip 109 _ _ (str ", for")) by skipping.
    cbn [app]. match goal with |- rfind ?r (109 :: ?s) = _ => assert (Z0 : rfind r (109 :: s) = rfind r s) by reflexivity; rewrite Z0; clear Z0 end.
    rewrite (lit_skip 109 _ _ (str "at:")) by skipping.
    rewrite (lit_skip 109 _ _ (dec (h_format h))) by skipping. rewrite (lit_skip 109 _ _ (str ", tracks:")) by skipping. rewrite (lit_skip 109 _ _ (dec (h_tracks h))) by skipping.
    rewrite (lit_skip 109 _ _ (str ", ")) by skipping.
    apply rfind_here. change (str "metrical time:") with ((109 :: [101; 116; 114; 105; 99; 97; 108]) ++ [32] ++ str "time:"). rewrite <- !app_assoc.
    rewrite rmatch_cat. apply m_lit. apply (m_opt _ 32); [reflexivity|].
    rewrite rmatch_cat. apply (m_lit (str "time:")). apply m_num; [lia|reflexivity|]. rewrite rmatch_cat. apply (m_star _ [32]); [reflexivity|reflexivity|].
    rewrite rmatch_cat. apply (m_lit (str "ppqn") []). reflexivity. }
  rewrite R2. clear R2. rewrite dec16 by lia. cbn [bind].
  assert (L : Z.land (h_ppqn h) 32768 = 0).
  { apply Z.bits_inj'. intros n Hn. rewrite Z.land_spec, Z.bits_0. destruct (Z.eq_dec n 15) as [->|N].
    - assert (TB : Z.testbit (h_ppqn h) 15 = false) by (apply Z.testbit_false; [lia|]; rewrite Z.div_small by lia; reflexivity). rewrite TB. reflexivity.
    - change 32768 with (2 ^ 15). rewrite (Z.pow2_bits_false 15 n) by lia. apply andb_false_r. }
  rewrite L. cbn [Z.eqb andb]. unfold make_mthd. replace (negb ((h_format h =? 0) || (h_format h =? 1) || (h_format h =? 2))) with false by lia.
  rewrite L. cbn [Z.eqb]. change 32767 with (Z.ones 15). rewrite Z.land_ones by lia. rewrite Z.mod_small by lia. rewrite D. reflexivity.
Qed.

(** ** The tracks *)

Lemma decoded_chunks : forall env r s, is_bytes r -> decode env r = Ok s ->
  exists h, f_mthd s = Some h /\ is_bytes (h_bytes h) /\ h_tag h = str "MThd" /\ h_length h = 6 /\ 0 <= h_format h <= 2 /\ 0 <= h_division h < 65536 /\
    zlen (f_tracks s) = h_tracks h /\ h_tracks h < 65536 /\
    (h_smpte h = false -> h_ppqn h = h_division h /\ h_ppqn h < 32768) /\
    Forall (fun t => is_bytes (t_bytes t) /\ t_tag t = str "MTrk" /\ 0 <= t_length t /\ 0 <= t_number t) (f_tracks s).
Proof.
  intros env r s Hr H. unfold decode in H. destruct (chunks r) as [cs| | | |] eqn:C; try discriminate. cbn [bind] in H.
  apply (chunks_bytes (length r) r cs (le_n _) Hr) in C.
  destruct cs as [|c cs]; [discriminate|]. destruct (unmarshal_mthd c) as [h| | | |] eqn:Eh; try discriminate. cbn [bind] in H.
  destruct (decode_tracks env 0 cs) as [ts| | | |] eqn:E; try discriminate. cbn [bind] in H.
  destruct (Z.eqb_spec (zlen ts) (h_tracks h)) as [N|]; [|discriminate]. apply Ok_inj in H. subst s. cbn [f_tracks f_mthd]. inversion C as [|? ? Bc C']; subst. clear C.
  exists h. split; [reflexivity|].
  assert (G : is_bytes (h_bytes h) /\ h_tag h = str "MThd" /\ h_length h = 6 /\ 0 <= h_format h <= 2 /\ 0 <= h_division h < 65536 /\ h_tracks h < 65536 /\
    (h_smpte h = false -> h_ppqn h = h_division h /\ h_ppqn h < 32768)).
  { clear - Bc Eh. unfold unmarshal_mthd in Eh.
    destruct c as [|a [|b [|d [|e [|l0 [|l1 [|l2 [|l3 [|f0 [|f1 [|t0 [|t1 [|d0 [|d1 c]]]]]]]]]]]]]]; try discriminate;
      destruct (negb (bytes_eqb _ _)); try discriminate; destruct (negb (_ =? 6)); try discriminate;
      destruct (negb (_ || _ || _)) eqn:Fm; try discriminate.
    pose proof Bc as B0. do 10 (apply is_bytes_inv in B0 as [_ B0]).
    apply is_bytes_inv in B0 as [T0 B0]. apply is_bytes_inv in B0 as [T1 B0]. apply is_bytes_inv in B0 as [D0 B0]. apply is_bytes_inv in B0 as [D1 B0].
    unfold is_byte in *. assert (R : 0 <= of_be16 d0 d1 < 65536) by (unfold of_be16; lia). assert (R' : 0 <= of_be16 t0 t1 < 65536) by (unfold of_be16; lia).
    destruct (Z.land (of_be16 d0 d1) 32768 =? 0) eqn:Z0.
    - apply Ok_inj in Eh. subst h. cbn. split; [exact Bc|]. split; [reflexivity|]. split; [reflexivity|]. split; [lia|]. split; [lia|]. split; [lia|]. intros _.
      assert (S : of_be16 d0 d1 < 32768).
      { apply Z.eqb_eq in Z0. destruct (Z_lt_ge_dec (of_be16 d0 d1) 32768) as [L|L]; [exact L|exfalso].
        assert (TB : Z.testbit (of_be16 d0 d1) 15 = true). { apply Z.testbit_true; [lia|]. replace (of_be16 d0 d1 / 2 ^ 15) with 1; [reflexivity|]. change (2 ^ 15) with 32768. lia. }
        assert (TB2 : Z.testbit (Z.land (of_be16 d0 d1) 32768) 15 = true) by (rewrite Z.land_spec, TB; reflexivity).
        rewrite Z0 in TB2. discriminate. }
      change 32767 with (Z.ones 15). rewrite Z.land_ones by lia. rewrite Z.mod_small by lia. split; [reflexivity|exact S].
    - destruct (smpte_fps _) as [[fps drop]|]; [|discriminate]. apply Ok_inj in Eh. subst h. cbn. repeat split; try exact Bc; try lia; discriminate. }
  destruct G as (G1 & G2 & G3 & G4 & G5 & G6 & G7). repeat (split; [assumption|]). 
  clear - C' E. revert E. assert (G : exists m, m = 0 /\ 0 <= m) by (exists 0; lia). destruct G as (m & Em & Pm). rewrite <- Em at 1. clear Em. revert ts m Pm.
  induction cs as [|w cs IH]; intros ts n Pn E; cbn [decode_tracks] in E.
  - apply Ok_inj in E. subst. constructor.
  - inversion C' as [|? ? Cw Cs]; subst. destruct (bytes_eqb _ _); [|eapply IH; eassumption].
    destruct (unmarshal_mtrk env n new_context w) as [t| | | |] eqn:Et; try discriminate. cbn [bind] in E.
    destruct (decode_tracks env (n + 1) cs) as [ts'| | | |] eqn:E'; try discriminate. cbn [bind] in E.
    apply Ok_inj in E. subst ts. constructor; [|eapply (IH Cs _ (n + 1)); [lia|exact E']].
    unfold unmarshal_mtrk in Et.
    destruct w as [|a0 [|a1 [|a2 [|a3 [|a4 [|a5 [|a6 [|a7 r']]]]]]]]; try discriminate;
    destruct (negb (bytes_eqb [a0; a1; a2; a3] (str "MTrk"))); try discriminate.
    destruct (decode_events env new_context r') as [[es c']| | | |] eqn:Ed; try discriminate. cbn [bind] in Et.
    apply Ok_inj in Et. subst t. cbn [t_bytes t_tag t_length t_number]. split; [exact Cw|]. split; [reflexivity|]. split; [|exact Pn].
    do 4 (apply is_bytes_inv in Cw as [_ Cw]). repeat (let A := fresh in apply is_bytes_inv in Cw as [A Cw]; unfold is_byte in A).
    unfold of_be32. lia.
Qed.

Lemma among : forall (big small : bytes) c, forallb (fun x => existsb (Z.eqb x) big) small = true -> In c small -> In c big.
Proof.
  intros big small c F I. rewrite forallb_forall in F. specialize (F c I). apply existsb_exists in F as (x & J & E). apply Z.eqb_eq in E. subst. exact J.
Qed.

Lemma mtrk_track : forall t, t_tag t = str "MTrk" -> track_line (mtrk_l t).
Proof.
  intros t T. unfold mtrk_l. rewrite T. exists (column (t_bytes t) 24 ++ str "  "). eexists. rewrite <- !app_assoc. reflexivity.
Qed.

Lemma mtrk_in : forall t c, t_tag t = str "MTrk" -> is_bytes (t_bytes t) -> In c (mtrk_l t) -> calm c \/ In c (str "MTrk length:").
Proof.
  intros t c T B I. unfold mtrk_l in I. rewrite T in I. destruct (pad_spaces 2 (dec (t_number t))) as [k Pk]. rewrite Pk in I.
  pose proof (column_calm (t_bytes t) 24 B ltac:(lia)) as C. pose proof (calm_dec (t_number t)) as C1. pose proof (calm_dec (t_length t)) as C2. pose proof (calm_spaces k) as C3.
  rewrite Forall_forall in C, C1, C2, C3. rewrite !in_app_iff in I.
  destruct I as [I|[I|[I|[I|[[I|I]|[I|I]]]]]]; auto; right; first [revert I; apply among; reflexivity].
Qed.

Lemma mtrk_not_header : forall t, t_tag t = str "MTrk" -> is_bytes (t_bytes t) -> ~ header_line (mtrk_l t).
Proof.
  intros t T B (a & b & E). assert (I : In 100 (mtrk_l t)) by (rewrite E; apply in_or_app; right; cbn; tauto).
  apply mtrk_in in I; [|exact T|exact B]. destruct I as [I|I]; [unfold calm in I; lia|]. cbn in I. lia.
Qed.

Lemma mtrk_no_feed : forall t, t_tag t = str "MTrk" -> is_bytes (t_bytes t) -> ~ In 10 (mtrk_l t) /\ ends_ok (mtrk_l t).
Proof.
  intros t T B. split; [|apply ends_in]; intros I; (apply mtrk_in in I; [|exact T|exact B]; destruct I as [I|I]; [unfold calm in I; lia|]; cbn in I; lia).
Qed.

Lemma mtrk_no_comment : forall t, is_bytes (t_bytes t) -> has_prefix (str "%%") (mtrk_l t) = false.
Proof. intros t B. unfold mtrk_l. change (str "  ") with (32 :: str " "). cbn [app]. apply calm_prefix, column_calm; [exact B|lia]. Qed.

Lemma mthd_in : forall h c, h_tag h = str "MThd" -> h_smpte h = false -> is_bytes (h_bytes h) -> In c (mthd_l h) ->
  calm c \/ In c (str "MThd length:, format:, tracks:, metrical time: ppqn").
Proof.
  intros h c T S B I. unfold mthd_l in I. rewrite T, S in I.
  pose proof (column_calm (h_bytes h) 42 B ltac:(lia)) as C. pose proof (calm_dec (h_length h)) as C1. pose proof (calm_dec (h_format h)) as C2.
  pose proof (calm_dec (h_tracks h)) as C3. pose proof (calm_dec (h_ppqn h)) as C4.
  rewrite Forall_forall in C, C1, C2, C3, C4. rewrite !in_app_iff in I.
  decompose [or] I; auto; right; match goal with H : In c (str _) |- _ => revert H; apply among; reflexivity end.
Qed.

Lemma mthd_no_feed : forall h, h_tag h = str "MThd" -> h_smpte h = false -> is_bytes (h_bytes h) -> ~ In 10 (mthd_l h) /\ ends_ok (mthd_l h).
Proof.
  intros h T S B. split; [|apply ends_in]; intros I; (apply mthd_in in I; [|exact T|exact S|exact B]; destruct I as [I|I]; [unfold calm in I; lia|]; cbn in I; lia).
Qed.

Lemma mthd_header : forall h, h_tag h = str "MThd" -> header_line (mthd_l h).
Proof. intros h T. unfold mthd_l. rewrite T. exists (column (h_bytes h) 42 ++ str "  "). eexists. rewrite <- !app_assoc. reflexivity. Qed.

Lemma mthd_no_comment : forall h, is_bytes (h_bytes h) -> has_prefix (str "%%") (mthd_l h) = false.
Proof. intros h B. unfold mthd_l. change (str "  ") with (32 :: str " "). cbn [app]. apply calm_prefix, column_calm; [exact B|lia]. Qed.

(** ** Reading a track *)

(** An event that was read from its line. *)
Definition back (e e' : event) : Prop := e_delta e' = e_delta e /\ e_body e' = as_read (e_body e) /\ legal_header e'.

Lemma line_parsed : forall env e l table, middle_octave env = 4 -> decoded_line env e l -> ~ misleading (e_body e) -> readable table (e_body e) ->
  exists e', unmarshal_text table l = Ok e' /\ e_delta e' = e_delta e /\ e_body e' = as_read (e_body e) /\ legal_header e'.
Proof.
  intros env e l table M4 (col & tk & n & m & h1 & h2 & LO & -> & DL & P & _ & N) M R.
  rewrite (proj1 (right_kind env table col tk (e_delta e) n m h1 h2 (e_body e) P LO) M).
  eapply read_back; try eassumption. rewrite M4 in N. exact N.
Qed.

Lemma lines_back : forall env es ls extra tables, middle_octave env = 4 -> Forall2 (decoded_line env) es ls ->
  Forall (fun e => ~ misleading (e_body e) /\ forall i, readable (tables i) (e_body e)) es -> Forall (fun l => is_event_line l = false) extra ->
  exists es', parse_events tables (ls ++ extra) = Ok es' /\ Forall2 back es es'.
Proof.
  intros env es ls extra tables M F. revert tables. induction F as [|e l es ls D F IH]; intros tables R X.
  - cbn [app]. exists []. split; [|constructor]. clear - X. revert tables. induction X as [|x extra X _ IH]; intros tables; [reflexivity|]. cbn [parse_events]. rewrite X. apply IH.
  - inversion R as [|? ? (N & Q) R']; subst. pose proof D as D0. destruct D as (col & tk & n & m & h1 & h2 & L & -> & DL & P & LH & NB).
    cbn [app parse_events]. rewrite line_is_event by exact L.
    destruct (line_parsed env e _ (tables O) M D0 N (Q O)) as (e' & U & E1 & E2 & E3). rewrite U. cbn [bind].
    destruct (IH (fun i => tables (S i))) as (es' & PE & G); [|exact X|].
    { eapply Forall_impl; [|exact R']. intros a [A B]. split; [exact A|]. intros i. apply B. }
    rewrite PE. cbn [bind]. exists (e' :: es'). split; [reflexivity|]. constructor; [|exact G]. split; [exact E1|]. split; [exact E2|exact E3].
Qed.

Lemma same_length : forall A B (R : A -> B -> Prop) a b, Forall2 R a b -> length a = length b.
Proof. intros A B R a b F. induction F; cbn [length]; congruence. Qed.

Lemma back_nth : forall es es1 i e, Forall2 back es es1 -> nth_error es i = Some e -> exists e1, nth_error es1 i = Some e1 /\ back e e1.
Proof.
  intros es es1 i e F. revert i. induction F as [|a b es es1 B F IH]; intros [|i] H; try discriminate; cbn [nth_error] in *.
  - inversion H; subst. eauto.
  - apply IH, H.
Qed.

Lemma back_continues : forall e e1, back e e1 -> continues e1 <-> continues e.
Proof.
  intros e e1 (_ & B & _). unfold continues. rewrite B. split; intros (d & f & E).
  - destruct (e_body e); try discriminate. eauto.
  - rewrite E. cbn. eauto.
Qed.

Lemma marked_legal : forall fin e e', marked fin e e' -> legal_header e -> legal_header e'.
Proof.
  intros fin e e' (_ & _ & _ & S & T & B) L. unfold legal_header in *. rewrite S, T. destruct (e_body e); rewrite B; exact L.
Qed.

Lemma read_marked_true : forall e e1 e2, back e e1 -> marked true e1 e2 -> e_body e2 = read_marked true (e_body e).
Proof.
  intros e e1 e2 (_ & B & _) (_ & _ & _ & _ & _ & M). rewrite B in M. destruct (e_body e); cbn [as_read] in M; rewrite M; reflexivity.
Qed.

Lemma fixed_back : forall es es1, Forall2 back es es1 -> es <> [] ->
  exists es2, fixups es1 = Ok es2 /\ events_back es es2 /\ Forall legal_header es2.
Proof.
  intros es es1 F NE. pose proof (same_length _ _ _ _ _ F) as LE.
  assert (NE1 : es1 <> []) by (intros ->; destruct es; [congruence|discriminate]).
  destruct (fixups_spec es1 NE1) as (es2 & X & L & N & Z). exists es2. split; [exact X|].
  assert (K : forall i e e2, nth_error es i = Some e -> nth_error es2 i = Some e2 -> e_delta e2 = e_delta e /\ legal_header e2 /\
    exists fin, e_body e2 = read_marked fin (e_body e) /\ (fin = true <-> exists n, nth_error es (S i) = Some n /\ ~ continues n)).
  { intros i e e2 E E2. destruct (back_nth _ _ _ _ F E) as (e1 & E1 & B). 
    assert (SAME : e2 = e1 -> e_delta e2 = e_delta e /\ legal_header e2 /\ e_body e2 = read_marked false (e_body e)).
    { intros ->. destruct B as (B1 & B2 & B3). split; [exact B1|]. split; [exact B3|]. rewrite B2. destruct (e_body e); reflexivity. }
    destruct (nth_error es (S i)) as [n|] eqn:En.
    - destruct (back_nth _ _ _ _ F En) as (n1 & En1 & Bn). destruct (N i e1 n1 e2 E1 En1 E2) as [N1 N2].
      destruct (is_continuation n1) eqn:C.
      + apply is_continuation_spec in C. destruct (SAME (N1 C)) as (S1 & S2 & S3). split; [exact S1|]. split; [exact S2|]. exists false. split; [exact S3|].
        split; [discriminate|]. intros (n' & EQ & NC). injection EQ as <-. exfalso. apply NC. apply (back_continues _ _ Bn), C.
      + assert (NC : ~ continues n1) by (rewrite <- is_continuation_spec; congruence). specialize (N2 NC).
        assert (D : e_delta e2 = e_delta e) by (destruct N2 as (_ & D & _); destruct B as (B1 & _); congruence).
        split; [exact D|]. split; [eapply marked_legal; [exact N2|apply B]|]. exists true. split; [eapply read_marked_true; eassumption|].
        split; [intros _|reflexivity]. exists n. split; [reflexivity|]. intros Cn. apply NC. apply (back_continues _ _ Bn), Cn.
    - assert (LI : i = (length es1 - 1)%nat). { apply nth_error_None in En. assert (i < length es)%nat by (apply nth_error_Some; congruence). lia. }
      destruct (SAME (Z e1 e2 ltac:(rewrite <- LI; exact E1) ltac:(rewrite <- LI; exact E2))) as (S1 & S2 & S3). split; [exact S1|]. split; [exact S2|].
      exists false. split; [exact S3|]. split; [discriminate|]. intros (n & EQ & _). discriminate. }
  split.
  - split; [lia|]. intros i e e' E E'. destruct (K i e e' E E') as (A & _ & B). split; assumption.
  - apply Forall_forall. intros e2 I. apply In_nth_error in I as (i & I). assert (J : (i < length es)%nat) by (rewrite LE, <- L; apply nth_error_Some; congruence).
    apply nth_error_Some in J. destruct (nth_error es i) as [e|] eqn:E; [|congruence]. apply (K i e e2 E I).
Qed.

(** ** Chunk by chunk *)

Lemma untagged : forall tables c s ls, Forall (fun l => ~ tag_line l) ls -> assemble_chunk tables c s ls = Ok s.
Proof.
  intros tables c s ls F. induction F as [|l ls N F IH]; [reflexivity|]. cbn [assemble_chunk]. unfold assemble_line.
  assert (A : contains l (str "MThd") = false). { destruct (contains l (str "MThd")) eqn:A; [|reflexivity]. exfalso. apply N. left. apply header_spec, A. }
  assert (B : contains l (str "MTrk") = false). { destruct (contains l (str "MTrk")) eqn:B; [|reflexivity]. exfalso. apply N. right. apply contains_spec, B. }
  rewrite A, B. destruct (has_prefix _ _); cbn [bind]; exact IH.
Qed.

Lemma lines_untagged : forall env tables t ls, track_lines env t ls -> track_readable tables t -> Forall (fun l => ~ tag_line l /\ ~ In 10 l /\ ends_ok l) ls.
Proof.
  intros env tables t ls F [_ R]. unfold track_lines in F. revert R. induction F as [|e l es ls D F IH]; intros R; [constructor|].
  inversion R as [|? ? (M & (S1 & S2 & S3) & Q) R']; subst. constructor; [|apply IH, R'].
  destruct D as (col & tk & n & m & h1 & h2 & L & -> & _ & P & _). split; [eapply line_no_tag; eassumption|].
  split; [apply dot_plain; eapply line_dot; [exact P|exact (Q O O)|exact L]|]. eapply line_ends; [exact P| |exact L]. destruct (e_body e); auto.
Qed.

Definition chunk_ok (t : mtrk) : Prop := is_bytes (t_bytes t) /\ t_tag t = str "MTrk" /\ 0 <= t_length t /\ 0 <= t_number t.

Definition with_tracks (h : mthd) (n : Z) : mthd :=
  MThd (h_tag h) (h_length h) (h_format h) n (h_division h) (h_ppqn h) (h_smpte h) (h_subframes h) (h_fps h) (h_drop h) (h_bytes h).

(** One track chunk *)
Lemma track_chunk : forall env tables t ls extra h ts, middle_octave env = 4 -> chunk_ok t -> track_lines env t ls ->
  t_events t <> [] -> Forall (fun e => ~ misleading (e_body e) /\ forall i, readable (tables i) (e_body e)) (t_events t) ->
  Forall (fun l => ~ tag_line l) ls -> Forall (fun l => ~ tag_line l) extra -> Forall (fun l => is_event_line l = false) extra ->
  exists es, events_back (t_events t) es /\ Forall legal_header es /\
    assemble_chunk tables (mtrk_l t :: ls ++ extra) (SMF (Some h) ts) (mtrk_l t :: ls ++ extra) =
      Ok (SMF (Some (with_tracks h ((h_tracks h + 1) mod 65536))) (ts ++ [assembled_mtrk (zlen ts) es])).
Proof.
  intros env tables t ls extra h ts M (B & T & _) TL NE R U1 U2 X.
  destruct (lines_back env (t_events t) ls extra tables M TL R X) as (es1 & PE & F).
  destruct (fixed_back _ _ F NE) as (es2 & FX & EB & LH). exists es2. split; [exact EB|]. split; [exact LH|].
  cbn [assemble_chunk]. unfold assemble_line at 1. rewrite mtrk_no_comment by exact B.
  assert (A : contains (mtrk_l t) (str "MThd") = false).
  { destruct (contains (mtrk_l t) (str "MThd")) eqn:A; [|reflexivity]. exfalso. apply header_spec in A. exact (mtrk_not_header t T B A). }
  assert (A' : contains (mtrk_l t) (str "MTrk") = true) by (apply contains_spec, mtrk_track, T).
  rewrite A, A'. unfold parse_mtrk. cbn [after_mtrk]. rewrite A', PE. cbn [bind]. rewrite FX. cbn [bind f_mthd f_tracks].
  apply untagged. apply Forall_app. split; assumption.
Qed.

Lemma track_chunks : forall env pl tables t ls h ts, middle_octave env = 4 ->
  Forall (fun p => chunk_ok (fst p) /\ track_lines env (fst p) (snd p) /\ track_readable tables (fst p)) ((t, ls) :: pl) ->
  exists ess, Forall2 (fun p es => events_back (t_events (fst p)) es /\ Forall legal_header es) ((t, ls) :: pl) ess /\
    assemble_chunks tables (SMF (Some h) ts) (segments (mtrk_l t :: ls) pl) =
      Ok (SMF (Some (with_tracks h ((h_tracks h + zlen ess) mod 65536)))
              (ts ++ map (fun x => assembled_mtrk (zlen ts + Z.of_nat (fst x)) (snd x)) (combine (seq 0 (length ess)) ess))).
Proof.
  intros env pl. induction pl as [|[t2 ls2] pl IH]; intros tables t ls h ts M F.
  - inversion F as [|? ? (C & L & K) _]; subst. cbn [fst snd] in *. pose proof (lines_untagged _ _ _ _ L K) as U.
    destruct K as [NE K]. destruct (track_chunk env (tables O) t ls [] h ts M C L NE) as (es & E1 & E2 & E3).
    + eapply Forall_impl; [|exact K]. intros e (A & _ & B). split; [exact A|apply B].
    + eapply Forall_impl; [|exact U]. intros l A. apply A.
    + constructor.
    + constructor.
    + rewrite app_nil_r in E3. exists [es]. split; [apply Forall2_cons; [split; assumption|apply Forall2_nil]|]. cbn [segments assemble_chunks]. rewrite E3. cbn [bind].
      f_equal. f_equal. cbn [length seq combine map fst snd]. rewrite Z.add_0_r. reflexivity.
  - inversion F as [|? ? (C & L & K) F']; subst. cbn [fst snd] in *. pose proof (lines_untagged _ _ _ _ L K) as U.
    destruct K as [NE K]. destruct (track_chunk env (tables O) t ls [[]] h ts M C L NE) as (es & E1 & E2 & E3).
    + eapply Forall_impl; [|exact K]. intros e (A & _ & B). split; [exact A|apply B].
    + eapply Forall_impl; [|exact U]. intros l A. apply A.
    + constructor; [apply nil_no_tag|constructor].
    + constructor; [reflexivity|constructor].
    + destruct (IH (fun j => tables (S j)) t2 ls2 (with_tracks h ((h_tracks h + 1) mod 65536)) (ts ++ [assembled_mtrk (zlen ts) es]) M) as (ess & G1 & G2).
      { eapply Forall_impl; [|exact F']. intros p (P1 & P2 & P3 & P4). split; [exact P1|]. split; [exact P2|]. split; [exact P3|].
        eapply Forall_impl; [|exact P4]. intros e (A1 & A2 & A3). split; [exact A1|]. split; [exact A2|]. intros j i. apply A3. }
      exists (es :: ess). split; [constructor; [split; assumption|exact G1]|]. cbn [segments assemble_chunks fst snd]. change ((mtrk_l t :: ls) ++ [[]]) with (mtrk_l t :: ls ++ [[]]).
      rewrite E3. cbn [bind]. rewrite G2. f_equal. f_equal.
      * f_equal. unfold with_tracks. cbn [h_tag h_length h_format h_tracks h_division h_ppqn h_smpte h_subframes h_fps h_drop h_bytes]. f_equal.
        rewrite Z.add_mod_idemp_l by lia. f_equal. unfold zlen. cbn [length]. lia.
      * rewrite <- app_assoc. f_equal. cbn [length seq combine map fst snd app]. rewrite Z.add_0_r. f_equal.
        rewrite <- seq_shift. clear. generalize (seq 0 (length ess)) as q. revert ess.
        assert (EL : zlen (ts ++ [assembled_mtrk (zlen ts) es]) = zlen ts + 1) by (unfold zlen; rewrite app_length; cbn [length]; lia). rewrite EL.
        induction ess as [|x ess IHe]; intros [|q0 q]; cbn [combine map fst snd]; try reflexivity. f_equal; [|apply IHe]. f_equal. lia.
Qed.

(** ** Files *)

Theorem reassembled : forall env r s text tables, is_bytes r -> decode env r = Ok s -> middle_octave env = 4 ->
  (forall h, f_mthd s = Some h -> h_smpte h = false) -> Forall (track_readable tables) (f_tracks s) ->
  disassemble s = Ok text -> ~ long_line text ->
  exists h h' ts, f_mthd s = Some h /\ assemble_text tables text = encode (SMF (Some h') ts) /\
    h_tag h' = h_tag h /\ h_length h' = h_length h /\ h_format h' = h_format h /\ h_tracks h' = h_tracks h /\ h_division h' = h_division h /\
    Forall2 (fun t t' => events_back (t_events t) (t_events t') /\ Forall legal_header (t_events t') /\ t_tag t' = t_tag t) (f_tracks s) ts.
Proof.
  intros env r s text tables Hr H M4 NS TO D NL.
  destruct (decoded_chunks env r s Hr H) as (h & Eh & Bh & Th & Lh & Fh & Dh & Nh & Nh' & Ph & CT).
  specialize (NS h Eh). destruct (Ph NS) as [P1 P2].
  pose proof (decoded_line_ok env r s Hr H) as DL.
  unfold disassemble in D. rewrite Eh in D. destruct (mtrks_text (f_tracks s)) as [x| | | |] eqn:EX; try discriminate. cbn [bind] in D. apply Ok_inj in D. subst text.
  destruct (mtrks_shape env _ _ DL EX) as (pl & PM & PL & ->). rewrite mthd_line_l in *.
  set (lines := concat (map (fun p => [] :: mtrk_l (fst p) :: snd p) pl)) in *.
  assert (ET : (mthd_l h ++ [10]) ++ join lines = join (mthd_l h :: lines)) by reflexivity. rewrite ET in *. clear ET.
  assert (ALL : Forall (fun p => chunk_ok (fst p) /\ track_lines env (fst p) (snd p) /\ track_readable tables (fst p)) pl).
  { apply Forall_forall. intros p I. assert (J : In (fst p) (f_tracks s)) by (rewrite <- PM; apply in_map, I). rewrite Forall_forall in CT, PL, TO.
    split; [apply CT, J|]. split; [apply PL, I|apply TO, J]. }
  assert (RC : read_chunks (join (mthd_l h :: lines)) = Ok (segments [mthd_l h] pl)).
  { apply read_chunks_ok. split; [exact NL|]. exists (mthd_l h :: lines), []. split; [|split; [|split]].
    - apply join_lines. constructor; [apply mthd_no_feed; assumption|]. unfold lines. clear - ALL. induction ALL as [|p pl (C & L & K) ALL IH]; [constructor|].
      cbn [map concat]. apply Forall_app. split; [|exact IH]. constructor; [split; [intros []|intros [|? ?]; discriminate]|].
      constructor; [apply mtrk_no_feed; apply C|]. eapply Forall_impl; [|eapply lines_untagged; [exact L|exact K]]. intros l (_ & A); exact A.
    - split; [rewrite segments_concat; reflexivity|]. apply segments_chunks.
      + exists (mthd_l h), []. split; [reflexivity|]. split; [left; apply mthd_header, Th|constructor].
      + eapply Forall_impl; [|exact ALL]. intros p (C & L & K). exists (mtrk_l (fst p)), (snd p). split; [reflexivity|]. split; [right; apply mtrk_track, C|].
        eapply Forall_impl; [|eapply lines_untagged; [exact L|exact K]]. intros l (A & _); exact A.
    - constructor.
    - destruct pl; cbn [segments app hd]; apply mthd_header, Th. }
  unfold assemble_text. rewrite RC. cbn [bind].
  set (h0 := MThd (str "MThd") 6 (h_format h) 0 (h_division h) (h_ppqn h) false 0 0 false []).
  assert (HC : forall extra tb, Forall (fun l => ~ tag_line l) extra -> assemble_chunk tb (mthd_l h :: extra) (SMF None []) (mthd_l h :: extra) = Ok (SMF (Some h0) [])).
  { intros extra tb X. cbn [assemble_chunk]. unfold assemble_line. rewrite mthd_no_comment by exact Bh.
    assert (A : contains (mthd_l h) (str "MThd") = true) by (apply header_spec, mthd_header, Th). rewrite A. unfold parse_mthd. cbn [find]. rewrite A.
    rewrite header_read; try assumption; try lia; [|apply column_calm; [exact Bh|lia]]. cbn [bind f_tracks]. apply untagged, X. }
  destruct pl as [|[t ls] pl].
  - cbn [segments assemble_chunks]. rewrite (HC []) by constructor. cbn [bind]. cbn in PM. exists h, h0, []. split; [exact Eh|]. split; [reflexivity|].
    rewrite <- PM in *. cbn in Nh. split; [symmetry; exact Th|]. split; [symmetry; exact Lh|]. split; [reflexivity|]. split; [cbn; lia|]. split; [reflexivity|constructor].
  - cbn [segments assemble_chunks app]. rewrite (HC [[]]) by (constructor; [apply nil_no_tag|constructor]). cbn [bind fst snd].
    destruct (track_chunks env pl (fun j => tables (S j)) t ls h0 [] M4) as (ess & G1 & G2).
    { eapply Forall_impl; [|exact ALL]. intros p (A1 & A2 & A3 & A4). split; [exact A1|]. split; [exact A2|]. split; [exact A3|].
      eapply Forall_impl; [|exact A4]. intros e (B1 & B2 & B3). split; [exact B1|]. split; [exact B2|]. intros j i. apply B3. }
    rewrite G2. cbn [bind]. eexists h, _, _. split; [exact Eh|]. split; [reflexivity|]. cbn [with_tracks h_tag h_length h_format h_tracks h_division h0].
    split; [symmetry; exact Th|]. split; [symmetry; exact Lh|]. split; [reflexivity|]. split; [|split; [reflexivity|]].
    + apply same_length in G1. assert (E : zlen ess = zlen (f_tracks s)) by (unfold zlen; rewrite <- PM, map_length; lia). rewrite E, Nh. apply Z.mod_small.
      unfold zlen in Nh. lia.
    + cbn [app]. rewrite <- PM in CT. rewrite <- PM. clear - G1 CT.
      change (zlen []) with 0. generalize 0%nat as k. revert CT. induction G1 as [|p es pl2 ess2 [A B] G IH]; intros CT k; [constructor|].
      cbn [map length seq combine]. cbn [map] in CT. inversion CT as [|? ? C0 C1]; subst. constructor; [|apply IH, C1].
      cbn [snd assembled_mtrk t_events t_tag]. split; [exact A|]. split; [exact B|]. symmetry. apply C0.
Qed.

(** ** Back to bytes *)

Lemma events_back_cons : forall e es l', events_back (e :: es) l' -> exists e' es', l' = e' :: es' /\ events_back es es' /\ e_delta e' = e_delta e /\
  exists fin, e_body e' = read_marked fin (e_body e) /\ (fin = true <-> exists n, nth_error es 0 = Some n /\ ~ continues n).
Proof.
  intros e es l' [L H]. destruct l' as [|e' es']; [discriminate|]. exists e', es'. split; [reflexivity|]. split.
  - split; [cbn [length] in L; lia|]. intros i a b A B. exact (H (S i) a b A B).
  - exact (H O e e' eq_refl eq_refl).
Qed.

Lemma chained_head : forall op es, chained op es -> es <> [] -> op = false <-> exists n, nth_error es 0 = Some n /\ ~ continues n.
Proof.
  intros op [|e es] C N; [congruence|]. cbn [chained] in C. split.
  - intros ->. exists e. split; [reflexivity|]. intros (d & f & E). rewrite E in C. destruct C as [C _]. discriminate.
  - intros (n & E & NC). injection E as <-. destruct (e_body e) eqn:B; try apply C. exfalso. apply NC. exists data, fin. exact B.
Qed.

Lemma chained_back : forall es es' op, chained op es -> events_back es es' -> Forall legal_event es -> Forall legal_header es' ->
  Forall (fun e => match e_body e with SysExContinuation _ f => f = false | _ => True end) es ->
  sysex_sequence op (map e_body es') /\ Forall legal_event es' /\ contents es' = contents es /\
  (forall env, faithful_events env es -> faithful_events env es').
Proof.
  induction es as [|e es IH]; intros l' op C B L H Z.
  - destruct B as [B _]. destruct l'; [|discriminate]. split; [exact I|]. split; [constructor|]. split; [reflexivity|]. intros env _. constructor.
  - destruct (events_back_cons _ _ _ B) as (e' & es' & -> & B' & D & fin & EB & EF). inversion L as [|? ? LE L']; subst. inversion H as [|? ? HE H']; subst.
    inversion Z as [|? ? ZE Z']; subst.
    assert (K : exists op', chained op' es /\ (sysex_sequence op' (map e_body es') -> sysex_sequence op (e_body e' :: map e_body es')) /\ legal_body (e_body e') /\
      forget_end (view (e_body e')) = forget_end (view (e_body e)) /\ (forall env, ids_faithful env (view (e_body e)) -> ids_faithful env (view (e_body e')))).
    { destruct LE as (_ & _ & LB). cbn [chained] in C. rewrite EB. destruct (e_body e) eqn:EE; cbn [read_marked as_read];
        try (destruct C as [-> C]; exists false; split; [exact C|]; split; [intros X; first [exact X|split; [reflexivity|exact X]]|]; split; [exact LB|]; split; [reflexivity|auto]).
      - (* message *) destruct C as (-> & NE & C). rename single into sg. assert (F : fin = sg).
        { pose proof (chained_head _ _ C NE) as Q. rewrite <- EF in Q. destruct fin, sg; cbn in Q; try reflexivity; exfalso; intuition discriminate. }
        subst fin. exists (negb sg). split; [exact C|]. split; [intros X; split; [reflexivity|exact X]|]. split; [exact LB|]. split; [reflexivity|auto].
      - (* continuation *) subst. destruct C as (-> & NE & C). exists (negb fin). split.
        + destruct C as [C|C]; pose proof (chained_head _ _ C NE) as Q; rewrite <- EF in Q; destruct fin; cbn; try exact C; exfalso; intuition discriminate.
        + split; [intros X; split; [reflexivity|exact X]|]. split; [|split; [reflexivity|auto]].
          cbn [legal_body] in *. destruct LB as (L1 & L2 & L3). split; [exact L1|]. split; [exact L2|]. right. destruct L3; [discriminate|assumption]. }
    destruct K as (op' & K1 & K2 & K3 & K4 & K5). destruct (IH es' op' K1 B' L' H' Z') as (I1 & I2 & I3 & I4).
    split; [apply K2, I1|]. split; [constructor; [|exact I2]; split; [exact HE|]; rewrite D; split; [apply LE|exact K3]|]. split.
    + unfold contents in *. cbn [map]. rewrite I3, D, K4. reflexivity.
    + intros env F. inversion F; subst. constructor; [apply K5; assumption|apply I4; assumption].
Qed.

(** A file with the same header and the same contents can be written and decodes to them. *)
Lemma rewritten : forall env r s h h' ts, is_bytes r -> decode env r = Ok s -> f_mthd s = Some h -> h_smpte h = false ->
  h_tag h' = h_tag h -> h_length h' = h_length h -> h_format h' = h_format h -> h_tracks h' = h_tracks h -> h_division h' = h_division h ->
  Forall2 (fun t t' => t_tag t' = str "MTrk" /\ legal_events (t_events t') /\ faithful_events env (t_events t') /\ contents (t_events t') = map ev_view (t_events t)) (f_tracks s) ts ->
  exists bs, encode (SMF (Some h') ts) = Ok bs /\ (zlen bs < 4294967296 ->
    exists s' h h', decode env bs = Ok s' /\ f_mthd s = Some h /\ f_mthd s' = Some h' /\ same_header h h' /\
      map (fun t => map ev_view (t_events t)) (f_tracks s') = map (fun t => map ev_view (t_events t)) (f_tracks s)).
Proof.
  intros env r s h h' ts Hr H Eh NS T1 T2 T3 T4 T5 G.
  destruct (decoded_chunks env r s Hr H) as (h0 & Eh0 & _ & Th & Lh & Fh & Dh & Nh & Nh' & Ph & CT). assert (h0 = h) by congruence. subst h0.
  assert (LS : legal_smf (SMF (Some h') ts)).
  { split; cbn [f_mthd f_tracks].
    - split.
      + split; [congruence|]. split; [congruence|]. split; [rewrite T3; lia|]. split; [rewrite T4; rewrite <- Nh; unfold zlen in *; lia|]. left. rewrite T5. destruct (Ph NS). lia.
      + rewrite T4, <- Nh. unfold zlen. f_equal. eapply same_length, G.
    - clear - G. induction G as [|? ? ? ? (A & B & _) G IH]; constructor; [split; assumption|exact IH]. }
  destruct (encode_legal _ LS) as (bs & EN). exists bs. split; [exact EN|]. intros SZ.
  destruct (file_roundtrip env _ h' bs LS eq_refl) as (s' & h2 & DS & H2 & SH & MC); [|exact EN|exact SZ|].
  { cbn [f_tracks]. clear - G. induction G as [|? ? ? ? (_ & _ & A & _) G IH]; constructor; assumption. }
  exists s', h, h2. split; [exact DS|]. split; [exact Eh|]. split; [exact H2|]. split.
  - unfold same_header in *. destruct SH as (Q1 & Q2 & Q3 & Q4 & Q5). repeat split; congruence.
  - rewrite MC. cbn [f_tracks]. clear - G. induction G as [|? ? ? ? (_ & _ & _ & A) G IH]; [reflexivity|]. cbn [map]. rewrite A, IH. reflexivity.
Qed.

(** A file that survives: the conditions of [reassembled], legal events and packets in sequence. *)
Theorem text_roundtrip : forall env r s text tables, is_bytes r -> decode env r = Ok s -> middle_octave env = 4 ->
  (forall h, f_mthd s = Some h -> h_smpte h = false) -> Forall (track_readable tables) (f_tracks s) ->
  Forall (fun t => Forall legal_event (t_events t) /\ chained false (t_events t) /\ faithful_events env (t_events t)) (f_tracks s) ->
  disassemble s = Ok text -> ~ long_line text ->
  exists bs, assemble_text tables text = Ok bs /\ (zlen bs < 4294967296 ->
    exists s' h h', decode env bs = Ok s' /\ f_mthd s = Some h /\ f_mthd s' = Some h' /\ same_header h h' /\
      map (fun t => map ev_view (t_events t)) (f_tracks s') = map (fun t => map ev_view (t_events t)) (f_tracks s)).
Proof.
  intros env r s text tables Hr H M4 NS TO LT D NL.
  destruct (reassembled env r s text tables Hr H M4 NS TO D NL) as (h & h' & ts & Eh & EA & T1 & T2 & T3 & T4 & T5 & F).
  destruct (decoded_chunks env r s Hr H) as (h0 & Eh0 & _ & Th & Lh & Fh & Dh & Nh & Nh' & Ph & CT). assert (h0 = h) by congruence. subst h0.
  pose proof (decoded_file env r s Hr H) as DF.
  assert (G : Forall2 (fun t t' => t_tag t' = str "MTrk" /\ legal_events (t_events t') /\ faithful_events env (t_events t') /\ contents (t_events t') = map ev_view (t_events t)) (f_tracks s) ts).
  { clear - F LT CT DF. revert LT CT DF. induction F as [|t t' l l' (A & B & C) F IH]; intros LT CT DF; [constructor|].
    inversion LT as [|? ? (L1 & L2 & L3) LT']; subst. inversion CT as [|? ? C0 CT']; subst. inversion DF as [|? ? (_ & _ & D0) DF']; subst.
    assert (Z : Forall (fun e => match e_body e with SysExContinuation _ f => f = false | _ => True end) (t_events t)).
    { eapply Forall_impl; [|exact D0]. intros e (_ & _ & DB). destruct (e_body e); auto. apply DB. }
    constructor; [|apply IH; assumption]. destruct (chained_back _ _ false L2 A L1 B Z) as (S1 & S2 & S3 & S4).
    split; [rewrite C; apply C0|]. split; [split; assumption|]. split; [apply S4, L3|]. rewrite S3. unfold contents. apply map_ext_in. intros e I.
    rewrite Forall_forall in Z. specialize (Z e I). unfold ev_view. f_equal. destruct (e_body e); try reflexivity. rewrite Z. reflexivity. }
  destruct (rewritten env r s h h' ts Hr H Eh (NS h Eh) T1 T2 T3 T4 T5 G) as (bs & E & R). exists bs. split; [congruence|exact R].
Qed.
