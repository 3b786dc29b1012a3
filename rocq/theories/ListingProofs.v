(** * ListingProofs: the listing says the file. *)
From Verif Require Import Base Strings Tables Event Marshal Track File SpecVlq SpecText SpecTable SpecEvent SpecTrack SpecDecoded SpecAssemble SpecRead SpecSurvive SpecDecimal SpecLine SpecJsonEvent SpecSource SpecExport
  Utf8 Hex Disassemble Regex TextEvent Assemble TextAssemble Utf8Proofs AssembleProofs DecodedProofs NoteProofs TextFileProofs LineProofs ReassembleProofs SourceProofs SourceTextProofs.

Lemma blank_line_blank : forall l, blank_line l -> TextAssemble.blank l = true.
Proof.
  intros l H. unfold TextAssemble.blank. induction H as [|cp c r W U H IH]; [reflexivity|]. rewrite (runes_char _ _ _ U). cbn [forallb]. rewrite IH, andb_true_r.
  apply existsb_exists. exists c. split; [apply white_rune; eauto|apply bytes_eqb_eq; reflexivity].
Qed.

Lemma lines_listed : forall (says : bytes -> event -> Prop) env table es ls extra, (forall l e, unmarshal_text table l = Ok e -> says l e) -> middle_octave env = 4 -> Forall2 (decoded_line env) es ls ->
  Forall (fun e => ~ misleading (e_body e) /\ readable table (e_body e)) es -> Forall (fun l => l = []) extra ->
  exists es', lines_say says (ls ++ extra) es' /\ Forall2 listed es es'.
Proof.
  intros says env table es ls extra SAYS M F R X. revert R. induction F as [|e l es ls D F IH]; intros R.
  - exists []. split; [|constructor]. cbn [app]. induction X as [|x extra -> X IH]; [constructor|]. apply ls_blank; [constructor|exact IH].
  - inversion R as [|? ? (N & Q) R']; subst. destruct (IH R') as (es' & A & B).
    destruct (line_parsed env e l table M D N Q) as (e' & U & E1 & E2 & E3).
    assert (K : is_event_line l = true) by (destruct D as (col & tk & n & m & h1 & h2 & L & -> & _); apply line_is_event, L).
    unfold is_event_line in K. apply andb_prop in K as [K1 K2].
    exists (e' :: es'). cbn [app]. split; [|constructor; [split; assumption|exact B]]. apply ls_event; [| |apply SAYS, U|exact A].
    + intro C. apply comment_is in C. rewrite C in K1. discriminate.
    + intro C. apply blank_line_blank in C. rewrite C in K2. discriminate.
Qed.

Lemma untagged_lines : forall env table t ls, track_lines env t ls ->
  Forall (fun e => ~ misleading (e_body e) /\ line_safe (e_body e) /\ readable table (e_body e)) (t_events t) -> Forall (fun l => ~ tag_line l /\ ~ In 10 l /\ ends_ok l) ls.
Proof.
  intros env table t ls F R. destruct (t_events t) as [|e es] eqn:E; [unfold track_lines in F; rewrite E in F; inversion F; constructor|].
  apply (lines_untagged env (fun _ _ => table) t ls F). split; [rewrite E; discriminate|]. rewrite E. eapply Forall_impl; [|exact R]. intros a (A & B & C). auto.
Qed.

Lemma segments_tracks : forall (says : bytes -> event -> Prop) env table pl t ls, (forall l e, unmarshal_text table l = Ok e -> says l e) -> middle_octave env = 4 ->
  Forall (fun p => chunk_ok (fst p) /\ track_lines env (fst p) (snd p) /\ Forall (fun e => ~ misleading (e_body e) /\ line_safe (e_body e) /\ readable table (e_body e)) (t_events (fst p))) ((t, ls) :: pl) ->
  exists ess, uncommented (segments (mtrk_l t :: ls) pl) (segments (mtrk_l t :: ls) pl) /\ Forall2 (SpecSource.track_chunk says) (segments (mtrk_l t :: ls) pl) ess /\
    Forall2 (fun p es => Forall2 listed (t_events (fst p)) es) ((t, ls) :: pl) ess.
Proof.
  intros says env table pl. induction pl as [|[t2 ls2] pl IH]; intros t ls SAYS M F; inversion F as [|? ? ((B & T & _) & L & K) F']; subst; cbn [fst snd] in *;
    (assert (NC : ~ comment_line (mtrk_l t)) by (intro C; apply comment_is in C; rewrite mtrk_no_comment in C by exact B; discriminate));
    (assert (K' : Forall (fun e => ~ misleading (e_body e) /\ readable table (e_body e)) (t_events t)) by (eapply Forall_impl; [|exact K]; intros e (A1 & _ & A3); auto)).
  - destruct (lines_listed says env table (t_events t) ls [] SAYS M L K' ltac:(constructor)) as (es & A & E). rewrite app_nil_r in A. exists [es]. cbn [segments].
    split; [apply uc_chunk; [exact NC|constructor]|]. split; [constructor; [|constructor]|constructor; [exact E|constructor]].
    exists (mtrk_l t), ls. split; [reflexivity|]. split; [apply mtrk_not_header; assumption|]. split; [apply mtrk_track, T|exact A].
  - destruct (lines_listed says env table (t_events t) ls [[]] SAYS M L K' ltac:(repeat constructor)) as (es & A & E). destruct (IH t2 ls2 SAYS M F') as (ess & U & X & Y).
    exists (es :: ess). cbn [segments fst snd]. change ((mtrk_l t :: ls) ++ [[]]) with (mtrk_l t :: ls ++ [[]]).
    split; [apply uc_chunk; [exact NC|exact U]|]. split; [constructor; [|exact X]|constructor; [exact E|exact Y]].
    exists (mtrk_l t), (ls ++ [[]]). split; [reflexivity|]. split; [apply mtrk_not_header; assumption|]. split; [apply mtrk_track, T|exact A].
Qed.

Lemma listing_read : forall (says : bytes -> event -> Prop) env r s text table, (forall l e, unmarshal_text table l = Ok e -> says l e) -> is_bytes r -> decode env r = Ok s -> middle_octave env = 4 ->
  (forall h, f_mthd s = Some h -> h_smpte h = false) ->
  Forall (fun t => Forall (fun e => ~ misleading (e_body e) /\ line_safe (e_body e) /\ readable table (e_body e)) (t_events t)) (f_tracks s) ->
  disassemble s = Ok text -> ~ long_line text ->
  exists h ess, f_mthd s = Some h /\ text_file says text (h_format h) (h_division h) ess /\
    Forall2 (fun t es => Forall2 listed (t_events t) es) (f_tracks s) ess.
Proof.
  intros says env r s text table SAYS Hr H M4 NS TO D NL.
  destruct (decoded_chunks env r s Hr H) as (h & Eh & Bh & Th & Lh & Fh & Dh & Nh & Nh' & Ph & CT).
  specialize (NS h Eh). destruct (Ph NS) as [P1 P2].
  pose proof (decoded_line_ok env r s Hr H) as DL.
  unfold disassemble in D. rewrite Eh in D. destruct (mtrks_text (f_tracks s)) as [x| | | |] eqn:EX; try discriminate. cbn [bind] in D. apply Ok_inj in D. subst text.
  destruct (mtrks_shape env _ _ DL EX) as (pl & PM & PL & ->). rewrite mthd_line_l in *.
  set (lines := concat (map (fun p => [] :: mtrk_l (fst p) :: snd p) pl)) in *.
  assert (ET : (mthd_l h ++ [10]) ++ join lines = join (mthd_l h :: lines)) by reflexivity. rewrite ET in *. clear ET.
  assert (ALL : Forall (fun p => chunk_ok (fst p) /\ track_lines env (fst p) (snd p) /\
    Forall (fun e => ~ misleading (e_body e) /\ line_safe (e_body e) /\ readable table (e_body e)) (t_events (fst p))) pl).
  { apply Forall_forall. intros p I. assert (J : In (fst p) (f_tracks s)) by (rewrite <- PM; apply in_map, I). rewrite Forall_forall in CT, PL, TO.
    split; [apply CT, J|]. split; [apply PL, I|apply TO, J]. }
  assert (LO : lines_of (join (mthd_l h :: lines)) (mthd_l h :: lines)).
  { apply join_lines. constructor; [apply mthd_no_feed; assumption|]. unfold lines. clear - ALL. induction ALL as [|p pl (C & L & K) ALL IH]; [constructor|].
    cbn [map concat]. apply Forall_app. split; [|exact IH]. constructor; [split; [intros []|intros [|? ?]; discriminate]|].
    constructor; [apply mtrk_no_feed; apply C|]. eapply Forall_impl; [|eapply untagged_lines; [exact L|exact K]]. intros l (_ & A); exact A. }
  assert (DV : divides (mthd_l h :: lines) [] (segments [mthd_l h] pl)).
  { split; [rewrite segments_concat; reflexivity|]. apply segments_chunks.
    + exists (mthd_l h), []. split; [reflexivity|]. split; [left; apply mthd_header, Th|constructor].
    + eapply Forall_impl; [|exact ALL]. intros p (C & L & K). exists (mtrk_l (fst p)), (snd p). split; [reflexivity|]. split; [right; apply mtrk_track, C|].
      eapply Forall_impl; [|eapply untagged_lines; [exact L|exact K]]. intros l (A & _); exact A. }
  assert (HS : header_says (mthd_l h) (h_format h) (h_division h)).
  { assert (R : parse_mthd_line (mthd_l h) = Ok (mthd_of 0 (h_format h) (h_division h))).
    { rewrite header_read; try assumption; try lia; [|apply column_calm; [exact Bh|lia]]. unfold mthd_of. replace (h_division h <? 32768) with true by lia. rewrite P1. reflexivity. }
    apply header_is_read in R as (f & d & S & E). pose proof S as (_ & _ & V). assert (V' : header_values (h_format h) (h_division h)) by (split; [lia|split; lia]).
    destruct (mthd_of_fields 0 f d V) as (_ & _ & Q1 & _ & Q2). destruct (mthd_of_fields 0 _ _ V') as (_ & _ & Q3 & _ & Q4).
    rewrite <- E, Q3 in Q1. rewrite <- E, Q4 in Q2. rewrite Q1, Q2. exact S. }
  assert (NC : ~ comment_line (mthd_l h)) by (intro C; apply comment_is in C; rewrite mthd_no_comment in C by exact Bh; discriminate).
  assert (HD : forall c cs, segments [mthd_l h] pl = c :: cs -> header_line (hd [] c)).
  { intros c cs E. destruct pl; cbn [segments app] in E; injection E as <- _; apply mthd_header, Th. }
  assert (HC : forall extra, header_chunk (mthd_l h :: extra) (h_format h) (h_division h)).
  { intros extra. exists (mthd_l h), extra. split; [reflexivity|]. split; [apply mthd_header, Th|exact HS]. }
  destruct pl as [|[t ls] pl].
  - exists h, []. split; [exact Eh|]. cbn in PM. rewrite <- PM. split; [|constructor].
    exists (mthd_l h :: lines), [], (segments [mthd_l h] []), [], [mthd_l h], []. split; [exact NL|]. split; [exact LO|]. split; [exact DV|]. split; [constructor|]. split; [exact HD|].
    split; [apply uc_chunk; [exact NC|constructor]|]. split; [constructor|]. split; [apply HC|constructor].
  - destruct (segments_tracks says env table pl t ls SAYS M4 ALL) as (ess & U & X & Y). exists h, ess. split; [exact Eh|]. split.
    + exists (mthd_l h :: lines), [], (segments [mthd_l h] ((t, ls) :: pl)), [], ([mthd_l h] ++ [[]]), (segments (mtrk_l t :: ls) pl).
      split; [exact NL|]. split; [exact LO|]. split; [exact DV|]. split; [constructor|]. split; [exact HD|].
      split; [cbn [segments fst snd app]; apply uc_chunk; [exact NC|exact U]|]. split; [constructor|]. split; [apply HC|exact X].
    + rewrite <- PM. clear - Y. induction Y as [|p es pl2 ess2 A Y IH]; [constructor|]. cbn [map]. constructor; assumption.
Qed.

Theorem listing_says : forall env r s text table, is_bytes r -> decode env r = Ok s -> middle_octave env = 4 ->
  (forall h, f_mthd s = Some h -> h_smpte h = false) ->
  Forall (fun t => Forall (fun e => ~ misleading (e_body e) /\ line_safe (e_body e) /\ readable table (e_body e)) (t_events t)) (f_tracks s) ->
  disassemble s = Ok text -> ~ long_line text ->
  exists h ess, f_mthd s = Some h /\ text_file (line_says table) text (h_format h) (h_division h) ess /\
    Forall2 (fun t es => Forall2 listed (t_events t) es) (f_tracks s) ess.
Proof. intros env r s text table. apply listing_read. intros l e. apply line_sound. Qed.

(** ** What a text says, one line saying one event *)

Lemma lines_say_one : forall (says : bytes -> event -> Prop) lines es, (forall l e e', says l e -> says l e' -> e = e') -> lines_say says lines es -> forall es', lines_say says lines es' -> es = es'.
Proof.
  intros says lines es ONE H. induction H as [|l r es C H IH|l r es B H IH|l e r es C B S0 H IH]; intros es' H'; inversion H'; subst; try reflexivity; try contradiction; auto.
  f_equal; [eapply ONE; eassumption|auto].
Qed.

Lemma uncommented_one : forall cs a, uncommented cs a -> forall b, uncommented cs b -> a = b.
Proof. intros cs a H. induction H; intros b H'; inversion H'; subst; try reflexivity; try contradiction; auto. f_equal; auto. Qed.

Lemma header_says_one : forall l f d f' d', header_says l f d -> header_says l f' d' -> f = f' /\ d = d'.
Proof.
  intros l f d f' d' H H'. pose proof H as (_ & _ & V). pose proof H' as (_ & _ & V').
  assert (R : parse_mthd_line l = Ok (mthd_of 0 f d)) by (apply header_is_read; eauto). assert (R' : parse_mthd_line l = Ok (mthd_of 0 f' d')) by (apply header_is_read; eauto).
  rewrite R in R'. apply Ok_inj in R'. destruct (mthd_of_fields 0 f d V) as (_ & _ & Q1 & _ & Q2). destruct (mthd_of_fields 0 f' d' V') as (_ & _ & Q3 & _ & Q4). rewrite R' in Q1, Q2. split; congruence.
Qed.

Theorem text_says_one : forall (says : bytes -> event -> Prop) text f d ess f' d' ess', (forall l e e', says l e -> says l e' -> e = e') ->
  text_file says text f d ess -> text_file says text f' d' ess' -> f = f' /\ d = d' /\ ess = ess'.
Proof.
  intros says text f d ess f' d' ess' ONE (lines & before & cs & hs & h & ts & LL & L & D & BF & HD & U & R1 & X & T) (lines' & before' & cs' & hs' & h' & ts' & LL' & L' & D' & BF' & HD' & U' & R1' & X' & T').
  assert (E : read_chunks text = Ok cs) by (apply read_chunks_ok; split; [exact LL|]; exists lines, before; rewrite first_chunk; auto).
  assert (E' : read_chunks text = Ok cs') by (apply read_chunks_ok; split; [exact LL'|]; exists lines', before'; rewrite first_chunk; auto).
  rewrite E in E'. apply Ok_inj in E'. subst cs'. pose proof (uncommented_one _ _ U _ U') as A. clear - ONE R1 X T R1' X' T' A.
  assert (N : forall ts ess c l r, Forall2 (SpecSource.track_chunk says) ts ess -> In c ts -> c = l :: r -> ~ header_line l).
  { intros ts0 ess0 c l r F I ->. apply In_nth_error in I as (n & I). revert n I. induction F as [|c2 es2 ts2 ess2 (l2 & r2 & -> & N2 & _) F IH]; intros [|n] I; try discriminate; [injection I as <- <-; exact N2|eauto]. }
  revert hs' R1' A. induction R1 as [|c hs (f0 & d0 & l0 & r0 & -> & H0 & _) R1 IH]; intros hs' R1' A; destruct R1' as [|c' hs' Y R1']; cbn [app] in A.
  - injection A as -> ->. destruct X as (l & r & -> & _ & HS), X' as (l' & r' & Q & _ & HS'). injection Q as <- <-. destruct (header_says_one _ _ _ _ _ HS HS') as [-> ->].
    split; [reflexivity|]. split; [reflexivity|]. clear - ONE T T'. revert ess' T'. induction T as [|c es ts ess (l & r & -> & _ & _ & S0) T IH]; intros ess' T'; inversion T' as [|? es' ? ess2 (l' & r' & Q & _ & _ & S') T2]; subst; [reflexivity|].
    injection Q as <- <-. f_equal; [eapply lines_say_one; eassumption|auto].
  - exfalso. injection A as -> A. destruct X' as (l & r & -> & HL & _). refine (N ts ess _ l r T _ eq_refl HL). rewrite A. apply in_or_app. right. left. reflexivity.
  - exfalso. injection A as <- A. destruct X as (l & r & -> & HL & _). refine (N ts' ess' _ l r T' _ eq_refl HL). rewrite <- A. apply in_or_app. right. left. reflexivity.
  - injection A as _ A. apply (IH hs' R1' A).
Qed.

Lemma listed_one : forall s es s', Forall2 (fun t es => Forall2 listed (t_events t) es) s es -> Forall2 (fun t es => Forall2 listed (t_events t) es) s' es ->
  listed_contents (map t_events s) = listed_contents (map t_events s').
Proof.
  assert (K : forall a b, Forall2 listed a b -> map (fun e => (e_delta e, as_read (e_body e))) a = map (fun e => (e_delta e, e_body e)) b).
  { intros a b F. induction F as [|x y a b [X Y] F IH]; [reflexivity|]. cbn [map]. rewrite X, Y. f_equal. exact IH. }
  intros s es s' F. revert s'. induction F as [|t es0 s es A F IH]; intros s' F'; inversion F' as [|t' ? s2 ? A' F2]; subst; [reflexivity|]. cbn [map listed_contents]. f_equal; [|apply IH, F2]. rewrite (K _ _ A), (K _ _ A'). reflexivity.
Qed.

(** Two files with the same listing have the same header and the same events. *)
Theorem same_listing : forall env env' r r' s s' text table, is_bytes r -> is_bytes r' -> decode env r = Ok s -> decode env' r' = Ok s' -> middle_octave env = 4 -> middle_octave env' = 4 ->
  (forall h, f_mthd s = Some h -> h_smpte h = false) -> (forall h, f_mthd s' = Some h -> h_smpte h = false) ->
  Forall (fun t => Forall (fun e => ~ misleading (e_body e) /\ line_safe (e_body e) /\ readable table (e_body e)) (t_events t)) (f_tracks s ++ f_tracks s') ->
  disassemble s = Ok text -> disassemble s' = Ok text -> ~ long_line text ->
  exists h h', f_mthd s = Some h /\ f_mthd s' = Some h' /\ h_format h = h_format h' /\ h_division h = h_division h' /\
    listed_contents (map t_events (f_tracks s)) = listed_contents (map t_events (f_tracks s')).
Proof.
  intros env env' r r' s s' text table B B' D D' M M' N N' R L L' NL. apply Forall_app in R as [R R'].
  destruct (listing_read (fun l e => unmarshal_text table l = Ok e) env r s text table ltac:(auto) B D M N R L NL) as (h & ess & E & T & F).
  destruct (listing_read (fun l e => unmarshal_text table l = Ok e) env' r' s' text table ltac:(auto) B' D' M' N' R' L' NL) as (h' & ess' & E' & T' & F').
  destruct (text_says_one (fun l e => unmarshal_text table l = Ok e) text _ _ _ _ _ _ ltac:(intros; congruence) T T') as (Q1 & Q2 & Q3). subst ess'. exists h, h'. repeat (split; [assumption|]). eapply listed_one; eassumption.
Qed.
