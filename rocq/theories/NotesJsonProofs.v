(** * NotesJsonProofs: the JSON form of the notes. *)
From Coq Require Import Permutation.
From Verif Require Import Base Strings Tables Event Track File Utf8 Utf8Proofs SpecText SpecDecimal DecimalProofs FileProofs Transpose Notes NotesPrint SpecDuration DurationProofs
  NotesPrintProofs Json JsonText SpecJsonText JsonTextProofs JsonWriteProofs JsonExportProofs Float SpecFloat FloatProofs NotesJson.

(** ** JSON *)
Lemma members_lines : forall n o fs w1 w2, white w1 -> white w2 -> o <> [] ->
  Forall2 (fun (m : bytes * json) (f : bytes * bytes) => fst m = fst f /\ well_formed (fst m) /\ json_text (snd m) (snd f)) o fs ->
  members_text o (w1 ++ lines n (map (fun f => write_string (fst f) ++ 58 :: 32 :: snd f) fs) ++ w2).
Proof.
  intros n o fs w1 w2 W1 W2 N F. revert w1 W1. induction F as [|[k v] [k0 s] o fs (Ek & Hk & Hv) F IH]; intros w1 W1; [congruence|]. cbn [fst snd] in *. subst k0.
  assert (S1 : white [32]) by (constructor; [auto|constructor]).
  destruct F as [|[k' v'] [k0 s'] o fs Hd F].
  - cbn [map lines fst snd]. rewrite <- !app_assoc. cbn [app]. change (58 :: 32 :: s ++ w2) with ([] ++ 58 :: [32] ++ s ++ w2).
    apply mt_one; try assumption; [apply write_string_text; exact Hk|constructor].
  - set (g := fun p : bytes * bytes => write_string (fst p) ++ 58 :: 32 :: snd p) in *.
    assert (E : w1 ++ lines n (map g ((k, s) :: (k0, s') :: fs)) ++ w2 =
                w1 ++ write_string k ++ [] ++ 58 :: [32] ++ s ++ [] ++ 44 :: newline n ++ lines n (map g ((k0, s') :: fs)) ++ w2).
    { cbn [map]. cbn [lines app]. unfold g at 1. cbn [fst snd]. rewrite <- ?app_assoc. cbn [app]. rewrite <- ?app_assoc. cbn [app]. rewrite <- ?app_assoc. reflexivity. }
    rewrite E. apply mt_more; try assumption; [apply write_string_text; exact Hk|constructor|constructor|].
    apply IH; [discriminate|apply newline_white].
Qed.

Lemma object_json : forall d o fs, o <> [] ->
  Forall2 (fun (m : bytes * json) (f : bytes * bytes) => fst m = fst f /\ well_formed (fst m) /\ json_text (snd m) (snd f)) o fs -> json_text (JObj o) (object_text d fs).
Proof.
  intros d o fs N F. unfold object_text.
  assert (E : forall a b c : bytes, 123 :: a ++ b ++ c ++ [125] = 123 :: (a ++ b ++ c) ++ [125]) by (intros; rewrite <- !app_assoc; reflexivity).
  rewrite E. constructor. apply members_lines; [apply newline_white|apply newline_white|exact N|exact F].
Qed.

Lemma elements_lines : forall n vs ts w1 w2, white w1 -> white w2 -> vs <> [] -> Forall2 json_text vs ts -> elements_text vs (w1 ++ lines n ts ++ w2).
Proof.
  intros n vs ts w1 w2 W1 W2 N F. revert w1 W1. induction F as [|v t vs ts Hv F IH]; intros w1 W1; [congruence|]. destruct F as [|v' t' vs ts Hd F].
  - cbn [lines]. constructor; assumption.
  - assert (E : w1 ++ lines n (t :: t' :: ts) ++ w2 = w1 ++ t ++ [] ++ 44 :: newline n ++ lines n (t' :: ts) ++ w2).
    { cbn [lines app]. rewrite <- ?app_assoc. cbn [app]. rewrite <- ?app_assoc. reflexivity. }
    rewrite E. apply et_more; [exact W1|exact Hv|constructor|]. apply IH; [discriminate|apply newline_white].
Qed.

Lemma numeral_whole : forall w ws, decimal w ws -> 0 <= w -> ws = [48] \/ (Forall is_digit ws /\ 49 <= hd 0 ws).
Proof. intros w ws D W. destruct D; [left; reflexivity|right; split; assumption|]. pose proof (value_pos s H H0). lia. Qed.

Lemma fraction_json : forall n p s, decimal_fraction n p s -> exists v, is_number v /\ json_text v s.
Proof.
  intros n p s H. destruct H as [n s D|w ws f D W F N|w ws f D W F N].
  - exists (JNum n). split; [exact I|constructor; exact D].
  - exists JReal. split; [exact I|constructor]. replace (ws ++ 46 :: f) with ([] ++ ws ++ (46 :: f) ++ []) by (rewrite app_nil_r; reflexivity).
    apply rt; [left; reflexivity|apply (numeral_whole w); assumption|right; exists f; split; [reflexivity|split; assumption]|left; reflexivity|left; discriminate].
  - exists JReal. split; [exact I|constructor]. replace (45 :: ws ++ 46 :: f) with ([45] ++ ws ++ (46 :: f) ++ []) by (rewrite app_nil_r; reflexivity).
    apply rt; [right; reflexivity|apply (numeral_whole w); assumption|right; exists f; split; [reflexivity|split; assumption]|left; reflexivity|left; discriminate].
Qed.

(** ** The values *)
Lemma round_range : forall t, -9223372036854775808 <= round_ms (wrap64 t) <= 9223372036854775807.
Proof.
  intro t. unfold round_ms. cbv zeta. set (d := wrap64 t). assert (D : -9223372036854775808 <= d <= 9223372036854775807) by (unfold d, wrap64; lia).
  clearbody d. repeat match goal with |- context [if ?b then _ else _] => destruct b eqn:? end; unfold wrap64 in *; lia.
Qed.

Lemma whole_range : forall t, -9223372036854775808 <= t <= 9223372036854775807 -> -9223372036854775808 <= whole_ms t <= 9223372036854775807 /\ whole_ms t mod 1000000 = 0.
Proof. intros t T. unfold whole_ms. lia. Qed.

Lemma time_near : forall t, -9223372036854775808 <= t <= 9223372036854775807 -> whole_ms t mod 1000000 = 0 /\ seconds_near (whole_ms t) (seconds_text (truncate_ms t)).
Proof. intros t T. destruct (whole_range t T) as [A B]. split; [exact B|]. rewrite truncate_whole. apply seconds_printed; assumption. Qed.

Lemma well_formed_app : forall a b, well_formed a -> well_formed b -> well_formed (a ++ b).
Proof. intros a b A B. induction A; [exact B|]. rewrite <- app_assoc. econstructor; eassumption. Qed.

Lemma digits_well_formed : forall s, Forall is_digit s -> well_formed s.
Proof. induction 1 as [|c s C S IH]; [constructor|]. apply (wf_cons c [c]); [apply utf8_1; unfold is_digit in C; lia|exact IH]. Qed.

Lemma dec_well_formed : forall n, well_formed (dec n).
Proof.
  intro n. pose proof (dec_decimal n) as D. destruct D; [apply (wf_cons 48 [48]); [apply utf8_1; lia|constructor]|apply digits_well_formed; assumption|].
  apply (wf_cons 45 [45]); [apply utf8_1; lia|apply digits_well_formed; assumption].
Qed.

Lemma format_note_well_formed : forall env fl n, well_formed (format_note env fl n).
Proof.
  intros env fl n. unfold format_note. apply well_formed_app; [|apply dec_well_formed].
  assert (F : forall l, Forall well_formed l -> forall k, well_formed (nth k l [])) by (induction 1; destruct k; cbn; auto; constructor).
  apply F. apply Forall_forall. intros x Hx.
  assert (A : forallb (fun s => forallb (fun b => (0 <=? b) && (b <? 256)) s && bytes_eqb (concat (runes s)) s) (if fl then Flats else Sharps) = true) by (destruct fl; vm_compute; reflexivity).
  rewrite forallb_forall in A. apply A in Hx. apply andb_true_iff in Hx as [H1 H2]. apply well_formed_iff; [apply check_bytes, H1|apply bytes_eqb_eq, H2].
Qed.

Lemma extract_values : forall env n, from_extract env n ->
  well_formed (o_name n) /\ -9223372036854775808 <= o_start n <= 9223372036854775807 /\ -9223372036854775808 <= o_end n <= 9223372036854775807 /\
  -9223372036854775808 <= o_duration n <= 9223372036854775807.
Proof.
  intros env n (fl & a & b & _ & N & S & E & D). rewrite N, D, S, E. split; [apply format_note_well_formed|].
  split; [apply round_range|split; [apply round_range|]]. unfold wrap64. lia.
Qed.

Theorem notes_json_text : forall env steps order s notes, (forall l, Permutation l (order l)) -> extract env steps order s = Ok notes ->
  exists vs, json_text (JObj [(str "notes", match notes with [] => JNull | _ => JArr vs end)]) (notes_json notes) /\ Forall2 note_tree (map shown notes) vs.
Proof.
  intros env steps order s notes O H. pose proof (extract_from _ _ _ _ _ O H) as F. clear H.
  assert (G : exists vs, Forall2 json_text vs (map note_text notes) /\ Forall2 note_tree (map shown notes) vs).
  { induction F as [|n ns Hn F (vs & IH1 & IH2)]; [exists []; split; constructor|].
    destruct (extract_values _ _ Hn) as (N & S & E & D).
    destruct (time_near _ S) as [_ (n1 & p1 & F1 & _)]. destruct (time_near _ E) as [_ (n2 & p2 & F2 & _)]. destruct (time_near _ D) as [_ (n3 & p3 & F3 & _)].
    destruct (fraction_json _ _ _ F1) as (v1 & I1 & J1). destruct (fraction_json _ _ _ F2) as (v2 & I2 & J2). destruct (fraction_json _ _ _ F3) as (v3 & I3 & J3).
    exists (JObj [(str "channel", JNum (o_ch n)); (str "midi-note", JNum (o_note n)); (str "note", JStr (o_name n)); (str "velocity", JNum (o_vel n));
              (str "start", v1); (str "end", v2); (str "duration", v3)] :: vs).
    cbn [map]. split; constructor; try assumption.
    - apply object_json; [discriminate|].
      repeat (apply Forall2_cons; [split; [reflexivity|split; [apply check_ascii; reflexivity|cbn [fst snd]]]|]); [| | | | | | |apply Forall2_nil]; try assumption;
        try (apply jt_int, dec_decimal). apply jt_string, write_string_text, N.
    - exists v1, v2, v3. repeat split; assumption. }
  destruct G as (vs & G1 & G2). exists vs. split; [|exact G2]. apply object_json; [discriminate|]. 
  apply Forall2_cons; [split; [reflexivity|split; [apply check_ascii; reflexivity|cbn [fst snd]]]|apply Forall2_nil].
  destruct notes as [|n ns]; [constructor|].
  assert (E : forall a b c : bytes, 91 :: a ++ b ++ c ++ [93] = 91 :: (a ++ b ++ c) ++ [93]) by (intros; rewrite <- !app_assoc; reflexivity).
  rewrite E. constructor. apply elements_lines; [apply newline_white|apply newline_white|inversion G1; discriminate|exact G1].
Qed.

(** ** The layout *)
Lemma unlines_app : forall a b, a <> [] -> b <> [] -> unlines (a ++ b) = unlines a ++ 10 :: unlines b.
Proof.
  induction a as [|x a IH]; intros b A B; [congruence|]. destruct a as [|y a].
  - cbn [app unlines]. destruct b; [congruence|reflexivity].
  - cbn [app]. change (unlines (x :: y :: a ++ b)) with (x ++ 10 :: unlines ((y :: a) ++ b)). rewrite IH by (discriminate || assumption).
    change (unlines (x :: y :: a)) with (x ++ 10 :: unlines (y :: a)). rewrite <- app_assoc. reflexivity.
Qed.

Definition field_lines (c m nm v s e t close : bytes) : list bytes :=
  [str "    {"; str "      ""channel"": " ++ c ++ str ","; str "      ""midi-note"": " ++ m ++ str ","; str "      ""note"": " ++ nm ++ str ",";
   str "      ""velocity"": " ++ v ++ str ","; str "      ""start"": " ++ s ++ str ","; str "      ""end"": " ++ e ++ str ","; str "      ""duration"": " ++ t; close].

Lemma fields_laid_out : forall c m nm v s e t close,
  str "    " ++ object_text 2 [(str "channel", c); (str "midi-note", m); (str "note", nm); (str "velocity", v); (str "start", s); (str "end", e); (str "duration", t)] ++ close =
  unlines (field_lines c m nm v s e t (str "    }" ++ close)).
Proof.
  intros. unfold object_text, field_lines. cbn [map fst snd].
  change (write_string (str "channel")) with (str """channel"""). change (write_string (str "midi-note")) with (str """midi-note""").
  change (write_string (str "note")) with (str """note"""). change (write_string (str "velocity")) with (str """velocity""").
  change (write_string (str "start")) with (str """start"""). change (write_string (str "end")) with (str """end""").
  change (write_string (str "duration")) with (str """duration""").
  change (newline 3) with (10 :: str "      "). change (newline 2) with (10 :: str "    "). cbn [lines unlines]. cbn [str app list_ascii_of_string map].
  repeat (rewrite <- ?app_assoc; cbn [app]). reflexivity.
Qed.

Lemma note_laid_out : forall env n last, from_extract env n ->
  note_lines last (shown n) (field_lines (dec (o_ch n)) (dec (o_note n)) (write_string (o_name n)) (dec (o_vel n)) (seconds_text (truncate_ms (o_start n)))
    (seconds_text (truncate_ms (o_end n))) (seconds_text (truncate_ms (o_duration n))) (if last then str "    }" else str "    },")).
Proof.
  intros env n last F. destruct (extract_values _ _ F) as (N & S & E & D).
  destruct (time_near _ S) as [S1 S2]. destruct (time_near _ E) as [E1 E2]. destruct (time_near _ D) as [D1 D2].
  apply nls; cbn [shown l_ch l_note l_name l_vel l_start l_end l_dur]; try assumption; try apply dec_decimal. apply write_string_text, N.
Qed.

Lemma notes_laid_out : forall env ns, ns <> [] -> Forall (from_extract env) ns ->
  exists ls, notes_lines (map shown ns) ls /\ ls <> [] /\ str "    " ++ lines 2 (map note_text ns) = unlines ls.
Proof.
  intros env ns N F. induction F as [|n ns Hn F IH]; [congruence|]. destruct ns as [|n' ns].
  - eexists. split; [cbn [map]; apply nsl_one; apply (note_laid_out env n true Hn)|]. split; [discriminate|].
    cbn [map lines]. rewrite <- (app_nil_r (note_text n)). unfold note_text. rewrite fields_laid_out. reflexivity.
  - destruct (IH ltac:(discriminate)) as (ls & L1 & L2 & L3). eexists. split; [cbn [map]; apply nsl_more; [apply (note_laid_out env n false Hn)|exact L1]|].
    split; [discriminate|]. rewrite unlines_app by (discriminate || exact L2). rewrite <- L3.
    cbn [map]. change (lines 2 (note_text n :: note_text n' :: map note_text ns)) with (note_text n ++ str "," ++ newline 2 ++ lines 2 (map note_text (n' :: ns))).
    change (newline 2) with (10 :: str "    "). rewrite (app_assoc (note_text n)). rewrite app_assoc. unfold note_text at 1. rewrite fields_laid_out. reflexivity.
Qed.

Theorem notes_json_document : forall env steps order s notes, (forall l, Permutation l (order l)) -> extract env steps order s = Ok notes ->
  notes_document (map shown notes) (notes_json notes).
Proof.
  intros env steps order s notes O H. pose proof (extract_from _ _ _ _ _ O H) as F. clear H. destruct notes as [|n ns]; [reflexivity|].
  destruct (notes_laid_out env (n :: ns) ltac:(discriminate) F) as (ls & L1 & L2 & L3). exists ls. split; [exact L1|].
  rewrite unlines_app by (try discriminate; destruct ls; discriminate). rewrite (unlines_app ls) by (exact L2 || discriminate). rewrite <- L3.
  unfold notes_json, object_text. cbn [map lines fst snd]. set (T := lines 2 (map note_text (n :: ns))). change (note_text n :: map note_text ns) with (map note_text (n :: ns)). fold T. clearbody T.
  change (write_string (str "notes")) with (str """notes"""). change (newline 2) with (10 :: str "    "). change (newline 1) with (10 :: str "  "). change (newline 0) with [10].
  cbn [str app list_ascii_of_string map unlines]. repeat (rewrite <- ?app_assoc; cbn [app]). reflexivity.
Qed.

(** ** One reading *)
Lemma unlines_inj : forall a b, a <> [] -> b <> [] -> Forall (fun l => ~ In 10 l) a -> Forall (fun l => ~ In 10 l) b -> unlines a = unlines b -> a = b.
Proof.
  induction a as [|x a IH]; intros b A B Fa Fb E; [congruence|]. destruct b as [|y b]; [congruence|]. inversion Fa as [|? ? X Fa']; inversion Fb as [|? ? Y Fb']; subst.
  destruct a as [|x' a], b as [|y' b].
  - cbn in E. congruence.
  - exfalso. change (x = y ++ 10 :: unlines (y' :: b)) in E. apply X. rewrite E. apply in_or_app. right. left. reflexivity.
  - exfalso. change (x ++ 10 :: unlines (x' :: a) = y) in E. apply Y. rewrite <- E. apply in_or_app. right. left. reflexivity.
  - change (x ++ 10 :: unlines (x' :: a) = y ++ 10 :: unlines (y' :: b)) in E.
    destruct (line_prefix x y (unlines (x' :: a)) (unlines (y' :: b)) X Y) as [-> E']; [rewrite <- !app_assoc; exact E|].
    f_equal. apply IH; (discriminate || assumption).
Qed.

Lemma fraction_no_newline : forall n p s, decimal_fraction n p s -> ~ In 10 s.
Proof.
  intros n p s H. destruct H as [n s D|w ws f D W F N|w ws f D W F N]; [eapply decimal_no_newline, D| |].
  - apply no_newline_app; [eapply decimal_no_newline, D|]. intros [?|I]; [lia|]. exact (digits_no_newline f F I).
  - intros [?|I]; [lia|]. revert I. apply no_newline_app; [eapply decimal_no_newline, D|]. intros [?|I]; [lia|]. exact (digits_no_newline f F I).
Qed.

Lemma hex_no_newline : forall c v, hex_digit c v -> c <> 10.
Proof. intros c v H. inversion H; lia. Qed.
Lemma four_no_newline : forall h v, four_hex h v -> ~ In 10 h.
Proof.
  intros h v H. inversion H as [? ? ? ? ? ? ? ? H1 H2 H3 H4]; subst. apply hex_no_newline in H1, H2, H3, H4. cbn. intuition congruence.
Qed.

Lemma char_no_newline : forall c t, char_text c t -> ~ In 10 t.
Proof.
  intros c t H. destruct H as [cp c U A B C|x e I|cp c h F U|hi lo c h l F1 F2 _ _ _].
  - destruct U; cbn [In]; intros I; repeat (destruct I as [I|I]; [lia|]); exact I.
  - cbn in I. cbn. intuition congruence.
  - pose proof (four_no_newline _ _ F). cbn. intuition lia.
  - pose proof (four_no_newline _ _ F1). pose proof (four_no_newline _ _ F2). cbn. rewrite in_app_iff. cbn. intuition lia.
Qed.

Lemma string_no_newline : forall s t, string_text s t -> ~ In 10 t.
Proof.
  intros s t [s' t' H]. assert (G : ~ In 10 t') by (induction H as [|c t'' s'' u C H IH]; [easy|apply no_newline_app; [eapply char_no_newline, C|exact IH]]).
  intros [?|I]; [lia|]. revert I. apply no_newline_app; [exact G|]. intros [?|[]]. lia.
Qed.

Lemma string_unique : forall a b t, string_text a t -> string_text b t -> a = b.
Proof.
  intros a b t A B. assert (E : JStr a = JStr b) by (apply (text_unambiguous _ _ t); [constructor; exact A|constructor; exact B|cbn; lia|cbn; lia]). congruence.
Qed.

Lemma note_lines_inv : forall last x l, note_lines last x l -> exists c m nm v s e t, l = field_lines c m nm v s e t (if last then str "    }" else str "    },") /\
  decimal (l_ch x) c /\ decimal (l_note x) m /\ string_text (l_name x) nm /\ decimal (l_vel x) v /\
  l_start x mod 1000000 = 0 /\ l_end x mod 1000000 = 0 /\ l_dur x mod 1000000 = 0 /\ seconds_near (l_start x) s /\ seconds_near (l_end x) e /\ seconds_near (l_dur x) t.
Proof. intros last x l H. destruct H as [x c m nm v s e t]. exists c, m, nm, v, s, e, t. split; [reflexivity|]. repeat (split; [assumption|]). assumption. Qed.

Lemma note_lines_newlines : forall last x l, note_lines last x l -> Forall (fun s => ~ In 10 s) l.
Proof.
  intros last x l H. destruct (note_lines_inv _ _ _ H) as (c & m & nm & v & s & e & t & -> & C & M & N & V & _ & _ & _ & (n1 & p1 & S & _) & (n2 & p2 & E & _) & (n3 & p3 & D & _)).
  apply decimal_no_newline in C, M, V. apply string_no_newline in N. apply fraction_no_newline in S, E, D.
  unfold field_lines. repeat apply Forall_cons; try apply Forall_nil; repeat apply no_newline_app; try assumption; try (apply label_no_newline; reflexivity).
  destruct last; apply label_no_newline; reflexivity.
Qed.

Lemma notes_lines_newlines : forall xs ls, notes_lines xs ls -> Forall (fun s => ~ In 10 s) ls.
Proof. intros xs ls H. induction H; [eapply note_lines_newlines; eassumption|]. apply Forall_app. split; [eapply note_lines_newlines; eassumption|assumption]. Qed.

Lemma between_inv : forall a b x y : bytes, a ++ x ++ b = a ++ y ++ b -> x = y.
Proof. intros a b x y E. apply app_inv_head in E. apply app_inv_tail in E. exact E. Qed.

Lemma fields_inj : forall c m nm v s e t z c' m' nm' v' s' e' t' z' r r',
  field_lines c m nm v s e t z ++ r = field_lines c' m' nm' v' s' e' t' z' ++ r' -> c = c' /\ m = m' /\ nm = nm' /\ v = v' /\ s = s' /\ e = e' /\ t = t' /\ z = z' /\ r = r'.
Proof.
  intros c m nm v s e t z c' m' nm' v' s' e' t' z' r r' E. unfold field_lines in E. cbn [app] in E.
  assert (K : forall (a b : bytes) (p q : list bytes), a :: p = b :: q -> a = b /\ p = q) by (intros a b p q X; injection X; auto).
  apply K in E as [_ E]. apply K in E as [E1 E]. apply K in E as [E2 E]. apply K in E as [E3 E]. apply K in E as [E4 E]. apply K in E as [E5 E]. apply K in E as [E6 E].
  apply K in E as [E7 E]. apply K in E as [E8 E].
  apply between_inv in E1, E2, E3, E4, E5, E6. apply app_inv_head in E7. repeat (split; [assumption|]). assumption.
Qed.

Lemma note_unique : forall last last' x y l l' r r', note_lines last x l -> note_lines last' y l' -> l ++ r = l' ++ r' -> x = y /\ last = last' /\ r = r'.
Proof.
  intros last last' x y l l' r r' H H' E.
  destruct (note_lines_inv _ _ _ H) as (c & m & nm & v & s & e & t & -> & C & M & N & V & W1 & W2 & W3 & S1 & S2 & S3).
  destruct (note_lines_inv _ _ _ H') as (c' & m' & nm' & v' & s' & e' & t' & -> & C' & M' & N' & V' & W1' & W2' & W3' & S1' & S2' & S3').
  apply fields_inj in E as (-> & -> & -> & -> & -> & -> & -> & Ez & ->). destruct x as [a1 a2 a3 a4 a5 a6 a7], y as [b1 b2 b3 b4 b5 b6 b7]. cbn [l_name l_ch l_note l_vel l_start l_end l_dur] in *.
  rewrite (decimal_inj _ _ _ C C'), (decimal_inj _ _ _ M M'), (decimal_inj _ _ _ V V'), (string_unique _ _ _ N N').
  rewrite (near_unique _ _ _ W1 W1' S1 S1'), (near_unique _ _ _ W2 W2' S2 S2'), (near_unique _ _ _ W3 W3' S3 S3').
  split; [reflexivity|]. split; [|reflexivity]. destruct last, last'; try reflexivity; discriminate.
Qed.

Lemma notes_lines_inv : forall xs ls, notes_lines xs ls ->
  (exists x, xs = [x] /\ note_lines true x ls) \/ (exists x l xs' ls', xs = x :: xs' /\ ls = l ++ ls' /\ note_lines false x l /\ notes_lines xs' ls').
Proof. intros xs ls H. destruct H as [x l H|x l xs ls H1 H2]; [left; exists x; auto|right; exists x, l, xs, ls; auto]. Qed.

Lemma notes_unique : forall xs ls r, notes_lines xs ls -> forall ys ls' r', notes_lines ys ls' -> ls ++ r = ls' ++ r' -> xs = ys.
Proof.
  intros xs ls r H. induction H as [x l Hx|x l xs ls Hx Hl IH]; intros ys ls' r' H' E; destruct (notes_lines_inv _ _ H') as [(y & -> & Hy)|(y & l' & ys' & ls'' & -> & -> & Hy & Hl')].
  - destruct (note_unique _ _ _ _ _ _ _ _ Hx Hy E) as (-> & _ & _). reflexivity.
  - rewrite <- app_assoc in E. destruct (note_unique _ _ _ _ _ _ _ _ Hx Hy E) as (_ & L & _). discriminate.
  - rewrite <- app_assoc in E. destruct (note_unique _ _ _ _ _ _ _ _ Hx Hy E) as (_ & L & _). discriminate.
  - rewrite <- !app_assoc in E. destruct (note_unique _ _ _ _ _ _ _ _ Hx Hy E) as (-> & _ & R). f_equal. eapply IH; eassumption.
Qed.

Theorem document_unambiguous : forall xs ys text, notes_document xs text -> notes_document ys text -> xs = ys.
Proof.
  assert (NN : forall xs ls, notes_lines xs ls -> Forall (fun l => ~ In 10 l) ([str "{"; str "  ""notes"": ["] ++ ls ++ [str "  ]"; str "}"])).
  { intros xs ls H. apply Forall_app. split; [repeat constructor; apply label_no_newline; reflexivity|]. apply Forall_app. split; [eapply notes_lines_newlines, H|].
    repeat constructor; apply label_no_newline; reflexivity. }
  assert (NE : Forall (fun l => ~ In 10 l) [str "{"; str "  ""notes"": null"; str "}"]) by (repeat constructor; apply label_no_newline; reflexivity).
  intros xs ys text H H'. destruct xs as [|x xs], ys as [|y ys]; [reflexivity| | |].
  - destruct H' as (ls & L & ->). cbn [notes_document] in H. exfalso. apply unlines_inj in H; [|discriminate|discriminate|exact (NN _ _ L)|exact NE].
    apply (f_equal (fun l => nth 1 l [])) in H. vm_compute in H. discriminate.
  - destruct H as (ls & L & ->). cbn [notes_document] in H'. exfalso. apply unlines_inj in H'; [|discriminate|discriminate|exact (NN _ _ L)|exact NE].
    apply (f_equal (fun l => nth 1 l [])) in H'. vm_compute in H'. discriminate.
  - destruct H as (ls & L & ->). destruct H' as (ls' & L' & E). apply unlines_inj in E; [|discriminate|discriminate|exact (NN _ _ L)|exact (NN _ _ L')].
    apply app_inv_head in E. eapply notes_unique; eassumption.
Qed.
