(** * LayoutProofs: the layout of exported JSON. *)
From Verif Require Import Base Strings Tables Event Track File Utf8 Json Manufacturer JsonText SpecDecimal DecimalProofs SpecText SpecJsonText Utf8Proofs JsonWriteProofs JsonExportProofs SpecLayout.

(** ** An automaton for the layout *)

Inductive place := Val | Lit | Text | Esc | Open (c : Z) | Line (k : nat) | Back (k : nat) | Done | Comma | Colon.

Definition word (c : Z) : bool := ((48 <=? c) && (c <=? 57)) || ((97 <=? c) && (c <=? 122)) || (c =? 45) || (c =? 46).
Definition start (d : nat) (c : Z) : option (place * nat) :=
  if c =? 34 then Some (Text, d) else if opening c then Some (Open c, S d) else if word c then Some (Lit, d) else None.
Definition follow (d : nat) (c : Z) : option (place * nat) := if Nat.eqb d 0 then None else if c =? 44 then Some (Comma, d) else if c =? 10 then Some (Back 0, d) else None.
Definition step (p : place) (d : nat) (c : Z) : option (place * nat) :=
  match p with
  | Val => start d c
  | Lit => if word c then Some (Lit, d) else follow d c
  | Text => if c =? 34 then Some (Done, d) else if c =? 92 then Some (Esc, d) else if c =? 10 then None else Some (Text, d)
  | Esc => if c =? 10 then None else Some (Text, d)
  | Open o => if c =? 10 then Some (Line 0, d) else if c =? o + 2 then Some (Done, pred d) else None
  | Line k => if c =? 32 then Some (Line (S k), d) else if Nat.eqb k (2 * d) then start d c else None
  | Back k => if c =? 32 then Some (Back (S k), d) else if closing c && Nat.eqb k (2 * pred d) then Some (Done, pred d) else None
  | Done => if c =? 58 then Some (Colon, d) else follow d c
  | Comma => if c =? 10 then Some (Line 0, d) else None
  | Colon => if c =? 32 then Some (Val, d) else None
  end.
Fixpoint walk (p : place) (d : nat) (s : bytes) : option (place * nat) :=
  match s with
  | [] => Some (p, d)
  | c :: r => match step p d c with Some (p', d') => walk p' d' r | None => None end
  end.

Lemma walk_app : forall a b p d, walk p d (a ++ b) = match walk p d a with Some (p', d') => walk p' d' b | None => None end.
Proof. induction a as [|c a IH]; intros b p d; [reflexivity|]. cbn [app walk]. destruct (step p d c) as [[p' d']|]; [apply IH|reflexivity]. Qed.

(** ** What is written walks through *)

Lemma walk_letters : forall s d, forallb word s = true -> walk Lit d s = Some (Lit, d).
Proof. induction s as [|c s IH]; intros d H; [reflexivity|]. cbn [forallb] in H. apply andb_prop in H as [C H]. cbn [walk step]. rewrite C. apply IH, H. Qed.

Lemma walk_word : forall s d, s <> [] -> forallb word s = true -> walk Val d s = Some (Lit, d) /\ exists c r, s = c :: r /\ c <> 32.
Proof.
  intros [|c s] d N H; [congruence|]. cbn [forallb] in H. apply andb_prop in H as [C H]. split; [|exists c, s; split; [reflexivity|unfold word in C; lia]].
  cbn [walk step]. unfold start. replace (c =? 34) with false by (unfold word in C; lia). replace (opening c) with false by (unfold opening, word in *; lia). rewrite C. apply walk_letters, H.
Qed.

Lemma walk_plain : forall s d, Forall (fun c => c <> 34 /\ c <> 92 /\ c <> 10) s -> walk Text d s = Some (Text, d).
Proof.
  induction 1 as [|c s [A [B C]] _ IH]; [reflexivity|]. cbn [walk step].
  replace (c =? 34) with false by lia. replace (c =? 92) with false by lia. replace (c =? 10) with false by lia. exact IH.
Qed.

Lemma walk_ascii : forall b d, 0 <= b -> walk Text d (escape_ascii b) = Some (Text, d).
Proof.
  intros b d P. unfold escape_ascii.
  repeat match goal with |- context[if ?x then _ else _] => destruct x eqn:? end; try reflexivity.
  - set (y := [48; 48; lower_digit (b / 16); lower_digit (b mod 16)]). change (walk Text d y = Some (Text, d)).
    assert (G : forall x, 0 <= x < 16 -> lower_digit x <> 34 /\ lower_digit x <> 92 /\ lower_digit x <> 10) by (intros x X; unfold lower_digit; destruct (Z.ltb_spec x 10); lia).
    apply walk_plain. subst y. repeat constructor; try lia; apply G; lia.
  - cbn [walk step]. repeat match goal with H : (_ =? _) = false |- _ => rewrite H; clear H end. reflexivity.
Qed.

Lemma walk_wide : forall c d, Forall (fun b => 128 <= b) c -> (2 <= length c)%nat -> walk Text d (escape_char c) = Some (Text, d).
Proof.
  intros c d F L. destruct c as [|b0 [|b1 r]]; [cbn in L; lia|cbn in L; lia|]. unfold escape_char.
  destruct (bytes_eqb _ [226; 128; 168]); [reflexivity|]. destruct (bytes_eqb _ [226; 128; 169]); [reflexivity|].
  apply walk_plain. eapply Forall_impl; [|exact F]. cbn. lia.
Qed.

Lemma walk_escape : forall n s d, (length s <= n)%nat -> is_bytes s -> walk Text d (escape s) = Some (Text, d).
Proof.
  induction n as [|n IH]; intros s d L B; [destruct s; [reflexivity|cbn in L; lia]|].
  assert (U : forall r, (length r <= n)%nat -> is_bytes r -> walk Text d (str "\ufffd" ++ escape r) = Some (Text, d)) by (intros r Lr Br; exact (IH r d Lr Br)).
  assert (W : forall c r, Forall (fun b => 128 <= b) c -> (2 <= length c)%nat -> (length r <= n)%nat -> is_bytes r -> walk Text d (escape_char c ++ escape r) = Some (Text, d))
    by (intros c r F C Lr Br; rewrite walk_app, walk_wide by assumption; apply IH; assumption).
  destruct s as [|b0 r0]; [reflexivity|]. cbn [length] in L. cbn [escape]. pose proof (Forall_inv_tail B) as B0. apply Forall_inv in B. unfold is_byte in B.
  destruct (b0 <? 128) eqn:E0; [cbn [escape_char]; rewrite walk_app, walk_ascii by lia; apply IH; [lia|exact B0]|].
  destruct r0 as [|b1 r1]; [apply U; [cbn; lia|exact B0]|]. cbn [length] in L. pose proof (Forall_inv_tail B0) as B1. destruct (valid2 b0 b1) eqn:E2; [apply W; [repeat constructor; unfold valid2, cont in E2; lia|cbn; lia|lia|exact B1]|].
  destruct r1 as [|b2 r2]; [apply U; [cbn; lia|exact B0]|]. cbn [length] in L. pose proof (Forall_inv_tail B1) as B2. destruct (valid3 b0 b1 b2) eqn:E3; [apply W; [repeat constructor; unfold valid3, cont in E3; lia|cbn; lia|lia|exact B2]|].
  destruct r2 as [|b3 r3]; [apply U; [cbn; lia|exact B0]|]. cbn [length] in L. pose proof (Forall_inv_tail B2) as B3. destruct (valid4 b0 b1 b2 b3) eqn:E4; [apply W; [repeat constructor; unfold valid4, cont in E4; lia|cbn; lia|lia|exact B3]|].
  apply U; [cbn; lia|exact B0].
Qed.

Lemma walk_string : forall s d, is_bytes s -> walk Val d (write_string s) = Some (Done, d).
Proof. intros s d B. unfold write_string. change (walk Text d (escape s ++ [34]) = Some (Done, d)). rewrite walk_app, (walk_escape _ s d (le_n _) B). reflexivity. Qed.

Lemma word_dec : forall n, dec n <> [] /\ forallb word (dec n) = true.
Proof.
  intro n. assert (G : forall s, Forall is_digit s -> forallb word s = true).
  { intros s F. apply forallb_forall. intros x X. rewrite Forall_forall in F. apply F in X. unfold is_digit in X. unfold word. lia. }
  pose proof (dec_decimal n) as D. destruct D as [|s F H|s F H]; [split; [discriminate|reflexivity]| |].
  - split; [destruct s; [cbn in H; lia|discriminate]|apply G, F].
  - split; [discriminate|]. cbn [forallb]. rewrite (G s F). reflexivity.
Qed.

Definition after (p : place) : Prop := p = Done \/ p = Lit.
Definition item (d : nat) (x : bytes) : Prop := (exists p, after p /\ walk Val d x = Some (p, d)) /\ exists c r, x = c :: r /\ c <> 32.

Lemma walk_spaces : forall k j d, walk (Line j) d (flat_map (fun _ => [32; 32]) (repeat tt k)) = Some (Line (j + 2 * k), d).
Proof. induction k as [|k IH]; intros j d; [replace (j + 2 * 0)%nat with j by lia; reflexivity|]. cbn [repeat flat_map app walk step]. rewrite Z.eqb_refl. cbn [walk step]. rewrite Z.eqb_refl. replace (j + 2 * S k)%nat with (S (S j) + 2 * k)%nat by lia. apply IH. Qed.
Lemma walk_back : forall k j d, walk (Back j) d (flat_map (fun _ => [32; 32]) (repeat tt k)) = Some (Back (j + 2 * k), d).
Proof. induction k as [|k IH]; intros j d; [replace (j + 2 * 0)%nat with j by lia; reflexivity|]. cbn [repeat flat_map app walk step]. rewrite Z.eqb_refl. cbn [walk step]. rewrite Z.eqb_refl. replace (j + 2 * S k)%nat with (S (S j) + 2 * k)%nat by lia. apply IH. Qed.

Lemma walk_item : forall d x y, item d x -> exists p, after p /\ walk (Line 0) d (flat_map (fun _ => [32; 32]) (repeat tt d) ++ x ++ y) = walk p d y.
Proof.
  intros d x y [(p & P & W) (c & r & -> & N)]. exists p. split; [exact P|]. rewrite walk_app, walk_spaces. cbn [Nat.add].
  transitivity (walk Val d ((c :: r) ++ y)).
  - cbn [app walk step]. replace (c =? 32) with false by lia. rewrite Nat.eqb_refl. reflexivity.
  - rewrite walk_app, W. reflexivity.
Qed.

Lemma after_comma : forall p d r, after p -> walk p (S d) (44 :: 10 :: r) = walk (Line 0) (S d) r.
Proof. intros p d r [->| ->]; reflexivity. Qed.

Lemma walk_lines : forall d' l, let d := S d' in Forall (item d) l -> l <> [] -> item d (lines d l).
Proof.
  intros d' l d F. induction F as [|x l I F IH]; intro N; [congruence|]. destruct l as [|y l]; [exact I|].
  change (lines d (x :: y :: l)) with (x ++ 44 :: newline d ++ lines d (y :: l)). destruct (IH ltac:(discriminate)) as [(p & P & W) C].
  destruct I as [(p0 & P0 & W0) (c & r & E & Nc)]. split; [|exists c, (r ++ 44 :: newline d ++ lines d (y :: l)); rewrite E; split; [reflexivity|exact Nc]].
  rewrite walk_app, W0. unfold newline. cbn [app]. unfold d at 1. rewrite (after_comma _ _ _ P0). fold d.
  destruct (walk_item d (lines d (y :: l)) []) as (q & Q & E2); [split; [exists p; split; assumption|exact C]|]. rewrite app_nil_r in E2. exists q. split; [exact Q|exact E2].
Qed.

Lemma walk_box : forall d o x, opening o = true -> item (S d) x -> walk Val d (o :: newline (S d) ++ x ++ newline d ++ [o + 2]) = Some (Done, d).
Proof.
  intros d o x O I. cbn [walk step]. unfold start. replace (o =? 34) with false by (unfold opening in O; lia). rewrite O.
  unfold newline at 1. cbn [app walk step]. rewrite Z.eqb_refl. destruct (walk_item (S d) x (newline d ++ [o + 2]) I) as (p & P & E). rewrite E.
  unfold newline. replace (walk p (S d) ((10 :: flat_map (fun _ => [32; 32]) (repeat tt d)) ++ [o + 2])) with (walk (Back 0) (S d) (flat_map (fun _ => [32; 32]) (repeat tt d) ++ [o + 2])) by (destruct P as [->| ->]; reflexivity).
  rewrite walk_app, walk_back. cbn [walk step Nat.add]. replace (o + 2 =? 32) with false by (unfold opening in O; lia).
  replace (closing (o + 2)) with true by (unfold opening, closing in *; lia). cbn [pred]. rewrite Nat.eqb_refl. reflexivity.
Qed.

Lemma item_done : forall d c r, walk Val d (c :: r) = Some (Done, d) -> c <> 32 -> item d (c :: r).
Proof. intros d c r W N. split; [exists Done; split; [left; reflexivity|exact W]|exists c, r; split; [reflexivity|exact N]]. Qed.

Lemma item_word : forall d s, s <> [] -> forallb word s = true -> item d s.
Proof. intros d s N F. destruct (walk_word s d N F) as [W C]. split; [exists Lit; split; [right; reflexivity|exact W]|exact C]. Qed.

Lemma item_member : forall d k x, well_formed k -> item d x -> item d (write_string k ++ 58 :: 32 :: x).
Proof.
  intros d k x K [(p & P & W) _]. split; [|exists 34, (escape k ++ [34] ++ 58 :: 32 :: x); split; [unfold write_string; cbn [app]; rewrite <- app_assoc; reflexivity|lia]].
  exists p. split; [exact P|]. rewrite walk_app, walk_string by exact (well_formed_bytes k K). exact W.
Qed.

Lemma write_item : forall v d, writable v -> item d (write_json d v).
Proof.
  induction v using json_nested_ind; intros d W.
  - apply item_word; [discriminate|reflexivity].
  - destruct b; apply item_word; try discriminate; reflexivity.
  - apply item_word; apply word_dec.
  - apply item_word; [discriminate|reflexivity].
  - apply item_done; [apply walk_string, W|lia].
  - destruct l as [|v l]; [apply item_done; [reflexivity|lia]|]. apply item_done; [|lia].
    apply (walk_box d 91); [reflexivity|]. apply walk_lines; [|discriminate]. cbn [writable] in W. revert H W. generalize (v :: l). clear.
    intros l F W. induction F as [|v l H F IH]; [constructor|]. destruct W as [W1 W2]. constructor; [apply H, W1|apply IH, W2].
  - destruct o as [|v l]; [apply item_done; [reflexivity|lia]|]. apply item_done; [|lia].
    apply (walk_box d 123); [reflexivity|]. apply walk_lines; [|discriminate]. cbn [writable] in W. revert H W. generalize (v :: l). clear.
    intros l F W. induction F as [|[k v] l H F IH]; [constructor|]. destruct W as [W1 [W2 W3]]. constructor; [apply item_member; [exact W1|apply H, W2]|apply IH, W3].
Qed.

(** ** What walks through is laid out *)

Definition mode_of (p : place) : mode := match p with Text => Inside | Esc => Escape | _ => Outside end.
Definition just (p : place) (a : bytes) : Prop :=
  match p with
  | Val => a = [] \/ exists b, a = b ++ [58; 32]
  | Open o => exists b, a = b ++ [o]
  | Line k => exists b c w, a = b ++ c :: 10 :: w /\ (c = 44 \/ opening c = true) /\ spaces w /\ length w = k
  | Back k => exists b w, a = b ++ 10 :: w /\ spaces w /\ length w = k
  | Comma => exists b, a = b ++ [44]
  | Colon => exists b, a = b ++ [58]
  | Done => exists b c, a = b ++ [c] /\ c <> 58 /\ c <> 32
  | Lit => exists b c, a = b ++ [c] /\ word c = true
  | Text | Esc => True
  end.
Definition deep (p : place) (d : nat) : Prop := match p with Open o => opening o = true /\ (1 <= d)%nat | Line _ | Back _ | Comma => (1 <= d)%nat | _ => True end.

Lemma scan_app : forall a b m d, scan m d (a ++ b) = scan (fst (scan m d a)) (snd (scan m d a)) b.
Proof. induction a as [|c a IH]; intros b m d; [reflexivity|]. cbn [app scan]. destruct m; apply IH. Qed.

Ltac cases H := repeat match type of H with (if ?x then _ else _) = Some _ => let E := fresh "E" in destruct x eqn:E end; try discriminate H.

Lemma step_scan : forall p d c p' d', step p d c = Some (p', d') -> deep p d -> scan (mode_of p) (Z.of_nat d) [c] = (mode_of p', Z.of_nat d') /\ deep p' d'.
Proof.
  intros p d c p' d' H D. destruct p; cbn [step] in H; unfold start, follow in H; cases H; injection H as <- <-; cbn [mode_of deep scan] in *;
  try match type of D with _ /\ _ => destruct D as [D0 D] end; (split; [|first [exact I|lia|split; [assumption|lia]]]);
  unfold opening, closing, word in *;
  repeat match goal with |- context[if ?x then _ else _] => let E := fresh "E" in destruct x eqn:E end; try reflexivity; try (exfalso; lia); f_equal; lia.
Qed.

Lemma spaces_snoc : forall w, spaces w -> spaces (w ++ [32]).
Proof. intros w H. apply Forall_app. split; [exact H|repeat constructor]. Qed.

Lemma step_just : forall p d c p' d' a, step p d c = Some (p', d') -> deep p d -> just p a -> just p' (a ++ [c]).
Proof.
  intros p d c p' d' a H D J. destruct p; cbn [step] in H; unfold start, follow in H; cases H; injection H as <- <-; cbn [just deep] in *; try exact I;
  try (exists a, c; split; [reflexivity|]; unfold opening, closing, word in *; try split; lia);
  try (exists a; replace c with 44 by lia; reflexivity); try (exists a; replace c with 58 by lia; reflexivity); try (exists a; reflexivity);
  try (exists a, []; replace c with 10 by lia; split; [reflexivity|split; [constructor|reflexivity]]);
  try (replace c with 32 by lia); try (replace c with 10 by lia).
  - destruct J as [b ->]. exists b, c0, []. rewrite <- app_assoc. split; [reflexivity|]. split; [right; apply D|split; [constructor|reflexivity]].
  - destruct J as (b & x & w & -> & X & W & L). exists b, x, (w ++ [32]). rewrite <- app_assoc. split; [reflexivity|]. split; [exact X|]. split; [apply spaces_snoc, W|rewrite app_length; cbn; lia].
  - destruct J as (b & w & -> & W & L). exists b, (w ++ [32]). rewrite <- app_assoc. split; [reflexivity|]. split; [apply spaces_snoc, W|rewrite app_length; cbn; lia].
  - destruct J as [b ->]. exists b, 44, []. rewrite <- app_assoc. split; [reflexivity|]. split; [left; reflexivity|split; [constructor|reflexivity]].
  - right. destruct J as [b ->]. exists b. rewrite <- app_assoc. reflexivity.
Qed.

Lemma walk_inv : forall a p d, walk Val 0 a = Some (p, d) -> scan Outside 0 a = (mode_of p, Z.of_nat d) /\ deep p d /\ just p a.
Proof.
  induction a as [|c a IH] using rev_ind; intros p d H.
  - injection H as <- <-. split; [reflexivity|]. split; [exact I|left; reflexivity].
  - rewrite walk_app in H. destruct (walk Val 0 a) as [[p0 d0]|]; [|discriminate]. destruct (IH p0 d0 eq_refl) as (S0 & D0 & J0).
    cbn [walk] in H. destruct (step p0 d0 c) as [[p1 d1]|] eqn:E; [|discriminate]. injection H as -> ->.
    destruct (step_scan _ _ _ _ _ E D0) as [S1 D1]. rewrite scan_app, S0. cbn [fst snd]. split; [exact S1|]. split; [exact D1|]. eapply step_just; eassumption.
Qed.

Lemma word_not : forall c, word c = true -> c <> 10 /\ c <> 32 /\ c <> 9 /\ c <> 13 /\ closing c = false.
Proof. intros c H. unfold word, closing in *. lia. Qed.
Lemma start_not : forall d c p d', start d c = Some (p, d') -> c <> 10 /\ c <> 32 /\ c <> 9 /\ c <> 13 /\ c <> 44 /\ c <> 58 /\ closing c = false.
Proof. intros d c p d' H. unfold start in H. cases H; unfold opening, closing, word in *; lia. Qed.

Lemma line_run : forall w k d c r q, spaces w -> c <> 32 -> walk (Line k) d (w ++ c :: r) = Some q -> c <> 10 /\ closing c = false /\ (k + length w = 2 * d)%nat.
Proof.
  induction w as [|x w IH]; intros k d c r q W N H; cbn [app walk step] in H.
  - replace (c =? 32) with false in H by lia. destruct (Nat.eqb k (2 * d)) eqn:E; [|discriminate]. destruct (start d c) as [[p' d']|] eqn:Es; [|discriminate].
    apply start_not in Es. apply Nat.eqb_eq in E. cbn [length]. split; [apply Es|]. split; [apply Es|lia].
  - pose proof (Forall_inv W) as ->. rewrite Z.eqb_refl in H. apply IH in H; [|exact (Forall_inv_tail W)|exact N]. cbn [length]. split; [apply H|]. split; [apply H|lia].
Qed.
Lemma back_run : forall w k d c r q, spaces w -> c <> 32 -> walk (Back k) d (w ++ c :: r) = Some q -> closing c = true /\ (k + length w = 2 * pred d)%nat.
Proof.
  induction w as [|x w IH]; intros k d c r q W N H; cbn [app walk step] in H.
  - replace (c =? 32) with false in H by lia. destruct (closing c && Nat.eqb k (2 * pred d)) eqn:E; [|discriminate]. apply andb_prop in E as [E1 E].
    apply Nat.eqb_eq in E. cbn [length]. split; [exact E1|lia].
  - pose proof (Forall_inv W) as ->. rewrite Z.eqb_refl in H. apply IH in H; [|exact (Forall_inv_tail W)|exact N]. cbn [length]. split; [apply H|lia].
Qed.
Lemma back_closes : forall r k d p, walk (Back k) d r = Some (p, 0%nat) -> after p -> exists w c q, r = w ++ c :: q /\ spaces w /\ closing c = true.
Proof.
  induction r as [|x r IH]; intros k d p H A.
  - injection H as <- ->. destruct A; discriminate.
  - cbn [walk step] in H. destruct (x =? 32) eqn:E.
    + apply IH in H as (w & c & q & -> & W & C); [|exact A]. exists (x :: w), c, q. split; [reflexivity|]. split; [constructor; [lia|exact W]|exact C].
    + destruct (closing x && _) eqn:E1; [|discriminate]. apply andb_prop in E1 as [E1 _]. exists [], x, r. split; [reflexivity|]. split; [constructor|exact E1].
Qed.

Lemma at_char : forall t pf a c r, walk Val 0 t = Some (pf, 0%nat) -> t = a ++ c :: r -> exists p d p' d', walk Val 0 a = Some (p, d) /\ step p d c = Some (p', d') /\ walk p' d' r = Some (pf, 0%nat) /\
  scan Outside 0 a = (mode_of p, Z.of_nat d) /\ deep p d /\ just p a.
Proof.
  intros t pf a c r H ->. rewrite walk_app in H. destruct (walk Val 0 a) as [[p d]|] eqn:E; [|discriminate]. cbn [walk] in H.
  destruct (step p d c) as [[p' d']|] eqn:Es; [|discriminate]. exists p, d, p', d'. pose proof (walk_inv _ _ _ E). tauto.
Qed.

Ltac odd De := cbn [deep] in De; match type of De with _ /\ _ => destruct De as [De _]; unfold opening in *; lia end.

Theorem walk_laid_out : forall t p, after p -> walk Val 0 t = Some (p, 0%nat) -> laid_out t.
Proof.
  intros t pf A H. split.
  - intros a w c r E W N. destruct (at_char _ _ _ _ _ H E) as (p & d & p' & d' & Wa & St & Wr & Sc & De & Ju). exists (Z.of_nat d).
    destruct p; cbn [step] in St; unfold start, follow in St; cases St; try (unfold word, opening, closing in *; lia); injection St as <- <-;
    (split; [exact Sc|]); cbn [deep] in De;
    first [apply line_run in Wr as (C1 & C2 & C3); [|exact W|exact N]; rewrite C2; split; [exact C1|]; unfold zlen; cbn [Nat.add] in C3; lia
          |apply back_run in Wr as (C2 & C3); [|exact W|exact N]; rewrite C2; split; [unfold closing in C2; lia|]; unfold zlen; match goal with Q : Nat.eqb _ 0 = false |- _ => apply Nat.eqb_neq in Q end; cbn [Nat.add] in C3; lia].
  - intros a r d E O. destruct (at_char _ _ _ _ _ H E) as (p & d0 & p' & d' & Wa & St & Wr & Sc & De & Ju). unfold outside in O. rewrite Sc in O.
    destruct p; try discriminate O; cbn [step] in St; unfold start, follow in St; cases St; try (unfold word, opening in *; lia);
    try odd De; try (unfold closing in *; lia); injection St as <- <-;
    (destruct r as [|x r]; [cbn [walk] in Wr; injection Wr as <- _; destruct A; discriminate|]); cbn [walk step] in Wr; (destruct (x =? 10) eqn:X; [|discriminate]); exists r; f_equal; lia.
  - intros a c r d E O Op. destruct (at_char _ _ _ _ _ H E) as (p & d0 & p' & d' & Wa & St & Wr & Sc & De & Ju). unfold outside in O. rewrite Sc in O.
    assert (St' : p' = Open c).
    { destruct p; try discriminate O; cbn [step] in St; unfold start, follow in St; cases St; try (unfold word, closing, opening in *; lia);
      try odd De; injection St as <- <-; reflexivity. }
    subst p'. destruct r as [|x r]; [cbn [walk] in Wr; injection Wr as <- _; destruct A; discriminate|]. cbn [walk step] in Wr.
    destruct (x =? 10) eqn:X; [left; exists r; f_equal; lia|]. destruct (x =? c + 2) eqn:X1; [|discriminate]. right. exists r. f_equal. lia.
  - intros a c r d E O Cl. destruct (at_char _ _ _ _ _ H E) as (p & d0 & p' & d' & Wa & St & Wr & Sc & De & Ju). unfold outside in O. rewrite Sc in O.
    destruct p; try discriminate O; cbn [step] in St; unfold start, follow in St; cases St; try (unfold word, closing, opening in *; lia); cbn [just] in Ju.
    + right. destruct Ju as [b ->]. exists b. do 2 f_equal. lia.
    + left. destruct Ju as (b & w & -> & W & _). exists b, w. split; [reflexivity|exact W].
  - intros a r d E O. destruct (at_char _ _ _ _ _ H E) as (p & d0 & p' & d' & Wa & St & Wr & Sc & De & Ju). unfold outside in O. rewrite Sc in O.
    destruct p; try discriminate O; cbn [step] in St; unfold start, follow in St; cases St; try (unfold word, closing, opening in *; lia); cbn [just] in Ju.
    + right. injection St as <- <-. eapply back_closes; eassumption.
    + left. destruct Ju as [b ->]. exists b, c. split; [reflexivity|right; apply De].
    + right. injection St as <- <-. eapply back_closes; eassumption.
    + left. destruct Ju as [b ->]. exists b, 44. split; [reflexivity|left; reflexivity].
  - intros a r d E O. destruct (at_char _ _ _ _ _ H E) as (p & d0 & p' & d' & Wa & St & Wr & Sc & De & Ju). unfold outside in O. rewrite Sc in O.
    assert (St' : p' = Colon).
    { destruct p; try discriminate O; cbn [step] in St; unfold start, follow in St; cases St; try (unfold word, closing, opening in *; lia);
      try odd De; injection St as <- <-; reflexivity. }
    subst p'. destruct r as [|x r]; [cbn [walk] in Wr; injection Wr as <- _; destruct A; discriminate|]. cbn [walk step] in Wr. destruct (x =? 32) eqn:X; [|discriminate].
    destruct r as [|y r]; [cbn [walk] in Wr; injection Wr as <- _; destruct A; discriminate|]. cbn [walk step] in Wr. destruct (start d' y) as [[p1 d1]|] eqn:Es; [|discriminate].
    apply start_not in Es. exists y, r. split; [f_equal; lia|]. split; apply Es.
  - intros a c r d E O ->. destruct (at_char _ _ _ _ _ H E) as (p & d0 & p' & d' & Wa & St & Wr & Sc & De & Ju). unfold outside in O. rewrite Sc in O.
    destruct p; try discriminate O; cbn [step] in St; unfold start, follow in St; cases St; try (unfold word, closing, opening in *; lia); cbn [just] in Ju.
    + odd De.
    + left. destruct Ju as (b & x & w & -> & _ & W & _). exists (b ++ [x]), w. rewrite <- app_assoc. split; [reflexivity|exact W].
    + left. destruct Ju as (b & w & -> & W & _). exists b, w. split; [reflexivity|exact W].
    + right. exact Ju.
  - intros a c r d E O. destruct (at_char _ _ _ _ _ H E) as (p & d0 & p' & d' & Wa & St & Wr & Sc & De & Ju). unfold outside in O. rewrite Sc in O.
    destruct p; try discriminate O; cbn [step] in St; unfold start, follow in St; cases St; try (unfold word, closing, opening in *; lia);
    odd De.
  - unfold outside. destruct (walk_inv _ _ _ H) as (Sc & _). rewrite Sc. destruct A as [->| ->]; reflexivity.
Qed.

Theorem write_laid_out : forall v, writable v -> laid_out (write_json 0 v).
Proof. intros v W. destruct (write_item v 0 W) as [(p & P & E) _]. exact (walk_laid_out _ p P E). Qed.

Theorem export_laid_out : forall c4 conf l r s, conf_bytes conf -> load_manufacturers conf = Ok l -> is_bytes r ->
  decode (add_manufacturers (Env c4 manufacturers) l) r = Ok s -> laid_out (export_text s).
Proof. intros c4 conf l r s C L Hr H. apply write_laid_out. apply (export_ok _ r s Hr (env_bytes c4 conf l C L) H). Qed.
