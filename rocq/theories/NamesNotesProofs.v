(** * NamesNotesProofs: the notes, the click track and JSON documents under other settings (C97, C98). *)
From Coq Require Import Permutation.
From Verif Require Import Base Strings Tables Vlq Event Parse Track File Marshal Hex Manufacturer Assemble TextAssemble Json Validate Transpose Notes SpecSameNotes SpecNames NamesProofs.

Definition bare_ne (e : nevent) : nevent := NEvent (ne_tick e) (ne_delta e) (ne_at e) (bare (ne_body e)) (ne_flats e).

Lemma unsorted_bare : forall es tm, unsorted (map bare_event es) (map bare_event tm) = map bare_ne (unsorted es tm).
Proof. intros es tm. unfold unsorted. rewrite map_app, !map_map. reflexivity. Qed.

Lemma insert_bare : forall x l, insert_tick (bare_ne x) (map bare_ne l) = map bare_ne (insert_tick x l).
Proof. intros x. induction l as [|y l IH]; [reflexivity|]. cbn [map insert_tick]. rewrite IH. cbn [bare_ne ne_tick]. destruct (ne_tick y <? ne_tick x); reflexivity. Qed.

Lemma sort_bare : forall l, sort_ticks (map bare_ne l) = map bare_ne (sort_ticks l).
Proof. induction l as [|x l IH]; [reflexivity|]. cbn [map sort_ticks]. rewrite IH. apply insert_bare. Qed.

Lemma timestamps_bare : forall ppqn l tempo at_ flats, timestamps tempo at_ flats ppqn (map bare_ne l) = omap (map bare_ne) (timestamps tempo at_ flats ppqn l).
Proof.
  intros ppqn. induction l as [|e l IH]; intros tempo at_ flats; [reflexivity|]. cbn [map timestamps]. cbn [bare_ne ne_delta ne_tick].
  assert (T : forall t, match bare (ne_body e) with Tempo x => x | _ => t end = match ne_body e with Tempo x => x | _ => t end) by (intro t; destruct (ne_body e); reflexivity).
  assert (F : forall f, match bare (ne_body e) with KeySignature acc _ _ => acc <? 0 | _ => f end = match ne_body e with KeySignature acc _ _ => acc <? 0 | _ => f end) by (intro f; destruct (ne_body e); reflexivity).
  unfold omap. destruct (delta_time (ne_delta e) tempo ppqn) as [d| | | |]; cbn [bind]; try reflexivity. cbv zeta. cbn [ne_body]. rewrite T, F, IH. unfold omap.
  destruct (timestamps _ _ _ _ _); reflexivity.
Qed.

Lemma build_bare : forall es tm ppqn, build_track_events (map bare_event es) (map bare_event tm) ppqn = omap (map bare_ne) (build_track_events es tm ppqn).
Proof.
  intros es tm ppqn. unfold build_track_events. rewrite unsorted_bare, sort_bare, timestamps_bare. unfold omap. destruct (timestamps _ _ _ _ _) as [l| | | |]; cbn [bind]; try reflexivity.
  rewrite (filter_map _ _ bare_ne _ (fun e => is_note_event (ne_body e))); [reflexivity|]. intros [t d a b f]. destruct b; reflexivity.
Qed.

Definition nerel (e e' : nevent) : Prop := bare_ne e = bare_ne e'.
Definition penrel (p p' : (Z * Z) * nevent) : Prop := fst p = fst p' /\ nerel (snd p) (snd p').

Lemma finished_rel : forall a b steps p p' e e', nerel p p' -> nerel e e' -> unnamed (finished a steps p e) = unnamed (finished b steps p' e').
Proof.
  intros a b steps [t d at_ bd fl] [t' d' at' bd' fl'] [te de ate be fe] [te' de' ate' be' fe'] P E. unfold nerel, bare_ne in P, E. cbn [ne_tick ne_delta ne_at ne_body ne_flats] in P, E.
  injection P as <- <- <- B <-. injection E as <- <- <- _ <-. unfold finished. cbn [ne_body ne_tick ne_at ne_flats].
  destruct bd, bd'; cbn [bare] in B; try discriminate B; try reflexivity. injection B as <- V <-. unfold unnamed. cbn. rewrite V. reflexivity.
Qed.

Lemma find_rel : forall k p p', Forall2 penrel p p' -> match find_key k p, find_key k p' with Some e, Some e' => nerel e e' | None, None => True | _, _ => False end.
Proof.
  intros k p p' H. induction H as [|[k1 e] [k1' e'] p p' [K E] H IH]; [exact I|]. cbn [fst snd] in K, E. subst k1'. cbn [find_key]. destruct (key_eqb k k1); [exact E|exact IH].
Qed.

Lemma filter_rel : forall (f : Z * Z -> bool) p p', Forall2 penrel p p' -> Forall2 penrel (filter (fun x => f (fst x)) p) (filter (fun x => f (fst x)) p').
Proof.
  intros f p p' H. induction H as [|x y p p' X H IH]; [constructor|]. cbn [filter]. destruct X as [K E]. rewrite <- K. destruct (f (fst x)); [constructor; [split; assumption|exact IH]|exact IH].
Qed.

Definition notesrel (x y : list note_out) : Prop := Permutation (map unnamed x) (map unnamed y).

Lemma finish_rel : forall a b steps p p' k e e', Forall2 penrel p p' -> nerel e e' ->
  notesrel (fst (finish a steps p k e)) (fst (finish b steps p' k e')) /\ Forall2 penrel (snd (finish a steps p k e)) (snd (finish b steps p' k e')).
Proof.
  intros a b steps p p' k e e' P E. unfold finish. pose proof (find_rel k p p' P) as F. destruct (find_key k p) as [on|], (find_key k p') as [on'|]; try contradiction; cbn [fst snd].
  - split; [|apply (filter_rel (fun x => negb (key_eqb k x))), P]. unfold notesrel. cbn [map]. rewrite (finished_rel a b steps on on' e e' F E). apply Permutation_refl.
  - split; [apply Permutation_refl|exact P].
Qed.

Lemma finish_all_rel : forall a b steps order order' p p' e e', (forall l, Permutation l (order l)) -> (forall l, Permutation l (order' l)) -> Forall2 penrel p p' -> nerel e e' ->
  notesrel (finish_all a steps order p e) (finish_all b steps order' p' e').
Proof.
  intros a b steps order order' p p' e e' O O' P E. unfold finish_all, notesrel. induction channels16 as [|ch l IH]; [apply Permutation_refl|]. cbn [flat_map]. rewrite !map_app. apply Permutation_app; [|exact IH].
  pose proof (filter_rel (fun k => fst k =? ch) p p' P) as F. set (q := filter (fun x => fst (fst x) =? ch) p) in *. set (q' := filter (fun x => fst (fst x) =? ch) p') in *.
  rewrite <- (O (map snd q)), <- (O' (map snd q')). clear - F E. clearbody q q'. induction F as [|x y q q' [K X] F IH]; [apply Permutation_refl|]. cbn [map].
  rewrite (finished_rel a b steps (snd x) (snd y) e e' X E). apply perm_skip, IH.
Qed.

Lemma note_list_rel : forall a b steps order order', (forall l, Permutation l (order l)) -> (forall l, Permutation l (order' l)) -> forall es es', map bare_ne es = map bare_ne es' ->
  forall p p', Forall2 penrel p p' -> alike notesrel (note_list a steps order p es) (note_list b steps order' p' es').
Proof.
  intros a b steps order order' O O'. induction es as [|e es IH]; intros [|e' es'] H p p' P; try discriminate H; [apply Permutation_refl|]. cbn [map] in H.
  assert (E : nerel e e') by (unfold nerel; congruence). assert (H' : map bare_ne es = map bare_ne es') by congruence. clear H. specialize (IH es' H').
  pose proof (f_equal ne_body E) as B. cbn [bare_ne ne_body] in B. cbn [note_list].
  assert (J : forall k, alike notesrel (let (out, q) := finish a steps p k e in do ns <- note_list a steps order q es; Ok (out ++ ns)) (let (out, q) := finish b steps p' k e' in do ns <- note_list b steps order' q es'; Ok (out ++ ns))).
  { intro k. destruct (finish_rel a b steps p p' k e e' P E) as [F1 F2]. destruct (finish a steps p k e) as [out q], (finish b steps p' k e') as [out' q']. cbn [fst snd] in *.
    apply (alike_bind _ _ _ _ notesrel); [apply IH, F2|]. intros ns ns' N. cbn [alike]. unfold notesrel in *. rewrite !map_app. apply Permutation_app; assumption. }
  destruct (ne_body e), (ne_body e'); cbn [bare] in B; try discriminate B; try (apply IH, P).
  - injection B as <- V _. rewrite <- V. apply J.
  - injection B as <- V <-. rewrite <- V. destruct (0 <? _); [|apply J]. pose proof (find_rel (ch, n_value n) p p' P) as F.
    destruct (find_key _ p), (find_key _ p'); try contradiction; [apply IH, P|]. destruct (ch <? 16); [|exact I]. apply IH. constructor; [split; [reflexivity|exact E]|exact P].
  - apply (alike_bind _ _ _ _ notesrel); [apply IH, (filter_rel (fun k => negb (existsb (Z.eqb (fst k)) channels16))), P|]. intros ns ns' N. cbn [alike]. unfold notesrel. rewrite !map_app. apply Permutation_app; [|exact N].
    apply finish_all_rel; assumption.
Qed.

Lemma tempo_bare : forall es, tempo_events (map bare_event es) = map bare_event (tempo_events es).
Proof. intro es. unfold tempo_events. apply filter_map. intros [t d bs st ty []]; reflexivity. Qed.

Lemma tracks_notes_rel : forall a b steps order order' ppqn, (forall l, Permutation l (order l)) -> (forall l, Permutation l (order' l)) -> forall tm tm', map bare_event tm = map bare_event tm' ->
  forall ts ts', tracksrel ts ts' -> alike same_notes (tracks_notes a steps order tm ppqn ts) (tracks_notes b steps order' tm' ppqn ts').
Proof.
  intros a b steps order order' ppqn O O' tm tm' T. induction ts as [|t ts IH]; intros [|t' ts'] H; try discriminate H; [exists [], []; repeat split; constructor|]. unfold tracksrel in H. cbn [map] in H.
  assert (E : map bare_event (t_events t) = map bare_event (t_events t')) by (injection H; congruence). assert (H' : tracksrel ts ts') by (unfold tracksrel; congruence). cbn [tracks_notes].
  apply (alike_bind _ _ _ _ notesrel).
  - unfold track_notes. apply (alike_bind _ _ _ _ (fun x y => map bare_ne x = map bare_ne y)).
    + pose proof (build_bare (t_events t) tm ppqn) as X. rewrite E, T, build_bare in X. destruct (build_track_events (t_events t) tm ppqn), (build_track_events (t_events t') tm' ppqn); cbn [omap bind] in X;
        try discriminate X; try exact I. apply Ok_inj in X. symmetry. exact X.
    + intros es es' X. apply note_list_rel; [exact O|exact O'|exact X|constructor].
  - intros x x' X. apply (alike_bind _ _ _ _ same_notes); [apply IH, H'|]. intros y y' (A & B & -> & -> & F). cbn [alike]. exists (x :: A), (x' :: B). split; [reflexivity|]. split; [reflexivity|]. constructor; assumption.
Qed.

Theorem extract_same : forall a b steps order order' s s', (forall l, Permutation l (order l)) -> (forall l, Permutation l (order' l)) -> same_but_names s s' ->
  alike same_notes (extract a steps order s) (extract b steps order' s').
Proof.
  intros a b steps order order' [h ts] [h' ts'] O O' H. unfold same_but_names, bare_file in H. cbn [f_mthd f_tracks] in H. injection H as <- T. unfold extract. cbn [f_mthd f_tracks].
  destruct ts as [|t ts], ts' as [|t' ts']; try discriminate T; [exact I|]. cbn [map] in T.
  assert (E : map bare_event (t_events t) = map bare_event (t_events t')) by (injection T; congruence). assert (T' : tracksrel ts ts') by (unfold tracksrel; congruence).
  destruct ts as [|t1 ts], ts' as [|t1' ts']; try discriminate T'.
  - destruct h; exists [], []; repeat split; constructor.
  - destruct h as [h|]; [|exact I]. apply tracks_notes_rel; [exact O|exact O'| |exact T']. rewrite <- !tempo_bare, E. reflexivity.
Qed.

Theorem click_same : forall s s', same_but_names s s' -> click_lines s = click_lines s'.
Proof.
  intros [h ts] [h' ts'] H. unfold same_but_names, bare_file in H. cbn [f_mthd f_tracks] in H. injection H as <- T. unfold click_lines. cbn [f_mthd f_tracks].
  destruct ts as [|t ts], ts' as [|t' ts']; try discriminate T; [reflexivity|]. destruct h; [|reflexivity]. cbn [map] in T.
  assert (N : forall (p : event -> bool) l, (forall e, p e = false) -> filter p l = []) by (intros p l F; induction l as [|x l IH]; [reflexivity|]; cbn [filter]; rewrite F; exact IH).
  destruct ts as [|t1 ts], ts' as [|t1' ts']; try discriminate T; [reflexivity|]. unfold click_events. rewrite !N; try reflexivity; intros []; reflexivity.
Qed.
