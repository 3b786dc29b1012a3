(** * TemplateProofs: what the embedded template makes of a file (Template.v). *)
From Verif Require Import Base Strings Tables Event Track File Utf8 Hex Disassemble Template SpecTemplate.

(** The parsed template (Template.v [new_disassemble], ops/disassemble/template) *)
Definition builtin : trees := Eval vm_compute in match new_disassemble with Some t => t | None => [] end.

Lemma new_builtin : new_disassemble = Some builtin.
Proof. vm_compute. reflexivity. Qed.

(** The templates of [builtin] *)
Definition tree (name : bytes) : list node := match assocb name builtin with Some t => t | None => [] end.

Lemma andthen_done : forall a b s, andthen (a, Done) (b, s) = (a ++ b, s).
Proof. reflexivity. Qed.

Lemma andthen_nil : forall w, andthen w ([], Done) = w.
Proof. intros [a []]; cbn; rewrite ?app_nil_r; reflexivity. Qed.

Lemma andthen_assoc : forall a b c, andthen (andthen a b) c = andthen a (andthen b c).
Proof. intros [a []] [b []] [c s]; cbn; rewrite ?app_assoc; reflexivity. Qed.

Lemma exec_walk : forall ts d dot ns,
  exec ts d dot ns = sequence (map (walk ts (match d with O => None | S d => Some (exec ts d) end) dot) ns).
Proof. intros ts [|d] dot ns; reflexivity. Qed.

(** ** One kind of event *)

Lemma kind_text_any : forall ts d e, exec ts d (inner_data e) (tree (kind_template (e_body e))) = (event_text e, Done).
Proof.
  intros ts d [tick delta bs st ty b]. rewrite exec_walk. generalize (match d with O => None | S d => Some (exec ts d) end). intro en.
  destruct b; try destruct k;
    lazy -[pad dec hex2 hex_string andthen event_text]; rewrite ?andthen_done.
  all: try (unfold event_text, event_details; cbn [e_body e_type e_status is_meta]; rewrite <- ?app_assoc, ?app_nil_r; reflexivity).
Qed.

(** ** The layout *)

(** Templates that lay out the listing as the built-in ones do *)
Definition same_layout (ts : trees) : Prop := forall n, In n layout_names -> assocb n ts = assocb n builtin.

Lemma walk_template : forall ts f dot name p v body, assocb name ts = Some body -> eval_pipeline dot p = Value v ->
  walk ts (Some f) dot (NTemplate name (Some p)) = f v body.
Proof. intros ts f dot name p v body L E. cbn [walk]. rewrite L, E. reflexivity. Qed.

Lemma sequence_cons : forall a l, sequence (a :: l) = andthen a (sequence l).
Proof. reflexivity. Qed.

(** The chain of comparisons of "events" *)
Definition tag_field : list bytes := [str "Tag"].
Definition own_call (name : bytes) : node := NTemplate name (Some [[EDot]]).
Fixpoint choice (l : list (bytes * bytes)) (other : list node) : list node :=
  match l with
  | [] => other
  | (tag, name) :: r => [NIf [[EFunction (str "eq"); EField tag_field; EString tag]] [own_call name] (choice r other)]
  end.

Definition kinds : list (bytes * bytes) := Eval vm_compute in
  (fix pairs (n : nat) (l : list node) : list (bytes * bytes) :=
     match n, l with
     | S n, NIf [[_; _; EString tag]] [NTemplate name _] no :: _ => (tag, name) :: pairs n no
     | _, _ => []
     end) 40%nat (tree (str "events")).

Lemma events_tree : tree (str "events") = choice kinds [own_call (str "unknown"); NText [10]] ++ [NText [10]].
Proof. vm_compute. reflexivity. Qed.

Lemma choice_walk : forall ts en dot tag l other name, select dot (str "Tag") = Value (DString tag) -> assocb tag l = Some name ->
  sequence (map (walk ts en dot) (choice l other)) = walk ts en dot (own_call name).
Proof.
  intros ts en dot tag l other name T. induction l as [|[t n] r IH]; intro L; [discriminate|].
  assert (E : eval_pipeline dot [[EFunction (str "eq"); EField tag_field; EString t]] = Value (DBool (bytes_eqb tag t))).
  { unfold eval_pipeline, tag_field. cbn [eval select_path]. cbn [map fold_left ebind collect fold_right]. cbn [eval select_path]. rewrite T. cbn [ebind app].
    replace (call (str "eq") [DString tag; DString t]) with (ebind (equal_any (DString tag) [DString t]) (fun b => Value (DBool b))) by reflexivity.
    cbn [equal_any equal ebind]. destruct (bytes_eqb tag t); reflexivity. }
  cbn [choice map sequence fold_right]. rewrite andthen_nil. cbn [walk]. rewrite E. cbn [after truth].
  cbn [assocb] in L. destruct (bytes_eqb tag t).
  - injection L as <-. cbn [map sequence fold_right]. apply andthen_nil.
  - apply IH, L.
Qed.

Lemma kind_found : forall b, assocb (body_tag b) kinds = Some (kind_template b).
Proof. destruct b; try destruct k; vm_compute; reflexivity. Qed.

Lemma inner_tag : forall e, select (inner_data e) (str "Tag") = Value (DString (body_tag (e_body e))).
Proof. reflexivity. Qed.

Lemma events_exec : forall ts d e, exec ts (S d) (inner_data e) (tree (str "events")) = andthen (own_text ts d e) (writes [10]).
Proof.
  intros ts d e. rewrite exec_walk, events_tree, map_app. unfold sequence. rewrite fold_right_app.
  change (fold_right andthen ([], Done) (map (walk ts (Some (exec ts d)) (inner_data e)) [NText [10]])) with (writes [10]).
  assert (A : forall l w, fold_right andthen w l = andthen (sequence l) w).
  { induction l as [|x l IH]; intro w; cbn [fold_right sequence]; [destruct w; reflexivity|]. rewrite IH. unfold sequence. rewrite andthen_assoc. reflexivity. }
  rewrite A. f_equal. rewrite (choice_walk _ _ _ _ _ _ _ (inner_tag e) (kind_found (e_body e))).
  unfold own_call, own_text. cbn [walk]. destruct (assocb (kind_template (e_body e)) ts); reflexivity.
Qed.

Lemma hex_exec : forall ts d bs, exec ts d (DBytes true bs) (tree (str "hex")) = may_fail (hex_column bs).
Proof.
  intros ts d bs. rewrite exec_walk. generalize (match d with O => None | S d => Some (exec ts d) end). intro en.
  unfold hex_column. lazy -[pad dec ellipsize hex_string andthen valign].
  destruct (valign bs 3); try reflexivity. rewrite andthen_nil. reflexivity.
Qed.

Lemma event_tree : tree (str "event") =
  [NTemplate (str "hex") (Some [[EField [str "Bytes"]]]); NText (str "  tick:"); NAction [[EField [str "Tick"]]; [EFunction (str "pad"); ENumber 9]];
   NText (str "  delta:"); NAction [[EFunction (str "pad"); ENumber 9; EField [str "Delta"]]]; NText (str "  ");
   NTemplate (str "events") (Some [[EField [str "Event"]]])].
Proof. vm_compute. reflexivity. Qed.

Lemma lookup_tree : forall ts n, same_layout ts -> In n layout_names -> assocb n ts = Some (tree n).
Proof.
  intros ts n A H. rewrite (A n H). cbn [layout_names map In] in H. unfold tree.
  repeat (destruct H as [<-|H]; [vm_compute; reflexivity|]). destruct H.
Qed.

Ltac layout := cbn [layout_names map In]; tauto.

Lemma event_exec : forall ts d e, same_layout ts -> exec ts (S (S d)) (event_data e) (tree (str "event")) = event_written (own_text ts d) e.
Proof.
  intros ts d e A. rewrite exec_walk, event_tree. cbn [map].
  rewrite (walk_template ts (exec ts (S d)) (event_data e) (str "hex") [[EField [str "Bytes"]]] (DBytes true (e_bytes e)) _ (lookup_tree ts (str "hex") A ltac:(layout)) eq_refl), hex_exec.
  rewrite (walk_template ts (exec ts (S d)) (event_data e) (str "events") [[EField [str "Event"]]] (inner_data e) _ (lookup_tree ts (str "events") A ltac:(layout)) eq_refl), events_exec.
  set (w1 := may_fail (hex_column (e_bytes e))). set (w2 := own_text ts d e).
  replace (walk ts (Some (exec ts (S d))) (event_data e) (NAction [[EField [str "Tick"]]; [EFunction (str "pad"); ENumber 9]])) with
    (writes (pad 9 (dec (e_tick e)))) by reflexivity.
  replace (walk ts (Some (exec ts (S d))) (event_data e) (NAction [[EFunction (str "pad"); ENumber 9; EField [str "Delta"]]])) with
    (writes (pad 9 (dec (e_delta e)))) by reflexivity.
  cbn [walk]. unfold event_written. fold w1 w2. unfold sequence. cbn [fold_right]. rewrite !andthen_nil.
  f_equal. unfold writes. rewrite <- !andthen_assoc, !andthen_done. f_equal. rewrite <- !app_assoc. reflexivity.
Qed.

Lemma mthd_exec : forall ts d h, exec ts d (header_data h) (tree (str "MThd")) = header_written h.
Proof.
  intros ts d h. rewrite exec_walk. generalize (match d with O => None | S d => Some (exec ts d) end). intro en.
  destruct h as [h|]; [|reflexivity]. cbn [header_data header_written].
  destruct h as [tag len fmt tracks division ppqn [|] sub fps drop bs];
    lazy -[pad dec ellipsize hex_string andthen mthd_line writes]; rewrite ?andthen_done; unfold writes, mthd_line; cbn [h_smpte h_bytes h_tag h_length h_format h_tracks h_fps h_subframes h_ppqn]; rewrite <- ?app_assoc, ?app_nil_r; reflexivity.
Qed.

Lemma mtrk_tree : exists pre, tree (str "MTrk") = pre ++ [NRange [[EField [str "Events"]]] [NTemplate (str "event") (Some [[EDot]])] []] /\
  forall ts en t, sequence (map (walk ts en (mtrk_data t)) pre) = writes (track_line t).
Proof.
  exists (removelast (tree (str "MTrk"))). split; [vm_compute; reflexivity|]. intros ts en [tag n len bs es].
  lazy -[pad dec ellipsize hex_string andthen writes track_line]; rewrite ?andthen_done; unfold writes, track_line; rewrite <- ?app_assoc; reflexivity.
Qed.

Lemma sequence_map : forall A (f g : A -> written) l, (forall x, In x l -> f x = g x) -> sequence (map f l) = sequence (map g l).
Proof. intros A f g l H. f_equal. apply map_ext_in, H. Qed.

Lemma mtrk_exec : forall ts d t, same_layout ts -> exec ts (S (S (S d))) (mtrk_data t) (tree (str "MTrk")) = track_written (own_text ts d) t.
Proof.
  intros ts d t A. rewrite exec_walk. destruct mtrk_tree as (pre & -> & P). rewrite map_app. unfold sequence. rewrite fold_right_app.
  assert (R : walk ts (Some (exec ts (S (S d)))) (mtrk_data t) (NRange [[EField [str "Events"]]] [NTemplate (str "event") (Some [[EDot]])] []) =
    sequence (map (event_written (own_text ts d)) (t_events t))).
  { cbn [walk]. replace (eval_pipeline (mtrk_data t) [[EField [str "Events"]]]) with (Value (DList (map event_data (t_events t)))) by reflexivity.
    cbn [after]. destruct (t_events t) as [|e es]; [reflexivity|]. cbn [map]. rewrite !sequence_cons.
    assert (E : forall e, andthen (walk ts (Some (exec ts (S (S d)))) (event_data e) (NTemplate (str "event") (Some [[EDot]]))) (sequence []) = event_written (own_text ts d) e).
    { intro x. rewrite (walk_template ts (exec ts (S (S d))) (event_data x) (str "event") [[EDot]] (event_data x) _ (lookup_tree ts (str "event") A ltac:(layout)) eq_refl).
      rewrite event_exec by exact A. apply andthen_nil. }
    rewrite E. f_equal. rewrite map_map. apply sequence_map. intros x _. rewrite sequence_cons. apply E. }
  cbn [map fold_right]. rewrite R, andthen_nil.
  assert (B : forall l w, fold_right andthen w l = andthen (sequence l) w).
  { induction l as [|x l IH]; intro w; cbn [fold_right sequence]; [destruct w; reflexivity|]. rewrite IH. unfold sequence. rewrite andthen_assoc. reflexivity. }
  rewrite B, P. reflexivity.
Qed.

Lemma document_tree : tree (str "document") =
  [NTemplate (str "MThd") (Some [[EField [str "MThd"]]]); NRange [[EField [str "Tracks"]]] [NTemplate (str "MTrk") (Some [[EDot]])] []].
Proof. vm_compute. reflexivity. Qed.

Lemma document_exec : forall ts d s, same_layout ts -> exec ts (S (S (S (S d)))) (smf_data s) (tree (str "document")) = file_written (own_text ts d) s.
Proof.
  intros ts d s A. rewrite exec_walk, document_tree. cbn [map].
  rewrite (walk_template ts (exec ts (S (S (S d)))) (smf_data s) (str "MThd") [[EField [str "MThd"]]] (header_data (f_mthd s)) _ (lookup_tree ts (str "MThd") A ltac:(layout)) eq_refl), mthd_exec.
  rewrite sequence_cons. unfold file_written. f_equal.
  rewrite sequence_cons. change (sequence []) with (([], Done) : written). rewrite andthen_nil. cbn [walk].
  replace (eval_pipeline (smf_data s) [[EField [str "Tracks"]]]) with (Value (DList (map mtrk_data (f_tracks s)))) by reflexivity.
  cbn [after]. destruct (f_tracks s) as [|t l]; [reflexivity|]. cbn [map]. rewrite !sequence_cons.
  assert (E : forall t, andthen (walk ts (Some (exec ts (S (S (S d))))) (mtrk_data t) (NTemplate (str "MTrk") (Some [[EDot]]))) (sequence []) = track_written (own_text ts d) t).
  { intro x. rewrite (walk_template ts (exec ts (S (S (S d)))) (mtrk_data x) (str "MTrk") [[EDot]] (mtrk_data x) _ (lookup_tree ts (str "MTrk") A ltac:(layout)) eq_refl).
    rewrite mtrk_exec by exact A. apply andthen_nil. }
  rewrite E. f_equal. rewrite map_map. apply sequence_map. intros x _. rewrite sequence_cons. apply E.
Qed.

(** ** The listing of a file *)

(** What Print writes, against the text it should write; an error may come after part of it. *)
Lemma max_depth_4 : max_depth = S (S (S (S (Z.to_nat 99996)))).
Proof. unfold max_depth. lia. Qed.

Lemma print_document : forall ts s, same_layout ts -> print ts (str "document") (smf_data s) = file_written (own_text ts (Z.to_nat 99996)) s.
Proof. intros ts s A. unfold print. rewrite (lookup_tree ts (str "document") A ltac:(layout)), max_depth_4. apply document_exec, A. Qed.

Lemma print_mthd : forall ts h, same_layout ts -> print ts (str "MThd") (header_data h) = header_written h.
Proof. intros ts h A. unfold print. rewrite (lookup_tree ts (str "MThd") A ltac:(layout)). apply mthd_exec. Qed.

Lemma print_mtrk : forall ts t, same_layout ts -> print ts (str "MTrk") (mtrk_data t) = track_written (own_text ts (Z.to_nat 99997)) t.
Proof.
  intros ts t A. unfold print. rewrite (lookup_tree ts (str "MTrk") A ltac:(layout)).
  replace max_depth with (S (S (S (Z.to_nat 99997)))) by (unfold max_depth; lia). apply mtrk_exec, A.
Qed.

Lemma same_builtin : same_layout builtin.
Proof. intros n _. reflexivity. Qed.

Lemma own_builtin : forall d e, own_text builtin d e = writes (event_text e).
Proof.
  intros d e. unfold own_text, writes. rewrite <- (kind_text_any builtin d). unfold tree.
  replace (assocb (kind_template (e_body e)) builtin) with (Some (tree (kind_template (e_body e)))).
  - reflexivity.
  - unfold tree. destruct (e_body e) as [| | | | | | | |k s| | | | | | | | | | | ]; try destruct k; reflexivity.
Qed.

Lemma event_agrees : forall own e, own e = writes (event_text e) -> agrees (event_written own e) (event_line e).
Proof.
  intros own e H. unfold event_written, event_line, sequence. cbn [fold_right]. rewrite H. destruct (hex_column (e_bytes e)); try reflexivity.
  cbn [bind agrees may_fail]. unfold writes. rewrite !andthen_done. f_equal. rewrite <- !app_assoc. reflexivity.
Qed.

Lemma andthen_agrees : forall a w o, agrees w o -> agrees (andthen (writes a) w) (do b <- o; Ok (a ++ b)).
Proof. intros a [b s] o H. destruct o; cbn [bind agrees writes] in *; [injection H as -> ->; reflexivity| | | |]; cbn; cbn in H; subst; reflexivity. Qed.

Lemma then_agrees : forall w1 w2 o1 o2, agrees w1 o1 -> agrees w2 o2 -> agrees (andthen w1 w2) (do a <- o1; do b <- o2; Ok (a ++ b)).
Proof.
  intros w1 w2 o1 o2 H1 H2. destruct o1 as [a| | | |]; cbn [bind].
  - cbn [agrees] in H1. subst w1. apply (andthen_agrees a w2 o2 H2).
  - cbn [agrees] in *. destruct w1; cbn in *; subst; reflexivity.
  - cbn [agrees] in *. destruct w1; cbn in *; subst; reflexivity.
  - cbn [agrees] in *. destruct w1; cbn in *; subst; reflexivity.
  - cbn [agrees] in *. destruct w1; cbn in *; subst; reflexivity.
Qed.

Lemma lines_agree : forall own es, (forall e, own e = writes (event_text e)) -> agrees (sequence (map (event_written own) es)) (event_lines es).
Proof.
  intros own es H. induction es as [|e es IH]; [reflexivity|]. cbn [map event_lines]. rewrite sequence_cons.
  apply then_agrees; [apply event_agrees, H|exact IH].
Qed.

Lemma track_agrees : forall own t, (forall e, own e = writes (event_text e)) -> agrees (track_written own t) (mtrk_text t).
Proof.
  intros own t H. unfold track_written, mtrk_text.
  pose proof (andthen_agrees (track_line t) _ _ (lines_agree own (t_events t) H)) as A.
  destruct (event_lines (t_events t)); cbn [bind] in *; try exact A.
  unfold track_line at 2 in A. rewrite <- !app_assoc in A. exact A.
Qed.

Lemma file_agrees : forall own s, (forall e, own e = writes (event_text e)) -> agrees (file_written own s) (disassemble s).
Proof.
  intros own s H. unfold file_written, disassemble. destruct (f_mthd s) as [h|]; [|reflexivity]. cbn [header_written].
  apply andthen_agrees. induction (f_tracks s) as [|t ts IH]; [reflexivity|]. cbn [map mtrks_text]. rewrite sequence_cons.
  apply then_agrees; [apply track_agrees, H|exact IH].
Qed.

Theorem embedded_listing : exists ts, new_disassemble = Some ts /\
  (forall s, agrees (print ts (str "document") (smf_data s)) (disassemble s)) /\
  (forall h, agrees (print ts (str "MThd") (header_data h)) (match h with Some h => Ok (mthd_line h) | None => Err end)) /\
  (forall t, agrees (print ts (str "MTrk") (mtrk_data t)) (mtrk_text t)).
Proof.
  exists builtin. split; [exact new_builtin|]. repeat split.
  - intro s. rewrite print_document by exact same_builtin. apply file_agrees, own_builtin.
  - intro h. rewrite print_mthd by exact same_builtin. destruct h; reflexivity.
  - intro t. rewrite print_mtrk by exact same_builtin. apply track_agrees, own_builtin.
Qed.
