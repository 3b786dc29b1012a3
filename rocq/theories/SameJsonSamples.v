(** * SameJsonSamples: two documents that say the same. *)
From Verif Require Import Base Strings Tables Event SpecText SpecLine Json SpecJsonEvent JsonEventProofs SpecSameJson SpecJsonText JsonText JsonReadProofs SameJsonProofs.

Definition values (name : bytes) (o : list (bytes * json)) : list json := map snd (filter (fun f => names name (fst f)) o).

Lemma under_values : forall name o, under name o (values name o).
Proof.
  intros name o. unfold values. induction o as [|[k v] o IH]; [constructor|]. cbn [filter fst]. destruct (names name k) eqn:E.
  - cbn [map snd]. apply un_here; [apply names_spelled, E|exact IH].
  - apply un_other; [intro H; apply names_spelled in H; congruence|exact IH].
Qed.

(** A check of the relation *)
Fixpoint alike (n : nat) (v v' : json) : bool :=
  match n with
  | O => false
  | S n =>
      let fix both l l' := match l, l' with [], [] => true | x :: r, y :: r' => alike n x y && both r r' | _, _ => false end in
      match v, v' with
      | JNull, JNull | JReal, JReal => true
      | JBool a, JBool b => Bool.eqb a b
      | JNum a, JNum b => a =? b
      | JStr a, JStr b => bytes_eqb a b
      | JArr l, JArr l' => both l l'
      | JObj o, JObj o' => forallb (fun name => both (values name o) (values name o')) meaningful
      | _, _ => false
      end
  end.

Lemma alike_same : forall n v v', alike n v v' = true -> same_document v v'.
Proof.
  induction n as [|n IH]; intros v v' H; [discriminate H|]. cbn [alike] in H.
  set (both := fix both l l' := match l, l' with [], [] => true | x :: r, y :: r' => alike n x y && both r r' | _, _ => false end) in H.
  assert (B : forall l l', both l l' = true -> Forall2 same_document l l').
  { induction l as [|x l IHl]; intros [|y l'] E; try discriminate E; [constructor|]. cbn in E. apply andb_prop in E as [E1 E2]. constructor; [apply IH, E1|apply IHl, E2]. }
  destruct v, v'; try discriminate H; try apply sd_value.
  - apply Bool.eqb_prop in H. subst. apply sd_value.
  - apply Z.eqb_eq in H. subst. apply sd_value.
  - apply bytes_eqb_eq in H. subst. apply sd_value.
  - apply sd_array, B, H.
  - apply sd_object. intros name l l' I U U'. rewrite (under_once _ _ _ _ U (under_values _ _)), (under_once _ _ _ _ U' (under_values _ _)).
    rewrite forallb_forall in H. apply B, H, I.
Qed.

(** The second has other members, another order, other spellings, an escape and white space. *)
Definition plain_text : bytes := str "{""header"":{""tag"":""MThd"",""format"":0,""PPQN"":480},""tracks"":[{""tag"":""MTrk"",""events"":[{""event"":{""tag"":""NoteOn"",""delta"":0,""channel"":1,""note"":{""value"":60},""velocity"":64}},{""event"":{""tag"":""EndOfTrack"",""delta"":0}}]}]}".
Definition fancy_text : bytes := str "{ ""comment"": ""two notes"", ""TRACKS"": [ { ""Events"": [ { ""event"": { ""note"": { ""Value"": 60, ""colour"": [ ] }, ""velocity"": 64, ""delta"": 0, ""Channel"": 1, ""tag"": ""NoteOn"" } }, { ""event"": { ""delta"": 0, ""tag"": ""End\u004ffTrack"" } } ], ""tag"": ""MTrk"" } ], ""header"": { ""ppqn"": 480, ""format"": 0, ""tag"": ""MThd"" } }".

Definition tree (s : bytes) : json := match read_text s with Ok (v, _) => v | _ => JNull end.
Lemma trees_same : same_document (tree plain_text) (tree fancy_text).
Proof. apply (alike_same 12). vm_compute. reflexivity. Qed.

(** Checks of the conditions *)
Lemma once_check : forall o, forallb (fun name => (length (values name o) <=? 1)%nat) meaningful = true ->
  forall name l, In name meaningful -> under name o l -> (length l <= 1)%nat.
Proof.
  intros o H name l I U. rewrite (under_once _ _ _ _ U (under_values _ _)). rewrite forallb_forall in H. specialize (H name I). apply Nat.leb_le in H. exact H.
Qed.
Lemma other_check : forall k, forallb (fun name => negb (names name k)) meaningful = true -> forall name, In name meaningful -> ~ spelled name k.
Proof.
  intros k H name I X. apply names_spelled in X. rewrite forallb_forall in H. specialize (H name I). rewrite X in H. discriminate H.
Qed.
Lemma spelling_check : forall k k', forallb (fun name => Bool.eqb (names name k) (names name k')) meaningful = true ->
  forall name, In name meaningful -> (spelled name k <-> spelled name k').
Proof.
  intros k k' H name I. rewrite <- !names_spelled. rewrite forallb_forall in H. specialize (H name I). apply Bool.eqb_prop in H. rewrite H. tauto.
Qed.
