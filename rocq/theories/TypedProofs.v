(** * TypedProofs: proofs about the methods of the single event types (C113). *)
From Verif Require Import Base Strings Tables SpecVlq Vlq VlqProofs Event SpecEvent SpecPacket SpecUnmarshal Marshal Parse Unmarshal ParseProofs DecodeProofs EncodeProofs SpecTrack
  UnmarshalProofs SpecAssemble AssembleProofs Hex Manufacturer Regex Json TextEvent Typed SpecTyped.

Lemma ok_bind : forall A B (x : outcome A) (f : A -> outcome B) y, bind x f = Ok y -> exists a, x = Ok a /\ f a = Ok y.
Proof. intros A B x f y H. destruct x; cbn [bind] in H; try discriminate. eauto. Qed.

(** ** The two readings of the front *)

Lemma front : forall bs, is_bytes bs ->
  (slice_vlq bs = Err /\ forall st x, ~ message bs st x) \/
  exists delta rem, slice_vlq bs = Ok (delta, rem) /\ is_bytes rem /\ forall st x, message bs st x <-> exists r, rem = st :: x :: r.
Proof.
  intros bs B. destruct (reads_split bs B) as [N|(d & delta & rem & -> & R)].
  - left. unfold slice_vlq. rewrite N. split; [reflexivity|]. intros st x (d & r & V & ->).
    rewrite vlq_read_spec in N by (auto; lia). discriminate N.
  - right. exists delta, rem. split; [apply delta_slice, R|]. apply Forall_app in B as [B1 B2]. split; [exact B2|]. intros st x. split.
    + intros (d' & r & V & E). exists r. pose proof (delta_slice d delta rem R) as D. rewrite E in D. unfold slice_vlq in D. rewrite vlq_read_spec in D by (auto; lia).
      apply Ok_inj, pair_equal_spec in D as [_ D]. symmetry. exact D.
    + intros [r ->]. exists d, r. split; [exact (proj1 R)|reflexivity].
Qed.

Lemma meta_unique : forall k n m, In (k, n) meta_numbers -> In (k, m) meta_numbers -> n = m.
Proof.
  intros k n m A B.
  assert (F : forallb (fun p => forallb (fun q => negb (bytes_eqb (fst p) (fst q)) || (snd p =? snd q)) meta_numbers) meta_numbers = true) by (vm_compute; reflexivity).
  rewrite forallb_forall in F. specialize (F _ A). rewrite forallb_forall in F. specialize (F _ B). cbn [fst snd] in F. rewrite bytes_eqb_refl in F. cbn [negb orb] in F. lia.
Qed.

Lemma channel_unique : forall k n m, In (k, n) channel_statuses -> In (k, m) channel_statuses -> n = m.
Proof.
  intros k n m A B.
  assert (F : forallb (fun p => forallb (fun q => negb (bytes_eqb (fst p) (fst q)) || (snd p =? snd q)) channel_statuses) channel_statuses = true) by (vm_compute; reflexivity).
  rewrite forallb_forall in F. specialize (F _ A). rewrite forallb_forall in F. specialize (F _ B). cbn [fst snd] in F. rewrite bytes_eqb_refl in F. cbn [negb orb] in F. lia.
Qed.

Lemma meta_not_channel : forall k n m, In (k, n) meta_numbers -> In (k, m) channel_statuses -> False.
Proof.
  intros k n m A B.
  assert (F : forallb (fun p => forallb (fun q => negb (bytes_eqb (fst p) (fst q))) channel_statuses) meta_numbers = true) by (vm_compute; reflexivity).
  rewrite forallb_forall in F. specialize (F _ A). rewrite forallb_forall in F. specialize (F _ B). cbn [fst snd] in F. rewrite bytes_eqb_refl in F. discriminate F.
Qed.

Definition sysex_kind (k : bytes) : bool := bytes_eqb k (str "SysExMessage") || bytes_eqb k (str "SysExContinuation") || bytes_eqb k (str "SysExEscape").

Lemma meta_not_sysex : forall k n, In (k, n) meta_numbers -> sysex_kind k = false.
Proof.
  intros k n A. assert (F : forallb (fun p => negb (sysex_kind (fst p))) meta_numbers = true) by (vm_compute; reflexivity).
  rewrite forallb_forall in F. specialize (F _ A). cbn [fst] in F. destruct (sysex_kind k); [discriminate F|reflexivity].
Qed.
Lemma channel_not_sysex : forall k n, In (k, n) channel_statuses -> sysex_kind k = false.
Proof.
  intros k n A. assert (F : forallb (fun p => negb (sysex_kind (fst p))) channel_statuses = true) by (vm_compute; reflexivity).
  rewrite forallb_forall in F. specialize (F _ A). cbn [fst] in F. destruct (sysex_kind k); [discriminate F|reflexivity].
Qed.

Lemma addressed_meta : forall k n st x, is_byte x -> In (k, n) meta_numbers -> (addressed k st x <-> st = 255 /\ Z.land x 127 = n).
Proof.
  intros k n st x B K. unfold is_byte in B. change 127 with (Z.ones 7). rewrite Z.land_ones by lia. change (2 ^ 7) with 128. split.
  - intro A. destruct A as [k m x I E|k s st x I E|x|x|x]; try (apply meta_not_sysex in K; discriminate K).
    + rewrite (meta_unique _ _ _ I K) in *. clear I. split; [reflexivity|].
      assert (0 <= n < 128) by (assert (F : forallb (fun p => (0 <=? snd p) && (snd p <? 128)) meta_numbers = true) by (vm_compute; reflexivity);
        rewrite forallb_forall in F; specialize (F _ K); cbn [snd] in F; lia). lia.
    + destruct (meta_not_channel _ _ _ K I).
  - intros [-> E]. apply ad_meta with (n := n); [exact K|lia].
Qed.

Lemma addressed_channel : forall k s st x, is_byte st -> In (k, s) channel_statuses -> (addressed k st x <-> Z.land st 240 = s).
Proof.
  intros k s st x B K. unfold is_byte in B.
  assert (L : Z.land st 240 = 16 * (st / 16)).
  { pose proof (byte_sweep (fun st => Z.land st 240 =? 16 * (st / 16)) ltac:(vm_compute; reflexivity) st B) as S. cbv beta in S. lia. }
  rewrite L. clear L.
  assert (R : 128 <= s <= 224 /\ s mod 16 = 0) by (assert (F : forallb (fun p => (128 <=? snd p) && (snd p <=? 224) && (snd p mod 16 =? 0)) channel_statuses = true) by (vm_compute; reflexivity);
        rewrite forallb_forall in F; specialize (F _ K); cbn [snd] in F; lia).
  split.
  - intro A. destruct A as [k m x I E|k m st x I E|x|x|x]; try (apply channel_not_sysex in K; discriminate K).
    + destruct (meta_not_channel _ _ _ I K).
    + rewrite (channel_unique _ _ _ I K) in *. lia.
  - intros E. apply ad_channel with (s := s); [exact K|lia].
Qed.

Lemma addressed_sysex : forall k st x, sysex_kind k = true -> (addressed k st x <-> st = if bytes_eqb k (str "SysExMessage") then 240 else 247).
Proof.
  intros k st x K. split.
  - intro A. destruct A as [k m x I E|k m st x I E|x|x|x]; try reflexivity; [apply meta_not_sysex in I; congruence|apply channel_not_sysex in I; congruence].
  - intros ->. unfold sysex_kind in K. destruct (bytes_eqb k (str "SysExMessage")) eqn:E1; [apply bytes_eqb_eq in E1 as ->; apply ad_sysex|].
    destruct (bytes_eqb k (str "SysExContinuation")) eqn:E2; [apply bytes_eqb_eq in E2 as ->; apply ad_continuation|].
    destruct (bytes_eqb k (str "SysExEscape")) eqn:E3; [apply bytes_eqb_eq in E3 as ->; apply ad_escape|discriminate K].
Qed.

(** ** The methods *)

Definition typed_ok (env : env) (k : bytes) (f : bytes -> outcome event) : Prop := forall bs, is_bytes bs ->
  (forall st x, message bs st x -> addressed k st x -> k <> str "SysExEscape" -> f bs = event_unmarshal env bs) /\
  ((forall st x, message bs st x -> ~ addressed k st x) -> f bs = Err) /\
  (forall e, f bs = Ok e -> body_tag (e_body e) = k).

Lemma meta_ok : forall env k n f (g : Z -> bytes -> bytes -> outcome event), In (k, n) meta_numbers ->
  f = meta_method n g ->
  (forall delta x r bs, Z.land x 127 = n -> binary_meta env delta x r bs = g delta r bs) ->
  (forall delta r bs e, g delta r bs = Ok e -> body_tag (e_body e) = k) -> typed_ok env k f.
Proof.
  intros env k n f g K F M T bs B. rewrite F. unfold meta_method, event_unmarshal. destruct (front bs B) as [[-> N]|(delta & rem & -> & R & E)]; cbn [bind].
  - split; [intros st x C; destruct (N _ _ C)|]. split; [reflexivity|]. intros e C. discriminate C.
  - destruct rem as [|st [|x r]];
      try (split; [intros st' x' C; apply E in C as [r' C]; discriminate C|]; split; [reflexivity|]; intros e C; discriminate C).
    pose proof (Forall_inv (Forall_inv_tail R)) as X. pose proof (addressed_meta k n st x X K) as A.
    split; [|split].
    + intros st' x' C D _. apply E in C as [r' C]. injection C as <- <- <-. apply A in D as [-> D].
      change (negb (255 =? 255)) with false. change (255 =? 255) with true. cbn iota. rewrite D, Z.eqb_refl. cbn [negb]. symmetry. apply M, D.
    + intro N. assert (~ addressed k st x) by (apply N, E; eauto). destruct (Z.eqb_spec st 255); [|reflexivity]. cbn [negb]. destruct (Z.eqb_spec (Z.land x 127) n); [tauto|reflexivity].
    + intros e C. destruct (negb (st =? 255)); [discriminate C|]. destruct (negb _); [discriminate C|]. exact (T _ _ _ _ C).
Qed.

Lemma channel_ok : forall env k s size f (g : Z -> Z -> bytes -> bytes -> outcome event), In (k, s) channel_statuses ->
  f = midi_method s (S size) g ->
  (forall delta st data bs, Z.land st 240 = s -> length data = size -> binary_chan env delta st data bs = g delta (Z.land st 15) data bs) ->
  (forall delta st data bs, Z.land st 240 = s -> length data <> size -> binary_chan env delta st data bs = Err) ->
  (forall delta ch data bs e, g delta ch data bs = Ok e -> body_tag (e_body e) = k) -> (0 < size)%nat -> typed_ok env k f.
Proof.
  intros env k s size f g K F M Q T P bs B. rewrite F. unfold midi_method, event_unmarshal. destruct (front bs B) as [[-> N]|(delta & rem & -> & R & E)]; cbn [bind].
  - split; [intros st x C; destruct (N _ _ C)|]. split; [reflexivity|]. intros e C. discriminate C.
  - destruct rem as [|st [|x r]].
    1,2: destruct size as [|size]; [lia|]; cbn [length Nat.eqb negb];
      (split; [intros st' x' C; apply E in C as [r' C]; discriminate C|]; split; [reflexivity|]; intros e C; discriminate C).
    pose proof (Forall_inv R) as X. pose proof (addressed_channel k s st x X K) as A. cbn [length]. change (Nat.eqb (S (S (length r))) (S size)) with (Nat.eqb (length (x :: r)) size).
    split; [|split].
    + intros st' x' C D _. apply E in C as [r' C]. injection C as <- <- <-. apply A in D.
      assert (V : 128 <= s <= 224) by (assert (H : forallb (fun p => (128 <=? snd p) && (snd p <=? 224)) channel_statuses = true) by (vm_compute; reflexivity);
        rewrite forallb_forall in H; specialize (H _ K); cbn [snd] in H; lia).
      assert (st <> 255) by (intros ->; change (Z.land 255 240) with 240 in D; lia).
      replace (st =? 255) with false by lia. rewrite D. replace ((128 <=? s) && (s <=? 224)) with true by lia. rewrite Z.eqb_refl. cbn [negb].
      destruct (Nat.eqb_spec (length (x :: r)) size) as [L|L]; cbn [negb]; symmetry; [apply M|apply Q]; assumption.
    + intro N. assert (~ addressed k st x) by (apply N, E; eauto). destruct (Nat.eqb _ _); cbn [negb]; [|reflexivity]. destruct (Z.eqb_spec (Z.land st 240) s); [tauto|reflexivity].
    + intros e C. destruct (negb _); [discriminate C|]. destruct (negb _); [discriminate C|]. exact (T _ _ _ _ _ C).
Qed.

Lemma sysex_ok : forall env k s f (g : Z -> bytes -> bytes -> outcome event), sysex_kind k = true -> s = (if bytes_eqb k (str "SysExMessage") then 240 else 247) ->
  f = sysex_method s g ->
  (k <> str "SysExEscape" -> forall delta data bs, g delta data bs = if s =? 240 then binary_sysex env delta data bs else binary_continuation delta data bs) ->
  (forall delta data bs e, g delta data bs = Ok e -> body_tag (e_body e) = k) -> typed_ok env k f.
Proof.
  intros env k s f g K S F M T bs B. rewrite F. unfold sysex_method, event_unmarshal. destruct (front bs B) as [[-> N]|(delta & rem & -> & R & E)]; cbn [bind].
  - split; [intros st x C; destruct (N _ _ C)|]. split; [reflexivity|]. intros e C. discriminate C.
  - destruct rem as [|st [|x r]];
      try (split; [intros st' x' C; apply E in C as [r' C]; discriminate C|]; split; [reflexivity|]; intros e C; discriminate C).
    pose proof (addressed_sysex k st x K) as A. rewrite <- S in A.
    split; [|split].
    + intros st' x' C D H. apply E in C as [r' C]. injection C as <- <- <-. apply A in D as ->. rewrite Z.eqb_refl. cbn [negb]. specialize (M H).
      destruct (slice_vlf (x :: r)) as [data| | | |]; cbn [bind]; [rewrite M|..]; destruct (bytes_eqb k _); subst s; reflexivity.
    + intro N. assert (~ addressed k st x) by (apply N, E; eauto). destruct (Z.eqb_spec st s); [tauto|reflexivity].
    + intros e C. destruct (negb _); [discriminate C|]. apply ok_bind in C as (data & _ & C). exact (T _ _ _ _ C).
Qed.

(** The kind of what a decoder returns: all paths that end in [Ok]. *)
Ltac paths H :=
  repeat match type of H with
  | bind _ _ = Ok _ => let a := fresh "a" in let E := fresh "E" in apply ok_bind in H as (a & E & H); clear E; cbv beta iota in H
  | Err = Ok _ => discriminate H
  | Panic = Ok _ => discriminate H
  | Loop = Ok _ => discriminate H
  | Eof = Ok _ => discriminate H
  | Ok _ = Ok _ => apply Ok_inj in H; subst; reflexivity
  | (if ?c then _ else _) = Ok _ => destruct c
  | (let '(_, _) := ?p in _) = Ok _ => destruct p
  | match ?x with _ => _ end = Ok _ => destruct x
  end.
Ltac makes H := unfold binary_smpte, binary_key, binary_seqspec, binary_sysex, binary_continuation,
  make_note_off, make_note_on, make_polyphonic_pressure, make_controller, make_program_change, make_channel_pressure, make_pitch_bend, make_channel_prefix, make_port,
  make_smpte_offset, make_time_signature, make_key_signature in H.

Ltac kind := intros; match goal with H : _ = Ok _ |- _ => makes H; cbv beta zeta in H; paths H end.
Ltac listed := cbn [In meta_numbers channel_statuses]; tauto.
Ltac meta num := eapply meta_ok with (n := num); [listed|reflexivity|intros ? ? ? ? LT; unfold binary_meta; rewrite LT; reflexivity|kind].
Ltac chan stat len := eapply channel_ok with (s := stat) (size := len);
  [listed|reflexivity
  |intros delta st data bs LT LN; unfold binary_chan; rewrite LT; destruct data as [|? [|? [|? ?]]]; try discriminate LN; reflexivity
  |intros delta st data bs LT LN; unfold binary_chan; rewrite LT; destruct data as [|? [|? [|? ?]]]; try reflexivity; destruct (LN eq_refl)
  |kind|repeat constructor].

Lemma method_ok : forall env k f, In (k, f) (binary_methods env) -> typed_ok env k f.
Proof.
  intros env k f I. cbn [binary_methods In] in I.
  repeat destruct I as [I|I]; [..|destruct I]; apply pair_equal_spec in I as [<- <-].
  - meta 0. - meta 1. - meta 2. - meta 3. - meta 4. - meta 5. - meta 6. - meta 7. - meta 8. - meta 9.
  - meta 32. - meta 33. - meta 81. - meta 88. - meta 89. - meta 84. - meta 47. - meta 127.
  - chan 128 2%nat. - chan 144 2%nat. - chan 160 1%nat. - chan 176 2%nat. - chan 192 1%nat. - chan 208 1%nat. - chan 224 2%nat.
  - eapply sysex_ok with (s := 240); [reflexivity|reflexivity|reflexivity|intros; reflexivity|kind].
  - eapply sysex_ok with (s := 247); [reflexivity|reflexivity|reflexivity|intros; reflexivity|kind].
  - eapply sysex_ok with (s := 247) (g := fun delta data bs => Ok (make_escape 0 delta data bs)); [reflexivity|reflexivity|reflexivity|intro C; destruct (C eq_refl)|kind].
Qed.

Lemma method_found : forall env k f, In (k, f) (binary_methods env) -> find (fun c => bytes_eqb k (fst c)) (binary_methods env) = Some (k, f).
Proof. intros env k f I. cbn [binary_methods In] in I. repeat destruct I as [I|I]; [..|destruct I]; apply pair_equal_spec in I as [<- <-]; reflexivity. Qed.

Lemma method_unique : forall env k f g, In (k, f) (binary_methods env) -> In (k, g) (binary_methods env) -> f = g.
Proof. intros env k f g F G. apply method_found in F, G. rewrite F in G. injection G as ->. reflexivity. Qed.

Lemma kind_listed : forall env k, existsb (bytes_eqb k) (map fst (binary_methods env)) = true -> exists f, In (k, f) (binary_methods env).
Proof.
  intros env k E. apply existsb_exists in E as (k' & I & E). apply bytes_eqb_eq in E as <-. apply in_map_iff in I as ([k' f] & E & I). cbn [fst] in E. subst k'. eauto.
Qed.

Lemma tables_listed : forall env k n, In (k, n) (meta_numbers ++ channel_statuses) -> (exists f, In (k, f) (binary_methods env)) /\ k <> str "SysExEscape".
Proof.
  intros env k n I. split.
  - apply kind_listed. assert (F : forallb (fun p => existsb (bytes_eqb (fst p)) (map fst (binary_methods env))) (meta_numbers ++ channel_statuses) = true) by reflexivity.
    rewrite forallb_forall in F. exact (F _ I).
  - intros ->. apply in_app_or in I as [I|I]; [apply meta_not_sysex in I|apply channel_not_sysex in I]; discriminate I.
Qed.

Lemma meta_known : forall env delta x r bs e, binary_meta env delta x r bs = Ok e -> exists k, In (k, Z.land x 127) meta_numbers.
Proof.
  intros env delta x r bs e H. unfold binary_meta in H. set (t := Z.land x 127) in *. clearbody t.
  destruct (existsb (fun p => snd p =? t) meta_numbers) eqn:E.
  - apply existsb_exists in E as ([k n] & I & E). cbn [snd] in E. assert (n = t) by lia. subst n. eauto.
  - exfalso. cbn [existsb meta_numbers snd] in E. repeat (apply orb_false_elim in E; destruct E as [? E]).
    assert (N : text_kind t = None) by (unfold text_kind; repeat match goal with |- (if ?c then _ else _) = _ => replace c with false by lia end; reflexivity).
    rewrite N in H. repeat match type of H with (if ?c then _ else _) = _ => replace c with false in H by lia end. discriminate H.
Qed.

Lemma dispatched : forall env bs e, is_bytes bs -> event_unmarshal env bs = Ok e ->
  exists f, In (body_tag (e_body e), f) (binary_methods env) /\ body_tag (e_body e) <> str "SysExEscape" /\ f bs = Ok e.
Proof.
  intros env bs e B H.
  assert (X : exists k f st x, In (k, f) (binary_methods env) /\ k <> str "SysExEscape" /\ message bs st x /\ addressed k st x).
  { pose proof H as U. unfold event_unmarshal in U. destruct (front bs B) as [[E _]|(delta & rem & E & R & M)]; rewrite E in U; cbn [bind] in U; [discriminate U|].
    destruct rem as [|st [|x r]]; try discriminate U. assert (C : message bs st x) by (apply M; eauto). clear M E.
    pose proof (Forall_inv R) as B1. pose proof (Forall_inv (Forall_inv_tail R)) as B2.
    destruct (Z.eqb_spec st 255) as [->|N].
    - apply meta_known in U as [k I]. destruct (tables_listed env k (Z.land x 127)) as [[f F] L]; [apply in_or_app; auto|].
      exists k, f, 255, x. repeat split; try assumption. apply (addressed_meta k (Z.land x 127)); auto.
    - destruct ((128 <=? Z.land st 240) && (Z.land st 240 <=? 224)) eqn:V.
      + assert (I : exists k, In (k, Z.land st 240) channel_statuses).
        { destruct (existsb (fun p => snd p =? Z.land st 240) channel_statuses) eqn:E.
          - apply existsb_exists in E as ([k n] & I & E). cbn [snd] in E. replace (Z.land st 240) with n by lia. eauto.
          - exfalso. pose proof (byte_sweep (fun st => negb ((128 <=? Z.land st 240) && (Z.land st 240 <=? 224)) || existsb (fun p => snd p =? Z.land st 240) channel_statuses)
              ltac:(vm_compute; reflexivity) st B1) as W. cbv beta in W. rewrite V, E in W. discriminate W. }
        destruct I as [k I]. destruct (tables_listed env k (Z.land st 240)) as [[f F] L]; [apply in_or_app; auto|].
        exists k, f, st, x. repeat split; try assumption. apply (addressed_channel k (Z.land st 240)); auto.
      + destruct (Z.eqb_spec st 240) as [->|N0].
        * exists (str "SysExMessage"), (message_binary env), 240, x. repeat split; [cbn [binary_methods In]; tauto|discriminate|exact C|apply ad_sysex].
        * destruct (Z.eqb_spec st 247) as [->|N7]; [|discriminate U].
          exists (str "SysExContinuation"), continuation_binary, 247, x. repeat split; [cbn [binary_methods In]; tauto|discriminate|exact C|apply ad_continuation]. }
  destruct X as (k & f & st & x & I & L & C & A). destruct (method_ok env k f I bs B) as (P & _ & T).
  specialize (P st x C A L). rewrite H in P. specialize (T e P). subst k. eauto.
Qed.

Lemma existsb_false_in : forall A (f : A -> bool) l, existsb f l = false -> forall x, In x l -> f x = false.
Proof. intros A f l E x I. destruct (f x) eqn:F; [|reflexivity]. rewrite <- E. symmetry. apply existsb_exists. eauto. Qed.

Lemma addressed_dec : forall k st x, addressed k st x \/ ~ addressed k st x.
Proof.
  intros k st x.
  destruct (existsb (fun p => bytes_eqb k (fst p) && (st =? 255) && ((x =? snd p) || (x =? snd p + 128))) meta_numbers) eqn:E1.
  { left. apply existsb_exists in E1 as ([k' n] & I & E). cbn [fst snd] in E. apply andb_prop in E as [E X]. apply andb_prop in E as [E Y]. apply bytes_eqb_eq in E as <-.
    replace st with 255 by lia. apply ad_meta with (n := n); [exact I|lia]. }
  destruct (existsb (fun p => bytes_eqb k (fst p) && ((snd p <=? st) && (st <? snd p + 16))) channel_statuses) eqn:E2.
  { left. apply existsb_exists in E2 as ([k' n] & I & E). cbn [fst snd] in E. apply andb_prop in E as [E X]. apply bytes_eqb_eq in E as <-. apply ad_channel with (s := n); [exact I|lia]. }
  destruct (sysex_kind k) eqn:E3; [rewrite (addressed_sysex k st x E3); lia|].
  right. intro A. destruct A as [k n x I E|k n st x I E|x|x|x]; try discriminate E3.
  - apply (existsb_false_in _ _ _ E1) in I. cbn [fst snd] in I. rewrite bytes_eqb_refl in I. change (255 =? 255) with true in I. cbn [andb] in I. lia.
  - apply (existsb_false_in _ _ _ E2) in I. cbn [fst snd] in I. rewrite bytes_eqb_refl in I. cbn [andb] in I. lia.
Qed.

Theorem typed_binary : forall env k f bs, In (k, f) (binary_methods env) -> is_bytes bs ->
  (forall st x, message bs st x -> addressed k st x -> k <> str "SysExEscape" -> f bs = event_unmarshal env bs) /\
  ((forall st x, message bs st x -> ~ addressed k st x) -> f bs = Err) /\
  (forall e, f bs = Ok e -> body_tag (e_body e) = k) /\
  (k <> str "SysExEscape" -> forall e, event_unmarshal env bs = Ok e /\ body_tag (e_body e) = k <-> f bs = Ok e).
Proof.
  intros env k f bs I B. destruct (method_ok env k f I bs B) as (P & N & T). repeat apply conj; auto. intros L e. split.
  - intros [H E]. destruct (dispatched env bs e B H) as (g & G & _ & R). rewrite E in G. rewrite (method_unique env k f g I G). exact R.
  - intro H. split; [|exact (T e H)]. rewrite <- H. symmetry.
    destruct (front bs B) as [[E M]|(delta & rem & E & R & M)]; [rewrite N in H; [discriminate H|intros st x C; destruct (M _ _ C)]|].
    destruct rem as [|st [|x r]]; try (rewrite N in H; [discriminate H|intros st' x' C; apply M in C as [r' C]; discriminate C]).
    destruct (addressed_dec k st x) as [A|A].
    + apply (P st x); [apply M; eauto|exact A|exact L].
    + rewrite N in H; [discriminate H|]. intros st' x' C. apply M in C as [r' C]. injection C as <- <- <-. exact A.
Qed.

(** ** Escapes *)

Theorem typed_escape : forall env f bs delta payload, In (str "SysExEscape", f) (binary_methods env) -> event_bytes bs delta (CEscape payload) ->
  exists e, f bs = Ok e /\ ev_view e = (delta, CEscape payload).
Proof.
  intros env f bs delta payload I H. rewrite (method_unique env _ f escape_binary I) by (cbn [binary_methods In]; tauto).
  remember (CEscape payload) as c eqn:Ec. destruct H as [d delta st data c D C|d delta ty l data c D C L|d delta l p|d delta l p|d delta l p|d delta l p|d delta l p D L]; try discriminate Ec.
  - destruct C; discriminate Ec.
  - destruct C; discriminate Ec.
  - injection Ec as ->. exists (make_escape 0 delta payload (d ++ 247 :: l ++ payload)). split; [|reflexivity]. unfold escape_binary, sysex_method.
    rewrite (delta_slice d delta) by (apply delta_reads, D). cbn [bind]. apply length_reads in L. destruct (reads_cons _ _ L) as (y & l' & E).
    pose proof (length_slice l payload L) as V. subst l. cbn [app] in V |- *. rewrite V. reflexivity.
Qed.

Theorem typed_written : forall env f e data, In (str "SysExEscape", f) (binary_methods env) -> legal_event e -> e_body e = SysExEscape data ->
  exists w e', marshal e = Ok w /\ f (vlq_encode (e_delta e) ++ w) = Ok e' /\ ev_view e' = (e_delta e, CEscape data).
Proof.
  intros env f e data I L E. destruct (written_in_grammar e L) as (w & W & _ & G). rewrite E in G. cbn [view] in G.
  destruct (typed_escape env f _ _ _ I G) as (e' & F & V). eauto.
Qed.

(** ** JSON *)

Lemma json_found : forall env k f, In (k, f) (json_cases env) -> find (fun c => bytes_eqb k (fst c)) (json_cases env) = Some (k, f).
Proof. intros env k f I. cbn [json_cases In] in I. repeat destruct I as [I|I]; [..|destruct I]; apply pair_equal_spec in I as [<- <-]; reflexivity. Qed.

Lemma tagged_ok : forall A tag o (rest : Z -> outcome A) make e, tagged tag o rest make = Ok e -> text_of (str "tag") o = Ok tag /\ exists x, make x = Ok e.
Proof.
  intros A tag o rest make e H. unfold tagged in H. apply ok_bind in H as (t & T & H). apply ok_bind in H as (d & D & H). apply ok_bind in H as (x & X & H).
  destruct (bytes_eqb t tag) eqn:E; [|discriminate H]. apply bytes_eqb_eq in E as ->. eauto.
Qed.

Lemma json_method : forall env k f o e, In (k, f) (json_cases env) -> f o = Ok e -> text_of (str "tag") o = Ok k /\ body_tag (e_body e) = k.
Proof.
  intros env k f o e I H. cbn [json_cases In] in I.
  repeat destruct I as [I|I]; [..|destruct I]; apply pair_equal_spec in I as [<- <-]; apply tagged_ok in H as (T & x & H); (split; [exact T|]);
    repeat match goal with p : (_ * _)%type |- _ => destruct p end; makes H; cbv beta zeta in H; paths H.
Qed.

Theorem typed_json : forall env k f o e, In (k, f) (json_cases env) ->
  (f o = Ok e <-> unmarshal_json env (JObj [(str "event", JObj o)]) = Ok e /\ body_tag (e_body e) = k).
Proof.
  intros env k f o e I.
  assert (U : unmarshal_json env (JObj [(str "event", JObj o)]) =
    do tag <- text_of (str "tag") o; match find (fun c => bytes_eqb tag (fst c)) (json_cases env) with Some (_, f) => f o | None => Err end) by reflexivity.
  rewrite U. split.
  - intro H. destruct (json_method env k f o e I H) as [T B]. split; [|exact B]. rewrite T. cbn [bind]. rewrite (json_found env k f I). exact H.
  - intros [H B]. apply ok_bind in H as (t & T & H). destruct (find _ _) as [[k' g]|] eqn:F; [|discriminate H]. pose proof (find_some _ _ F) as [G E]. cbn [fst] in E.
    apply bytes_eqb_eq in E as ->. destruct (json_method env k' g o e G H) as [_ B']. rewrite B in B'. subst k'. apply json_found in I. rewrite I in F. injection F as <-. exact H.
Qed.

(** ** Text *)

Lemma text_method : forall table k f s e, In (k, f) (text_cases table) -> f s = Ok e -> body_tag (e_body e) = k.
Proof.
  intros table k f s e I H. cbn [text_cases In] in I.
  repeat destruct I as [I|I]; [..|destruct I]; apply pair_equal_spec in I as [<- <-].
  all: unfold text_sequence_number, text_text, text_channel_prefix, text_port, text_tempo, text_time_signature, text_key_signature, text_smpte_offset, text_end_of_track, text_sequencer_specific,
    text_note_off, text_note_on, text_polyphonic_pressure, text_controller, text_program_change, text_channel_pressure, text_pitch_bend, text_sysex, text_continuation, text_escape in H;
    makes H; cbv beta zeta in H; paths H.
Qed.

Lemma first_case_in : forall cases s e, first_case cases s = Ok e -> exists k f, In (k, f) cases /\ contains s k = true /\ f s = Ok e.
Proof.
  induction cases as [|[k f] cases IH]; intros s e H; cbn [first_case] in H; [discriminate H|]. destruct (contains s k) eqn:C.
  - exists k, f. cbn [In]. auto.
  - destruct (IH s e H) as (k' & f' & I & D). exists k', f'. cbn [In]. auto.
Qed.

Theorem typed_text : forall table s e,
  (forall k f, In (k, f) (text_cases table) -> f s = Ok e -> body_tag (e_body e) = k) /\
  (unmarshal_text table s = Ok e -> occurs (body_tag (e_body e)) s /\ exists f, In (body_tag (e_body e), f) (text_cases table) /\ f s = Ok e).
Proof.
  intros table s e. split; [intros k f I H; exact (text_method table k f s e I H)|]. intro H. apply first_case_in in H as (k & f & I & C & H).
  rewrite (text_method table k f s e I H). apply contains_spec in C. eauto.
Qed.

Lemma name_listed : forall A (l : list (bytes * A)) k, existsb (bytes_eqb k) (map fst l) = true -> exists f, In (k, f) l.
Proof.
  intros A l k E. apply existsb_exists in E as (k' & I & E). apply bytes_eqb_eq in E as <-. apply in_map_iff in I as ([k' f] & E & I). cbn [fst] in E. subst k'. eauto.
Qed.

Theorem typed_kinds : forall env table b, (exists f, In (body_tag b, f) (binary_methods env)) /\ (exists f, In (body_tag b, f) (json_cases env)) /\ (exists f, In (body_tag b, f) (text_cases table)).
Proof. intros env table b. split; [|split]; apply name_listed; destruct b; try destruct k; reflexivity. Qed.
