(** * Texts of package lib: C107, C108.  Theorems only; proofs in LibTextProofs.v. *)
From Coq Require Import Permutation.
From Verif Require Import Base Strings Event SpecAssemble SpecDecimal SpecTable SpecLine LibText SpecLibText AssembleProofs LibTextProofs.

(** C107, full statement: the tag of a text does not depend on the order in which a map is iterated.  Here for texts with the name of one tag; false for others, see below. *)
Theorem C107_tag_partial : forall order text k s, Permutation tag_names order -> tag_string k = Ok s -> 0 < k -> occurs s text ->
  (forall k' s', tag_string k' = Ok s' -> 0 < k' -> occurs s' text -> k' = k) -> tag_unmarshal order text = Ok k.
Proof. exact tag_text. Qed.
Print Assumptions C107_tag_partial.

(** C107: a tag is found only where its name is, and none only where there is no name. *)
Theorem C107_tag_outcome : forall order text, Permutation tag_names order ->
  (forall k, tag_unmarshal order text = Ok k -> exists s, tag_string k = Ok s /\ occurs s text) /\
  (tag_unmarshal order text = Err <-> forall k s, tag_string k = Ok s -> 0 < k -> ~ occurs s text).
Proof. exact tag_outcome. Qed.
Print Assumptions C107_tag_outcome.

(** C107: every tag can be read back from its name, and every event has such a name. *)
Theorem C107_tag_round_trip : forall order k, Permutation tag_names order -> 1 <= k <= 28 -> exists s, tag_string k = Ok s /\ tag_unmarshal order s = Ok k.
Proof. exact tag_round_trip. Qed.
Print Assumptions C107_tag_round_trip.

Theorem C107_events : forall b, exists k, 0 < k /\ tag_string k = Ok (kind_name b).
Proof. exact event_tags. Qed.
Print Assumptions C107_events.

(** C107: the channel of a text is the number behind the first "channel:" with digits, if it is one of a channel. *)
Theorem C107_channel : forall text,
  (forall c, channel_unmarshal text = Ok c <-> exists s, first_channel text s /\ c = digits_value s /\ c <= 15) /\
  (channel_unmarshal text = Err \/ exists c, channel_unmarshal text = Ok c).
Proof. exact channel_text. Qed.
Print Assumptions C107_channel.

(** C107: the conventions for middle C *)
Theorem C107_middle_c : (forall c, c = 0 \/ c = 1 -> exists s, middle_c_string c = Ok s /\ middle_c_set s = Ok c) /\
  (forall s c, middle_c_set s = Ok c <-> (c = 0 /\ (s = str "C3" \/ s = str "c3")) \/ (c = 1 /\ (s = str "C4" \/ s = str "c4"))).
Proof. exact middle_c. Qed.
Print Assumptions C107_middle_c.

Example C107_example :
  (Permutation tag_names (rev tag_names) /\ tag_string 22 = Ok (str "NoteOn") /\ occurs (str "NoteOn") (str "delta:480 NoteOn channel:3") /\
   forall k' s', tag_string k' = Ok s' -> 0 < k' -> occurs s' (str "delta:480 NoteOn channel:3") -> k' = 22) /\
  tag_unmarshal (rev tag_names) (str "delta:480 NoteOn channel:3") = Ok 22 /\
  channel_unmarshal (str "channel: Channel:4 channel:007channel:8") = Ok 7 /\ channel_unmarshal (str "channel:16 channel:3") = Err /\ middle_c_set (str "C5") = Err.
Proof.
  split; [|vm_compute; repeat split; reflexivity]. split; [apply Permutation_rev|]. split; [reflexivity|]. split; [exists (str "delta:480 "), (str " channel:3"); reflexivity|].
  intros k' s' E K O. assert (I : In (k', s') tag_names) by (apply tag_table; auto). apply contains_spec in O.
  assert (G : forallb (fun x => implb (contains (str "delta:480 NoteOn channel:3") (snd x)) (fst x =? 22)) tag_names = true) by (vm_compute; reflexivity).
  rewrite forallb_forall in G. specialize (G _ I). cbn [fst snd] in G. rewrite O in G. apply Z.eqb_eq, G.
Qed.

(** The text of a line with a track name that is the name of another tag: either tag, depending on the order. *)
Theorem C107_tag_refuted : exists text o1 o2, text = str "TrackName Tempo" /\ Permutation tag_names o1 /\ Permutation tag_names o2 /\
  tag_unmarshal o1 text = Ok 4 /\ tag_unmarshal o2 text = Ok 13.
Proof.
  exists (str "TrackName Tempo"), tag_names, (rev tag_names). split; [reflexivity|]. split; [apply Permutation_refl|]. split; [apply Permutation_rev|]. split; vm_compute; reflexivity.
Qed.
Print Assumptions C107_tag_refuted.

(** C108: a tempo, in microseconds for a quarter note, is printed as the number of quarter notes in a minute, rounded to the nearest, although it is divided in floating point. *)
Theorem C108_tempo : forall t, 0 < t -> exists n, decimal n (tempo_string t) /\ rounded 60000000 t n.
Proof. exact tempo_text. Qed.
Print Assumptions C108_tempo.

(** C108: there is only one such number. *)
Theorem C108_tempo_unique : forall a t n n', 0 < t -> rounded a t n -> rounded a t n' -> n = n'.
Proof. intros a t n n' T H H'. unfold rounded in *. nia. Qed.
Print Assumptions C108_tempo_unique.

(** C108: a time signature is printed as its two numbers with a slash. *)
Theorem C108_time_signature : forall n d, exists a b, decimal n a /\ decimal d b /\ time_signature_string n d = a ++ [47] ++ b.
Proof. exact time_signature_text. Qed.
Print Assumptions C108_time_signature.

(** 120 quarter notes in a minute, 133 (from 133.33), 3 from exactly 2.5, the slowest tempo. *)
Example C108_example : tempo_string 500000 = str "120" /\ tempo_string 450000 = str "133" /\ rounded 60000000 160000 375 /\ tempo_string 24000000 = str "3" /\ 2 * 60000000 = 5 * 24000000 /\
  tempo_string 16777215 = str "4" /\ time_signature_string 6 8 = str "6/8".
Proof. vm_compute. repeat split; discriminate. Qed.
