(** * What lines of assembly text say: C77, C78.  Theorems only; proofs in LineProofs.v and LineReadProofs.v. *)
From Verif Require Import Base Strings Tables Event Regex TextEvent Marshal SpecTable SpecDecimal SpecKey SpecAssemble SpecSurvive SpecRead SpecTrack SpecLine
  LineProofs LineReadProofs LineSamples.

(** C77.  [line_says] (SpecLine.v): the kind of event, delta time and values are in the line, in this order; what is not in the line is determined. *)
Theorem C77_sound : forall table s e, unmarshal_text table s = Ok e -> line_says table s e.
Proof. exact line_sound. Qed.
Print Assumptions C77_sound.

(** [line_plain] (SpecLine.v): the parts of the line are the first of their kind. *)
Theorem C77_complete : forall table s e pre x d mid y tail, line_kind s (e_body e) -> line_header e -> line_parts table s pre x d mid y tail e ->
  line_plain s pre mid y tail (e_body e) -> unmarshal_text table s = Ok e.
Proof. exact line_complete. Qed.
Print Assumptions C77_complete.

(** The hypotheses hold of "00 B7 01 40  tick:480  Delta:0480  B7 Controller  CHANNEL:7  1/Modulation Wheel, value:64". *)
Example C77_example : line_kind controller_line (e_body controller_event) /\ line_header controller_event /\
  (exists pre x d mid y tail, line_parts [] controller_line pre x d mid y tail controller_event /\ line_plain controller_line pre mid y tail (e_body controller_event)) /\
  unmarshal_text [] controller_line = Ok controller_event.
Proof.
  split; [exact controller_kind|]. split; [exact controller_header|]. split; [|vm_compute; reflexivity].
  do 6 eexists. split; [exact controller_parts|exact controller_plain].
Qed.

(** C78.  The full statement, that the note has the number of its name and that it is below 128, is refuted below: this leaves out B sharp and
    C flat, and the octave 9. *)
Theorem C78_notes_partial : forall table s e n, unmarshal_text table s = Ok e -> (exists ch v, e_body e = NoteOn ch n v \/ e_body e = NoteOff ch n v) ->
  exists p x l a k o q, s = p ++ x ++ (l :: a ++ [o]) ++ [44] ++ q /\ spelled (str "note:") x /\ 65 <= l <= 71 /\ sign a k /\ is_digit o /\
    (~ (l = 66 /\ k = 1) -> ~ (l = 67 /\ k = -1) -> n_value n = 12 * (o - 48 + 1) + letter_class l + k) /\
    (o = 57 \/ n_value n < 128).
Proof. exact named_notes. Qed.
Print Assumptions C78_notes_partial.

Example C78_notes_example : exists e, unmarshal_text [] (str "delta:480 NoteOn channel:7 note:E♭5, velocity:64") = Ok e /\
  e_body e = NoteOn 7 (Note 75 (str "E♭5") (str "E♭5")) 64.
Proof. eexists. split; vm_compute; reflexivity. Qed.

(** C78.  Full statement: a line with a key that there is not is refused.  This leaves out what happens to such lines. *)
Theorem C78_keys_partial : forall table s e acc mode name, unmarshal_text table s = Ok e -> e_body e = KeySignature acc mode name ->
  exists p l c a k w (minor : bool) x q, s = p ++ c :: a ++ w ++ x ++ q /\ 65 <= l <= 71 /\ same_letter l c /\ sign a k /\ blank w /\
    spelled (if minor then str "minor" else str "major") x /\
    (forall m z, key_range z -> key_name m z = l :: a ++ (if minor then str " minor" else str " major") ->
       acc = z /\ mode = (if m then 1 else 0) /\ name = key_name m z).
Proof. exact named_keys. Qed.
Print Assumptions C78_keys_partial.

Example C78_keys_example : exists e, unmarshal_text [] (str "delta:0 KeySignature e♭ Minor") = Ok e /\ e_body e = KeySignature (-6) 1 (str "E♭ minor") /\
  key_range (-6) /\ key_name true (-6) = str "E♭ minor".
Proof. eexists. split; [vm_compute; reflexivity|]. split; [vm_compute; reflexivity|]. split; [unfold key_range; lia|vm_compute; reflexivity]. Qed.

(** Finding: B sharp of octave 4, above B4 = 71, is read as the C below it, 60; C flat of octave 4, below C4 = 60, is read as the B above it, 71. *)
Theorem C78_octave_refuted :
  (exists e, unmarshal_text [] b_sharp_line = Ok e /\ e_body e = NoteOn 0 (Note 60 (str "B♯4") (str "B♯4")) 64) /\
  (exists e, unmarshal_text [] c_flat_line = Ok e /\ e_body e = NoteOn 0 (Note 71 (str "C♭4") (str "C♭4")) 64).
Proof. split; eexists; split; vm_compute; reflexivity. Qed.
Print Assumptions C78_octave_refuted.

(** Finding: G sharp of octave 9 is accepted and written as the byte 80 hexadecimal, which is a status byte. *)
Theorem C78_range_refuted : exists e, unmarshal_text [] high_line = Ok e /\ marshal e = Ok [144; 128; 64].
Proof. exists (Event 0 0 [] 144 0 (NoteOn 0 (Note 128 (str "G♯9") (str "G♯9")) 64)). split; vm_compute; reflexivity. Qed.
Print Assumptions C78_range_refuted.

(** Finding: there is no key of G sharp major; the line is read as C major. *)
Theorem C78_key_refuted : exists e, unmarshal_text [] g_sharp_line = Ok e /\ e_body e = KeySignature 0 0 (str "C major") /\
  forall m z, key_range z -> key_name m z <> str "G♯ major".
Proof.
  eexists. split; [vm_compute; reflexivity|]. split; [vm_compute; reflexivity|].
  exact no_g_sharp.
Qed.
Print Assumptions C78_key_refuted.
