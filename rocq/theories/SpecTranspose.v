(** * SpecTranspose: what transposition by [n] semitones does, field by field. *)
From Verif Require Import Base Tables Event SpecEvent Track File SpecKey.

(** The nearest MIDI note number. *)
Definition limited (v : Z) : Z := Z.max 0 (Z.min 127 v).

(** Steps that the command can be given without the 64-bit sum overflowing. *)
Definition reasonable (n : Z) : Prop := -9223372036854775808 <= n < 9223372036854775808 - 255.

(** The transposed event: notes move, keys change, everything else is the same. *)
Inductive moved (n : Z) : event -> event -> Prop :=
| mv_on : forall tick delta bs st ty ch nt v bs' nt', n_value nt' = limited (n_value nt + n) ->
    moved n (Event tick delta bs st ty (NoteOn ch nt v)) (Event tick delta bs' (Z.lor 144 ch) 0 (NoteOn ch nt' v))
| mv_off : forall tick delta bs st ty ch nt v bs' nt', n_value nt' = limited (n_value nt + n) ->
    moved n (Event tick delta bs st ty (NoteOff ch nt v)) (Event tick delta bs' (Z.lor 128 ch) 0 (NoteOff ch nt' v))
| mv_key : forall tick delta bs st ty acc kt name bs' acc' minor,
    kt = (if minor : bool then 1 else 0) -> key_range acc' ->
    tonic_class minor acc' = (tonic_class minor acc + n) mod 12 ->
    moved n (Event tick delta bs st ty (KeySignature acc kt name))
            (Event tick delta bs' 255 89 (KeySignature acc' kt (key_name minor acc')))
| mv_same : forall e,
    match e_body e with NoteOn _ _ _ | NoteOff _ _ _ | KeySignature _ _ _ => False | _ => True end -> moved n e e.

(** The transposed file: same header, same tracks in the same order, each event in its place. *)
Definition moved_file (n : Z) (s s' : smf) : Prop :=
  f_mthd s' = f_mthd s /\
  Forall2 (fun t t' => t_tag t' = [77; 84; 114; 107] /\ t_number t' = t_number t /\ Forall2 (moved n) (t_events t) (t_events t'))
    (f_tracks s) (f_tracks s').

(** Note values of an event list, in order. *)
Fixpoint note_values (es : list event) : list Z :=
  match es with
  | [] => []
  | e :: r => match e_body e with NoteOn _ n _ | NoteOff _ n _ => n_value n :: note_values r | _ => note_values r end
  end.

(** Key signatures of an event list, in order: accidentals and key type. *)
Fixpoint keys (es : list event) : list (Z * Z) :=
  match es with
  | [] => []
  | e :: r => match e_body e with KeySignature acc kt _ => (acc, kt) :: keys r | _ => keys r end
  end.

(** The same on the contents of events (SpecEvent.v). *)
Inductive moved_content (n : Z) : content -> content -> Prop :=
| mc_on : forall ch k v, moved_content n (CNoteOn ch k v) (CNoteOn ch (limited (k + n)) v)
| mc_off : forall ch k v, moved_content n (CNoteOff ch k v) (CNoteOff ch (limited (k + n)) v)
| mc_key : forall acc acc' kt minor, kt = (if minor : bool then 1 else 0) -> key_range acc' ->
    tonic_class minor acc' = (tonic_class minor acc + n) mod 12 -> moved_content n (CKeySig acc kt) (CKeySig acc' kt)
| mc_same : forall c, match c with CNoteOn _ _ _ | CNoteOff _ _ _ | CKeySig _ _ => False | _ => True end -> moved_content n c c.

(** Delta times and contents, track by track and event by event. *)
Definition moved_contents (n : Z) : list (list (Z * content)) -> list (list (Z * content)) -> Prop :=
  Forall2 (Forall2 (fun x y => fst y = fst x /\ moved_content n (snd x) (snd y))).

(** Deltas and contents of all tracks of a file. *)
Definition smf_contents (s : smf) : list (list (Z * content)) := map (fun t => map ev_view (t_events t)) (f_tracks s).

(** [n] semitones keep every note within 0..127. *)
Definition fits (n : Z) (c : content) : Prop :=
  match c with CNoteOn _ k _ | CNoteOff _ k _ => 0 <= k + n <= 127 | _ => True end.

(** The six keys which have a preferred enharmonic equivalent: C♯, G♭ and C♭ major, A♭, E♭ and A♯ minor. *)
Definition respelled (acc kt : Z) : Prop :=
  kt = 0 /\ (acc = 7 \/ acc = -6 \/ acc = -7) \/ kt = 1 /\ (acc = -7 \/ acc = -6 \/ acc = 7).

(** Events which transposition changes. *)
Definition movable (e : event) : Prop :=
  match e_body e with NoteOn _ _ _ | NoteOff _ _ _ | KeySignature _ _ _ => True | _ => False end.

Definition has_movable (s : smf) : Prop := exists t e, In t (f_tracks s) /\ In e (t_events t) /\ movable e.
