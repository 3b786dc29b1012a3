(** * Transpose: ops/transpose, midi/lib/scales.go, NoteOn/NoteOff/KeySignature.Transpose *)
From Verif Require Import Base Strings Tables Vlq Event Marshal Parse Track File.

(** Go's int arithmetic wraps around; int has 64 bits on all supported platforms
    (Go specification, Numeric types). *)
Definition wrap64 (x : Z) : Z := (x + 9223372036854775808) mod 18446744073709551616 - 9223372036854775808.

(** midi/events/midi/note_on.go:177-189, midi/events/midi/note_off.go:71-83: the new note value. *)
Definition transpose_value (v steps : Z) : Z :=
  let x := wrap64 (v + steps) in
  if x <? 0 then 0 else if 127 <? x then 127 else x.

(** midi/lib/scales.go:122-124 [for ix < 0 { ix += 12 }] *)
Fixpoint up_loop (fuel : nat) (ix : Z) : outcome Z :=
  if ix <? 0 then match fuel with O => Loop | S f => up_loop f (ix + 12) end else Ok ix.

(** midi/lib/scales.go:119-130: the index of the first note of [SCALE] with that Ord. *)
Fixpoint scale_index (l : list pitch) (i : Z) (ord : Z) : option Z :=
  match l with
  | [] => None
  | p :: r => if p_ord p =? ord then Some i else scale_index r (i + 1) ord
  end.

(** midi/lib/scales.go:118-133 [transpose]; |ix| steps of the loop suffice. *)
Definition transpose_pitch (p : pitch) (steps : Z) : outcome pitch :=
  match scale_index SCALE 0 (p_ord p) with
  | None => Panic
  | Some ix =>
      let ix1 := wrap64 (ix + steps) in
      do ix2 <- up_loop (Z.to_nat (- ix1)) ix1;
      match nth_error SCALE (Z.to_nat (ix2 mod zlen SCALE)) with Some q => Ok q | None => Panic end
  end.

(** midi/lib/scales.go:63-66 *)
Fixpoint transpose_pitches (l : list pitch) (steps : Z) : outcome (list pitch) :=
  match l with
  | [] => Ok []
  | p :: r => do q <- transpose_pitch p steps; do qs <- transpose_pitches r steps; Ok (q :: qs)
  end.

(** midi/lib/scales.go:81-89: every note of [notes] has the Ord of the one at the same place in the
    scale; scale.Notes[ix] panics when the scale has fewer notes. *)
Fixpoint same_ords (notes m : list pitch) : outcome bool :=
  match notes, m with
  | [], _ => Ok true
  | _ :: _, [] => Panic
  | p :: r, q :: r' => if p_ord p =? p_ord q then same_ords r r' else Ok false
  end.

(** midi/lib/scales.go:79-113: the first scale with these notes, [None] if there is none. *)
Fixpoint find_scale (scales : list scale) (notes : list pitch) : outcome (option scale) :=
  match scales with
  | [] => Ok None
  | s :: r => do same <- same_ords notes (s_notes s); if same then Ok (Some s) else find_scale r notes
  end.

(** midi/lib/scales.go:91-112: the preferred one of two enharmonic scales. *)
Definition enharmonic (s : scale) : scale :=
  if s_id s =? s_id C_SHARP_MAJOR then D_FLAT_MAJOR else
  if s_id s =? s_id G_FLAT_MAJOR then F_SHARP_MAJOR else
  if s_id s =? s_id C_FLAT_MAJOR then B_MAJOR else
  if s_id s =? s_id A_FLAT_MINOR then G_SHARP_MINOR else
  if s_id s =? s_id E_FLAT_MINOR then D_SHARP_MINOR else
  if s_id s =? s_id A_SHARP_MINOR then B_FLAT_MINOR else s.

(** midi/lib/scales.go:62-116 [Scale.Transpose] *)
Definition scale_transpose (s : scale) (steps : Z) : outcome scale :=
  do notes <- transpose_pitches (s_notes s) steps;
  if s_type s =? 0 then
    do f <- find_scale MAJOR_SCALES notes; Ok (match f with Some x => enharmonic x | None => s end)
  else if s_type s =? 1 then
    do f <- find_scale MINOR_SCALES notes; Ok (match f with Some x => enharmonic x | None => s end)
  else Ok s.

(** midi/events/meta/key_signature.go:226-240: the scale of a key signature. *)
Definition key_scale (acc kt : Z) : outcome scale :=
  if kt =? 0 then match major_scale acc with Some s => Ok s | None => Panic end
  else if kt =? 1 then match minor_scale acc with Some s => Ok s | None => Panic end
  else Panic.

(** ops/transpose/transpose.go:39-65: one event; [c] is mtrk.Context, [None] = nil.  The cases for
    pointers (40, 46, 52), which would drop the event, concern no event that the program stores.
    midi/events/meta/key_signature.go:222-265, midi/events/midi/note_on.go:176-206,
    midi/events/midi/note_off.go:70-100 [Transpose]: on a nil context, ctx.scale and ctx.notes panic.
    The transposed event has no bytes. *)
Definition transpose_event (env : env) (c : option ctx) (steps : Z) (e : event) : outcome (event * option ctx) :=
  match e_body e with
  | KeySignature acc kt _ =>
      do s <- key_scale acc kt;
      do t <- scale_transpose s steps;
      match c with
      | None => Panic
      | Some c => Ok (Event (e_tick e) (e_delta e) [] 255 89 (KeySignature (s_acc t) kt (s_name t)),
                      Some (use_scale (s_acc t <? 0) c))
      end
  | NoteOn ch n v =>
      match c with
      | None => Panic
      | Some c' =>
          let x := transpose_value (n_value n) steps in
          Ok (Event (e_tick e) (e_delta e) [] (Z.lor 144 ch) 0
                (NoteOn ch (Note x (get_note_off env c' ch x) (format_note env (c_flats c') x)) v), c)
      end
  | NoteOff ch n v =>
      match c with
      | None => Panic
      | Some c' =>
          let x := transpose_value (n_value n) steps in
          Ok (Event (e_tick e) (e_delta e) [] (Z.lor 128 ch) 0
                (NoteOff ch (Note x (get_note_off env c' ch x) (format_note env (c_flats c') x)) v), c)
      end
  | _ => Ok (e, c)
  end.

(** ops/transpose/transpose.go:39-66 *)
Fixpoint transpose_events (env : env) (c : option ctx) (steps : Z) (es : list event) : outcome (list event) :=
  match es with
  | [] => Ok []
  | e :: es' =>
      do (e', c') <- transpose_event env c steps e;
      do r <- transpose_events env c' steps es';
      Ok (e' :: r)
  end.

(** ops/transpose/transpose.go:33-66 [transpose]: the new track has no bytes and no context. *)
Definition transpose_track (env : env) (steps : Z) (t : mtrk) : outcome mtrk :=
  do es <- transpose_events env (t_ctx t) steps (t_events t);
  Ok (MTrk (str "MTrk") (t_number t) 0 [] es None).

(** ops/transpose/transpose.go:17-20 *)
Fixpoint transpose_tracks (env : env) (steps : Z) (ts : list mtrk) : outcome (list mtrk) :=
  match ts with
  | [] => Ok []
  | t :: r => do t' <- transpose_track env steps t; do r' <- transpose_tracks env steps r; Ok (t' :: r')
  end.

(** ops/transpose/transpose.go:17-20: the file in memory afterwards. *)
Definition transpose_smf (env : env) (steps : Z) (s : smf) : outcome smf :=
  do ts <- transpose_tracks env steps (f_tracks s);
  Ok (SMF (f_mthd s) ts).

(** ops/transpose/transpose.go:16-30 [Execute] *)
Definition transpose_execute (env : env) (steps : Z) (s : smf) : outcome bytes :=
  do s' <- transpose_smf env steps s; encode s'.
