(** * TransposeWork: how often the loop of midi/lib/scales.go:122-124 runs when a file is transposed. *)
From Verif Require Import Base Strings Tables Event Track File Transpose.

(** midi/lib/scales.go:122-124 [for ix < 0 { ix += 12 }]: the number of passes of the loop, as [up_loop] of Transpose.v
    (the same fuel). *)
Fixpoint loop_passes (fuel : nat) (ix : Z) : Z :=
  if ix <? 0 then match fuel with O => 0 | S f => 1 + loop_passes f (ix + 12) end else 0.

(** midi/lib/scales.go:118-133 [transpose]: the passes for one note; a note that is not found panics before the loop. *)
Definition pitch_passes (steps : Z) (p : pitch) : Z :=
  match scale_index SCALE 0 (p_ord p) with
  | None => 0
  | Some ix => let ix1 := wrap64 (ix + steps) in loop_passes (Z.to_nat (- ix1)) ix1
  end.

(** midi/lib/scales.go:62-66 [Scale.Transpose] transposes the notes of the scale of a key signature
    (midi/events/meta/key_signature.go:222-242); no other event reaches the loop (ops/transpose/transpose.go:39-65). *)
Definition event_passes (steps : Z) (e : event) : Z :=
  match e_body e with
  | KeySignature acc kt _ =>
      match key_scale acc kt with
      | Ok s => fold_right (fun p n => pitch_passes steps p + n) 0 (s_notes s)
      | _ => 0
      end
  | _ => 0
  end.

(** ops/transpose/transpose.go:16-20 and 33-66: all events of all tracks (of a transposition that does not fail) *)
Definition smf_passes (steps : Z) (s : smf) : Z :=
  fold_right (fun t n => fold_right (fun e m => event_passes steps e + m) 0 (t_events t) + n) 0 (f_tracks s).
