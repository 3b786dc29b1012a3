(** * Base: outcomes, bytes and small list helpers shared by the model.

    Nothing in this file models a particular function of /repo; it fixes how Go
    values are represented:
    - a byte, and every Go integer, is a [Z]; a byte slice or string is [list Z];
    - the result of a Go call that returns an [error], may panic, or may not
      terminate is an [outcome]. *)
From Coq Require Export String Ascii ZArith List Lia Bool.
From Coq Require Export ZifyBool ZifyNat.
Export ListNotations.
#[global] Open Scope Z_scope.
#[global] Open Scope list_scope.

Ltac Zify.zify_post_hook ::= Z.div_mod_to_equations.

(** Result of a Go call.  [Ok a]: returned [a] with a nil error; [Err]: a non-nil
    error other than [io.EOF]; [Eof]: the error [io.EOF]
    (kept apart because midi/MTrk.go:93 and encoding/midi/decoder.go:32 test for it);
    [Panic]: a Go panic; [Loop]: does not return. *)
Inductive outcome (A : Type) : Type :=
| Ok (a : A)
| Err
| Eof
| Panic
| Loop.
Arguments Ok {A} a.
Arguments Err {A}.
Arguments Eof {A}.
Arguments Panic {A}.
Arguments Loop {A}.

(** Sequencing: Go's [if err != nil { return err }] convention. *)
Definition bind {A B} (x : outcome A) (f : A -> outcome B) : outcome B :=
  match x with
  | Ok a => f a
  | Err => Err
  | Eof => Eof
  | Panic => Panic
  | Loop => Loop
  end.

Notation "'do' x <- a ; b" := (bind a (fun x => b))
  (at level 200, x pattern, a at level 100, b at level 200, right associativity).

(** Byte strings (Go [[]byte] and [string]). *)
Notation bytes := (list Z).

(** [b] is a byte value. *)
Definition is_byte (b : Z) : Prop := 0 <= b < 256.
Definition is_bytes (bs : bytes) : Prop := Forall is_byte bs.

(** A string literal as the bytes Go would store (UTF-8 source). *)
Definition str (s : string) : bytes :=
  map (fun a => Z.of_N (N_of_ascii a)) (list_ascii_of_string s).

(** Equality of byte strings. *)
Fixpoint bytes_eqb (a b : bytes) : bool :=
  match a, b with
  | [], [] => true
  | x :: a', y :: b' => (x =? y) && bytes_eqb a' b'
  | _, _ => false
  end.

(** Length of a slice as a Go [int]. *)
Definition zlen {A} (l : list A) : Z := Z.of_nat (length l).

(** [upd i x l]: assignment [l[i] = x]. *)
Fixpoint upd {A} (i : nat) (x : A) (l : list A) : list A :=
  match l, i with
  | [], _ => []
  | _ :: r, O => x :: r
  | y :: r, S j => y :: upd j x r
  end.

(** Big-endian encodings: [binary.BigEndian.Uint16/Uint32/AppendUint16] and
    [binary.Write] of the Go standard library. *)
Definition be16 (v : Z) : bytes := [(v / 256) mod 256; v mod 256].
Definition be32 (v : Z) : bytes :=
  [(v / 16777216) mod 256; (v / 65536) mod 256; (v / 256) mod 256; v mod 256].
Definition of_be16 (a b : Z) : Z := a * 256 + b.
Definition of_be32 (a b c d : Z) : Z := ((a * 256 + b) * 256 + c) * 256 + d.

(** ** Lemmas *)

Lemma bytes_eqb_refl : forall a, bytes_eqb a a = true.
Proof. induction a as [|x a IH]; cbn; [reflexivity|]. rewrite Z.eqb_refl, IH. reflexivity. Qed.

Lemma bytes_eqb_eq : forall a b, bytes_eqb a b = true <-> a = b.
Proof.
  induction a as [|x a IH]; intros [|y b]; cbn; split; intro H; try easy.
  - apply andb_prop in H as [H1 H2]. apply Z.eqb_eq in H1. apply IH in H2. subst. reflexivity.
  - inversion H; subst. rewrite Z.eqb_refl. cbn. apply IH. reflexivity.
Qed.

Lemma bytes_eqb_neq : forall a b, bytes_eqb a b = false <-> a <> b.
Proof.
  intros a b. rewrite <- bytes_eqb_eq. destruct (bytes_eqb a b); split; congruence.
Qed.

Lemma zlen_nonneg : forall A (l : list A), 0 <= zlen l.
Proof. intros. unfold zlen. lia. Qed.

Lemma zlen_app : forall A (a b : list A), zlen (a ++ b) = zlen a + zlen b.
Proof. intros. unfold zlen. rewrite app_length. lia. Qed.

Lemma zlen_cons : forall A (x : A) l, zlen (x :: l) = 1 + zlen l.
Proof. intros. unfold zlen. cbn [length]. lia. Qed.

Lemma zlen_nil : forall A, zlen (@nil A) = 0.
Proof. reflexivity. Qed.

Lemma zlen_map : forall A B (f : A -> B) l, zlen (map f l) = zlen l.
Proof. intros. unfold zlen. rewrite map_length. reflexivity. Qed.

Lemma of_be16_be16 : forall v, 0 <= v < 65536 ->
  of_be16 (nth 0 (be16 v) 0) (nth 1 (be16 v) 0) = v.
Proof. intros v H. unfold of_be16, be16. cbn [nth]. lia. Qed.

Lemma firstn_app_exact : forall A (a b : list A), firstn (length a) (a ++ b) = a.
Proof. intros. rewrite firstn_app, Nat.sub_diag, firstn_all. cbn. apply app_nil_r. Qed.

Lemma skipn_app_exact : forall A (a b : list A), skipn (length a) (a ++ b) = b.
Proof. intros. rewrite skipn_app, Nat.sub_diag, skipn_all. reflexivity. Qed.

(** *** Masks and shifts as arithmetic *)

Lemma land7f : forall x, Z.land x 127 = x mod 128.
Proof. intro x. change 127 with (Z.ones 7). rewrite Z.land_ones by lia. reflexivity. Qed.

Lemma land0f : forall x, Z.land x 15 = x mod 16.
Proof. intro x. change 15 with (Z.ones 4). rewrite Z.land_ones by lia. reflexivity. Qed.

Lemma landff : forall x, Z.land x 255 = x mod 256.
Proof. intro x. change 255 with (Z.ones 8). rewrite Z.land_ones by lia. reflexivity. Qed.

Lemma land3f : forall x, Z.land x 63 = x mod 64.
Proof. intro x. change 63 with (Z.ones 6). rewrite Z.land_ones by lia. reflexivity. Qed.

Lemma shr7 : forall x, Z.shiftr x 7 = x / 128.
Proof. intro x. rewrite Z.shiftr_div_pow2 by lia. reflexivity. Qed.

Lemma shr8 : forall x, Z.shiftr x 8 = x / 256.
Proof. intro x. rewrite Z.shiftr_div_pow2 by lia. reflexivity. Qed.

Lemma shl7 : forall x, Z.shiftl x 7 = x * 128.
Proof. intro x. rewrite Z.shiftl_mul_pow2 by lia. reflexivity. Qed.

(** All the byte values, for finite sweeps. *)
Definition all_bytes : list Z := map Z.of_nat (seq 0 256).

Lemma all_bytes_in : forall b, is_byte b -> In b all_bytes.
Proof.
  intros b H. unfold all_bytes. apply in_map_iff. exists (Z.to_nat b).
  unfold is_byte in H. split; [lia|]. apply in_seq. lia.
Qed.

Lemma byte_sweep : forall P : Z -> bool, forallb P all_bytes = true -> forall b, is_byte b -> P b = true.
Proof. intros P H b Hb. rewrite forallb_forall in H. apply H, all_bytes_in, Hb. Qed.

Lemma land80 : forall b, is_byte b -> (Z.land b 128 =? 0) = (b <? 128).
Proof.
  intros b Hb.
  pose proof (byte_sweep (fun b => Bool.eqb (Z.land b 128 =? 0) (b <? 128)) ltac:(vm_compute; reflexivity) b Hb) as H.
  apply eqb_prop in H. exact H.
Qed.

Lemma landf0 : forall b, is_byte b -> Z.land b 240 = b - b mod 16.
Proof.
  intros b Hb.
  pose proof (byte_sweep (fun b => Z.land b 240 =? b - b mod 16) ltac:(vm_compute; reflexivity) b Hb) as H.
  lia.
Qed.

(** [status | channel] for a channel in 0..15 and a status with a zero low nibble. *)
Lemma lor_channel : forall s ch, In s [128; 144; 160; 176; 192; 208; 224] -> 0 <= ch < 16 ->
  Z.lor s ch = s + ch.
Proof.
  intros s ch Hs Hc.
  assert (H : forallb (fun s => forallb (fun c => Z.lor s c =? s + c) (map Z.of_nat (seq 0 16)))
                [128; 144; 160; 176; 192; 208; 224] = true) by (vm_compute; reflexivity).
  rewrite forallb_forall in H. specialize (H s Hs). rewrite forallb_forall in H.
  specialize (H ch). apply Z.eqb_eq. apply H. apply in_map_iff. exists (Z.to_nat ch).
  split; [lia|]. apply in_seq. lia.
Qed.

Lemma Ok_inj : forall A (a b : A), Ok a = Ok b -> a = b.
Proof. congruence. Qed.
