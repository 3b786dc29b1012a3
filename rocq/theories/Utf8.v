(** * Utf8: strings as characters (unicode/utf8 and the conversions between string and []rune, Go standard library). *)
From Verif Require Import Base.

(** A continuation byte. *)
Definition cont (b : Z) : bool := (128 <=? b) && (b <=? 191).
(** Well-formed sequences of two, three and four bytes (utf8.go: tables [first] and [acceptRanges]). *)
Definition valid2 (b0 b1 : Z) : bool := (194 <=? b0) && (b0 <=? 223) && cont b1.
Definition valid3 (b0 b1 b2 : Z) : bool :=
  (224 <=? b0) && (b0 <=? 239) && cont b1 && cont b2 &&
  (if b0 =? 224 then 160 <=? b1 else true) && (if b0 =? 237 then b1 <=? 159 else true).
Definition valid4 (b0 b1 b2 b3 : Z) : bool :=
  (240 <=? b0) && (b0 <=? 244) && cont b1 && cont b2 && cont b3 &&
  (if b0 =? 240 then 144 <=? b1 else true) && (if b0 =? 244 then b1 <=? 143 else true).

(** U+FFFD, which stands for a byte that is not part of a well-formed sequence. *)
Definition replacement : bytes := [239; 191; 189].

(** The characters of a string, each in UTF-8: [[]rune(s)]; [len([]rune(s))] and utf8.RuneCountInString(s) are the length of
    this list, [string([]rune(s))] is its concatenation. *)
Fixpoint runes (s : bytes) : list bytes :=
  match s with
  | [] => []
  | b0 :: r0 =>
      if b0 <? 128 then [b0] :: runes r0 else
      match r0 with
      | [] => replacement :: runes r0
      | b1 :: r1 =>
          if valid2 b0 b1 then [b0; b1] :: runes r1 else
          match r1 with
          | [] => replacement :: runes r0
          | b2 :: r2 =>
              if valid3 b0 b1 b2 then [b0; b1; b2] :: runes r2 else
              match r2 with
              | [] => replacement :: runes r0
              | b3 :: r3 =>
                  if valid4 b0 b1 b2 b3 then [b0; b1; b2; b3] :: runes r3
                  else replacement :: runes r0
              end
          end
      end
  end.
