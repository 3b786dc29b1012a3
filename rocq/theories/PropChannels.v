(** * No channel is special: C117.  Theorems only; proofs in ChannelProofs.v, ChannelUseProofs.v and ChannelSamples.v. *)
From Coq Require Import Permutation.
From Verif Require Import Base Strings Tables Event Track File ValidateText Transpose Notes Samples SpecNames SpecPacket SpecSameSong SpecChannels ChannelProofs ChannelUseProofs SameSongSamples ChannelSamples.

(** C117: the sixteen channels are treated alike.  A file and one with the same messages on rearranged channels (written in whatever way) are read or fail alike, and what is
    read is the same but for the channels: ticks, note names, banks, programs ... *)
Theorem C117_read : forall f env r r', rearranges f -> is_bytes r -> song_moved f r r' -> alike (file_moved f) (decode env r) (decode env r').
Proof. exact song_moved_read. Qed.
Print Assumptions C117_read.

Example C117_example : rearranges swap /\ is_bytes duo /\ song_moved swap duo other /\
  exists s s', decode default_env duo = Ok s /\ decode default_env other = Ok s' /\
    (exists t t', nth_error (f_tracks s) 1%nat = Some t /\ nth_error (f_tracks s') 1%nat = Some t' /\ nth_error (map e_body (t_events t)) 1%nat = Some (ProgramChange 1 384 5) /\ nth_error (map e_body (t_events t')) 1%nat = Some (ProgramChange 9 384 5)) /\
    (exists u, transpose_smf default_env 3 s = Ok u) /\
    exists ns ns', extract default_env 0 (fun l => l) s = Ok ns /\ extract default_env 0 (fun l => l) s' = Ok ns' /\
      map brief ns = [[9; 60; 80; 0; 48]; [1; 60; 64; 0; 96]] /\
      map brief ns' = [[1; 60; 80; 0; 48]; [9; 60; 64; 0; 96]].
Proof. exact duo_example. Qed.

(** ... they have the same warnings ... *)
Theorem C117_valid : forall f env r s s', rearranges f -> is_bytes r -> decode env r = Ok s -> file_moved f s s' -> validation_warning s' = validation_warning s.
Proof. exact moved_valid. Qed.
Print Assumptions C117_valid.

(** ... transposition succeeds or fails alike, with results that again are the same but for the channels ... *)
Theorem C117_transposed : forall f env r s s' n, rearranges f -> is_bytes r -> decode env r = Ok s -> file_moved f s s' -> alike (file_moved f) (transpose_smf env n s) (transpose_smf env n s').
Proof. exact moved_transposed. Qed.
Print Assumptions C117_transposed.

(** ... and the same notes are found, on the new channels, in whatever orders Go visits its maps. *)
Theorem C117_notes : forall f env r s s' n order order', rearranges f -> is_bytes r -> decode env r = Ok s -> file_moved f s s' ->
  (forall l, Permutation l (order l)) -> (forall l, Permutation l (order' l)) ->
  alike (fun ns ns' => Permutation (map (on_note f) ns) ns') (extract env n order s) (extract env n order' s').
Proof. exact moved_notes. Qed.
Print Assumptions C117_notes.
