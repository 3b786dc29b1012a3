(** * The numbering of controllers and manufacturers: C121.  Theorems only; proofs in NumbersProofs.v. *)
From Verif Require Import Base Tables Event Track File SpecEvent SpecNumbers NumbersProofs Samples.

(** C121: every controller number has the name the MIDI specification gives it, numbers it does not assign are unknown. *)
Theorem C121_controllers : forall id, 0 <= id < 256 -> c_id (lookup_controller id) = id /\ controller_named id (c_name (lookup_controller id)).
Proof. exact controllers_numbered. Qed.
Print Assumptions C121_controllers.

Example C121_controllers_example : c_name (lookup_controller 7) = str "Channel Volume (MSB)" /\ c_name (lookup_controller 39) = str "Channel Volume (LSB)" /\
  c_name (lookup_controller 99) = str "Non-Registered Parameter Number (MSB)" /\ c_name (lookup_controller 64) = str "Sustain" ++ str " On/Off" /\
  c_name (lookup_controller 3) = str "<unknown>" /\ c_name (lookup_controller 200) = str "<unknown>".
Proof. vm_compute. repeat split. Qed.

(** No two known controllers share a name. *)
Theorem C121_apart : forall i j, 0 <= i < 256 -> 0 <= j < 256 -> c_name (lookup_controller i) = c_name (lookup_controller j) ->
  i = j \/ c_name (lookup_controller i) = str "<unknown>".
Proof. exact controllers_told_apart. Qed.
Print Assumptions C121_apart.

Example C121_apart_example : c_name (lookup_controller 98) <> c_name (lookup_controller 100) /\ c_name (lookup_controller 14) = c_name (lookup_controller 15).
Proof. split; [vm_compute; discriminate|reflexivity]. Qed.

(** The manufacturers of the built-in table are the ones the IDs were given to, in the region the ID belongs to; any other ID is unknown. *)
Theorem C121_manufacturers : forall c4 id, wire_id id ->
  let m := lookup_manufacturer (Env c4 manufacturers) id in manufacturer_named id (m_region m) (m_name m).
Proof. exact manufacturers_numbered. Qed.
Print Assumptions C121_manufacturers.

Example C121_manufacturers_example : wire_id [67] /\ m_name (lookup_manufacturer default_env [67]) = str "Yamaha" /\ region_of [67] (str "Japanese") /\
  wire_id [0; 32; 107] /\ m_name (lookup_manufacturer default_env [0; 32; 107]) = str "Arturia" /\ region_of [0; 32; 107] (str "European") /\
  m_name (lookup_manufacturer default_env [3]) = str "<unknown>".
Proof. repeat split; try reflexivity; constructor; lia. Qed.

(** Files that are read: all controllers and manufacturers in them are numbered that way. *)
Theorem C121_decoded : forall c4 r f, is_bytes r -> decode (Env c4 manufacturers) r = Ok f ->
  Forall (fun t => Forall (fun e => numbered (e_body e)) (t_events t)) (f_tracks f).
Proof. exact decoded_numbered. Qed.
Print Assumptions C121_decoded.

(** A file with a controller, a system exclusive message and a sequencer-specific event *)
Definition numbered_file : bytes := sample_header ++ sample_track [0; 255; 47; 0] ++
  sample_track [0; 176; 64; 127; 0; 240; 4; 67; 1; 2; 247; 0; 255; 127; 4; 0; 32; 107; 5; 0; 255; 47; 0].

Example C121_decoded_example : exists s, decode default_env numbered_file = Ok s /\
  map (fun t => map e_body (t_events t)) (f_tracks s) =
  [[EndOfTrack]; [Controller 0 (MkController 64 (str "Sustain On/Off")) 127; SysExMessage (Manufacturer [67] (str "Japanese") (str "Yamaha")) [1; 2] true;
    SequencerSpecific (Manufacturer [0; 32; 107] (str "European") (str "Arturia")) [5]; EndOfTrack]].
Proof. witness. Qed.
