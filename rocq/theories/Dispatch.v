(** * Which protocol module each reader uses *)
From Verif Require Import Base Types ByteTypes BitTypes.

Inductive proto : Type := P75689 | P87702.

(** Numbers named in an explicit match arm (src/versions/mod.rs:33-34 and the
    same list in the other four readers). *)
Definition known_builds : list Z :=
  [83830; 84643; 88500; 86383; 87702; 89634; 89165; 89720; 90136; 90779; 90870; 91115].

(** Model of src/versions/mod.rs:28-42, the [match] of [read_tracker_events]. *)
Definition dispatch_tracker (b : Z) : proto :=
  if (0 <=? b) && (b <=? 75689) then P75689
  else if existsb (Z.eqb b) known_builds then P87702 else P87702.
(** Model of src/versions/mod.rs:59-64, the [match] of [read_game_events]. *)
Definition dispatch_game (b : Z) : proto :=
  if (0 <=? b) && (b <=? 75689) then P75689
  else if existsb (Z.eqb b) known_builds then P87702 else P87702.
(** Model of src/versions/mod.rs:81-86, the [match] of [read_message_events]. *)
Definition dispatch_message (b : Z) : proto :=
  if (0 <=? b) && (b <=? 75689) then P75689
  else if existsb (Z.eqb b) known_builds then P87702 else P87702.
(** Model of src/versions/mod.rs:102-107, the [match] of [read_details]. *)
Definition dispatch_details (b : Z) : proto :=
  if (0 <=? b) && (b <=? 75689) then P75689
  else if existsb (Z.eqb b) known_builds then P87702 else P87702.
(** Model of src/versions/mod.rs:124-129, the [match] of [read_init_data]. *)
Definition dispatch_init (b : Z) : proto :=
  if (0 <=? b) && (b <=? 75689) then P75689
  else if existsb (Z.eqb b) known_builds then P87702 else P87702.
(** Model of src/tracker_events/iterator.rs:39-59, the [match] of [read_versioned_tracker_event]. *)
Definition dispatch_tracker_iterator (b : Z) : proto :=
  if (0 <=? b) && (b <=? 75689) then P75689 else P87702.
(** Model of src/game_events/iterator.rs:45-71, the [match] of [read_versioned_game_event]. *)
Definition dispatch_game_iterator (b : Z) : proto :=
  if (0 <=? b) && (b <=? 75689) then P75689 else P87702.

(** The types the two modules decode.  src/versions/protocol75689/mod.rs:1-30,
    34-330: protocol 75689 re-exports ([pub use]) everything it does not
    define, in particular the tracker events, the details, the messages and
    the init data. *)
Definition tracker_type (p : proto) : vty := match p with P75689 | P87702 => ba_ReplayTrackerEEventId end.
Definition details_type (p : proto) : vty := match p with P75689 | P87702 => ba_GameSDetails end.
Definition game_type (p : proto) : bty := match p with P75689 => bp75_GameEEventId | P87702 => bp_GameEEventId end.
Definition message_type (p : proto) : bty := match p with P75689 | P87702 => bp_GameEMessageId end.
Definition init_type (p : proto) : bty := match p with P75689 | P87702 => bp_ReplaySInitData end.
