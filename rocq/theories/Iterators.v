(** * The event readers: one event, the iterators and the batch readers *)
From Verif Require Import Base Types BitSpec BitPacked BitInterp Versioned ByteTypes BitTypes Dispatch Utf8 Events Convert Stream.
#[local] Open Scope string_scope.
#[local] Open Scope Z_scope.
#[local] Open Scope list_scope.

(** The number inside an [SVarUint32], whichever variant:
    src/versions/protocol87702/events/tracker/mod.rs:19-22 and
    src/versions/protocol87702/events/game/mod.rs:27-32.  The cast [val as u32]
    of a [u8] changes nothing. *)
Definition var_value (v : val) : outcome Z := match v with VChoice _ (VInt z) => Ok z | _ => shape end.

(** Model of src/versions/protocol87702/events/tracker/mod.rs:16-24
    [ReplayTrackerEEventId::parse_event_pair] (re-exported by 75689). *)
Definition parse_event_pair (m : build) (p : proto) (input : list Z) : outcome (list Z * (Z * val)) :=
  do (tail, delta) <- vparse m ba_SVarUint32 input;
  do (tail, event) <- vparse m (tracker_type p) tail;
  do delta <- var_value delta;
  Ok (tail, (delta, event)).

(** Model of src/versions/protocol87702/events/game/mod.rs:21-37 and
    src/versions/protocol75689/mod.rs:1202-1219 [GameEEventId::parse_event_triplet],
    and of src/versions/protocol87702/events/message/mod.rs:11-27
    [GameEMessageId::parse_event_triplet], which differ in the type of the event. *)
Definition parse_event_triplet (m : build) (t : bty) (input : cursor) : outcome (cursor * (Z * (Z * val))) :=
  do (tail, delta) <- bparse m bp_SVarUint32 input;
  do (tail, user_id) <- bparse m bp_ReplaySGameUserId tail;
  do (tail, event) <- bparse m t tail;
  do delta <- var_value delta;
  do tail <- byte_align tail;
  do user_id <- get to_int "m_user_id" user_id;
  Ok (tail, (delta, (user_id, event))).

(** ** Tracker events *)
Definition bytes_end (l : list Z) : bool := match l with [] => true | _ => false end.
Definition tracker_state : Type := sstate (C := list Z).
(** Model of src/tracker_events/iterator.rs:23-31 [From<Vec<u8>>]. *)
Definition tracker_start (data : list Z) : tracker_state := (data, 0).
(** Model of src/tracker_events/iterator.rs:35-92. *)
Definition tracker_next (m : build) (p : proto) : tracker_state -> outcome (option (Z * tracker_event) * tracker_state) :=
  get_next_event bytes_end (@length Z) (parse_event_pair m p) tracker_from.
Definition tracker_calls (m : build) (p : proto) := calls bytes_end (@length Z) (parse_event_pair m p) tracker_from.
(** Model of src/versions/protocol87702/events/tracker/mod.rs:27-50 [read_tracker_events]. *)
Definition read_tracker_events (m : build) (p : proto) (sector : list Z) : outcome (list (Z * tracker_event)) :=
  read_batch bytes_end (@length Z) (parse_event_pair m p) tracker_from sector.

(** ** Game events *)
Definition cursor_end (c : cursor) : bool := bytes_end (fst c).
Definition cursor_size (c : cursor) : nat := length (fst c).
Definition game_state : Type := sstate (C := cursor).
(** Model of src/game_events/iterator.rs:29-38 [From<Vec<u8>>]. *)
Definition game_start (data : list Z) : game_state := ((data, 0%nat), 0).
Record game_item := mk_game_item { gi_user : Z; gi_name : option string; gi_event : game_event }.
(** The user's name, src/game_events/iterator.rs:104-117; [names] is the lookup
    in [user_state]. *)
Definition game_convert (names : Z -> option string) (x : Z * val) : outcome game_item :=
  do e <- game_from (snd x); Ok (mk_game_item (fst x) (names (fst x)) e).
(** Model of src/game_events/iterator.rs:41-133. *)
Definition game_next (m : build) (p : proto) (names : Z -> option string) : game_state -> outcome (option (Z * game_item) * game_state) :=
  get_next_event cursor_end cursor_size (parse_event_triplet m (game_type p)) (game_convert names).
Definition game_calls (m : build) (p : proto) (names : Z -> option string) :=
  calls cursor_end cursor_size (parse_event_triplet m (game_type p)) (game_convert names).
(** Model of src/versions/protocol87702/events/game/mod.rs:40-67 and
    src/versions/protocol75689/mod.rs:1221-1251 [read_events]: delta, user and event. *)
Definition plain_convert (x : Z * val) : outcome (Z * game_event) := do e <- game_from (snd x); Ok (fst x, e).
Definition read_game_events (m : build) (p : proto) (sector : list Z) : outcome (list (Z * (Z * game_event))) :=
  read_batch cursor_end cursor_size (parse_event_triplet m (game_type p)) plain_convert (sector, 0%nat).

(** ** Message events *)
(** Model of src/message_events.rs [ReplayMessageEvent]: a chat message. *)
Record chat_message := mk_chat { ch_recipient : string; ch_text : string }.
(** Model of src/versions/protocol87702/events/message/mod.rs:62-96: the [try_from]s. *)
Definition message_from (v : val) : outcome chat_message :=
  match v with
  | VChoice "EChat" w =>
      do r <- get to_enum "m_recipient" w;
      do l <- get to_bytes "m_string" w;
      do s <- from_utf8 l;
      Ok (mk_chat r s)
  | VChoice _ _ => Err EUnsupported
  | _ => shape
  end.
Definition message_convert (x : Z * val) : outcome (Z * chat_message) := do e <- message_from (snd x); Ok (fst x, e).
(** Model of src/versions/protocol87702/events/message/mod.rs:29-59 [read_events]. *)
Definition read_message_events (m : build) (p : proto) (sector : list Z) : outcome (list (Z * (Z * chat_message))) :=
  read_batch cursor_end cursor_size (parse_event_triplet m (message_type p)) message_convert (sector, 0%nat).
