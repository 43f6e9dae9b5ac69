(** * The merged event iterator and its filters *)
From Verif Require Import Base F32 Tags Events Maps Balance Lobby Convert Stream Iterators Dispatch State.
#[local] Open Scope string_scope.
#[local] Open Scope Z_scope.
#[local] Open Scope list_scope.

(** ** Filters *)
(** Model of src/filters.rs:11-36 [SC2ReplayFilters]; [max_events] is a [usize]. *)
Record filters := mk_filters {
  fi_player : option Z; fi_tag : option Z; fi_min : option Z; fi_max : option Z; fi_type : option string;
  fi_unit : option string; fi_events : option Z; fi_stats : bool }.
Definition set_events (n : option Z) (f : filters) : filters :=
  mk_filters (fi_player f) (fi_tag f) (fi_min f) (fi_max f) (fi_type f) (fi_unit f) n (fi_stats f).
(** Model of src/filters.rs:39-46 [set_player_id_from_user_name]. *)
Definition set_player (p : option Z) (f : filters) : filters :=
  mk_filters p (fi_tag f) (fi_min f) (fi_max f) (fi_type f) (fi_unit f) (fi_events f) (fi_stats f).
Definition set_player_id_from_user_name (f : filters) (user : string) (d : details) : filters :=
  fold_left (fun f x => if (pd_name x =? user)%string then set_player (pd_slot x) f else f) (de_players d) f.
(** Model of src/filters.rs:48-55 [decrease_allowed_event_counter]. *)
Definition decrease_allowed (f : filters) : filters :=
  match fi_events f with Some n => if 0 <? n then set_events (Some (n - 1)) f else f | None => f end.
(** Model of src/filters.rs:57-64 [is_max_event_reached]. *)
Definition max_reached (f : filters) : bool :=
  match fi_events f with Some n => n =? 0 | None => false end.

(** [if let Some(p) = filter && x != p]. *)
Definition differs {A} (eqb : A -> A -> bool) (filter : option A) (x : A) : bool :=
  match filter with Some p => negb (eqb x p) | None => false end.
(** Model of src/tracker_events/mod.rs:74-87 [ReplayTrackerEvent::should_skip]
    and the [should_skip] of each event: player_stats.rs:21-31,
    unit_born.rs:31-43, unit_died.rs:27-35, unit_owner_change.rs:21-28,
    unit_type_change.rs:21-28, player_upgrade.rs:22-29, unit_init.rs:26-38,
    unit_done.rs:21-24, unit_positions.rs:55-59, player_setup.rs:22-29. *)
Definition tracker_skip (f : filters) (e : tracker_event) : bool :=
  match e with
  | TPlayerStats x => if differs Z.eqb (fi_player f) (ps_player_id x) then true else negb (fi_stats f)
  | TUnitBorn x => if differs Z.eqb (fi_player f) (ub_control x) then true else differs String.eqb (fi_unit f) (ub_name x)
  | TUnitDied x =>
      match fi_player f with
      | Some p => negb (match ud_killer_player x with Some q => q =? p | None => false end)
      | None => false
      end
  | TUnitOwnerChange x => differs Z.eqb (fi_player f) (uo_control x)
  | TUnitTypeChange x => differs String.eqb (fi_unit f) (ut_name x)
  | TUpgrade x => differs Z.eqb (fi_player f) (ug_player_id x)
  | TUnitInit x => if differs Z.eqb (fi_player f) (ui_control x) then true else differs String.eqb (fi_unit f) (ui_name x)
  | TUnitDone _ => false
  | TUnitPosition _ => false
  | TPlayerSetup x => differs Z.eqb (fi_player f) (se_player_id x)
  end.
(** Model of src/state/mod.rs:119-134 [SC2EventType::should_skip]: the user id is
    compared after [as u8]; src/game_events/mod.rs:86-91 never skips. *)
Definition event_skip (f : filters) (e : sc2_event) : bool :=
  match e with
  | ETracker _ x => tracker_skip f x
  | EGame _ uid _ _ => differs Z.eqb (fi_player f) (as_u8 uid)
  end.
(** Model of src/state/mod.rs:603-619 [shoud_skip_event]. *)
Definition skip_event (f : filters) (e : sc2_event) : bool :=
  let outside := match e with
    | ETracker l _ =>
        (match fi_min f with Some a => l <? a | None => false end)
        || (match fi_max f with Some b => b <? l | None => false end)
    | EGame _ _ _ _ => false
    end%bool in
  if outside then true else event_skip f e.

(** ** The iterator *)
(** Model of src/state/mod.rs:312-328 [SC2EventIterator].  Simplification: the
    two pending events are held without their [SC2EventType] tag, which is
    always the right one, so that the [_ => None] of src/state/mod.rs:378-392
    cannot happen. *)
Record merged := mk_merged {
  mg_state : state; mg_tracker : tracker_state; mg_game : game_state;
  mg_next_tracker : option (Z * tracker_event); mg_next_game : option (Z * game_item);
  mg_filters : option filters }.
Definition with_state (st : state) (it : merged) : merged :=
  mk_merged st (mg_tracker it) (mg_game it) (mg_next_tracker it) (mg_next_game it) (mg_filters it).
Definition with_filters (f : option filters) (it : merged) : merged :=
  mk_merged (mg_state it) (mg_tracker it) (mg_game it) (mg_next_tracker it) (mg_next_game it) f.
(** Model of src/state/mod.rs:332-368 [SC2EventIterator::new] once the file has
    been read and the initial state built (Lobby.v, State.v), and 371-374
    [with_filters]. *)
Definition merge_start (st : state) (tracker_sector game_sector : list Z) (f : option filters) : merged :=
  mk_merged st (tracker_start tracker_sector) (game_start game_sector) None None f.

(** The lookup of src/game_events/iterator.rs:104-117. *)
Definition player_names (st : state) (uid : Z) : option string :=
  match mget uid (st_users st) with Some us => Some (pd_name (ld_player (us_lobby us))) | None => None end.
Definition tracker_item (x : Z * tracker_event) : sc2_event := ETracker (fst x) (snd x).
Definition game_item_event (x : Z * game_item) : sc2_event := EGame (fst x) (gi_user (snd x)) (gi_name (snd x)) (gi_event (snd x)).
(** [tracker_loop < (game_loop as f32 * TRACKER_SPEED_RATIO) as i64], with
    [TRACKER_SPEED_RATIO] = 1 (src/state/mod.rs:33): src/state/mod.rs:696-698. *)
Definition tracker_first (tracker_loop game_loop : Z) : bool :=
  tracker_loop <? f32_to_i64 (f32_mul (f32_of_int game_loop) f32_one).

Section Merge.
  Variable mc : machine.
  Variable p : proto.
  (** Model of src/state/mod.rs:676-681. *)
  Definition fill_tracker (it : merged) : outcome merged :=
    match mg_next_tracker it with
    | Some _ => Ok it
    | None =>
        do (x, s) <- tracker_next (mc_build mc) p (mg_tracker it);
        Ok (mk_merged (mg_state it) s (mg_game it) x (mg_next_game it) (mg_filters it))
    end.
  (** Model of src/state/mod.rs:683-689. *)
  Definition fill_game (it : merged) : outcome merged :=
    match mg_next_game it with
    | Some _ => Ok it
    | None =>
        do (x, s) <- game_next (mc_build mc) p (player_names (mg_state it)) (mg_game it);
        Ok (mk_merged (mg_state it) (mg_tracker it) s (mg_next_tracker it) x (mg_filters it))
    end.
  Definition take_tracker (it : merged) : merged :=
    mk_merged (mg_state it) (mg_tracker it) (mg_game it) None (mg_next_game it) (mg_filters it).
  Definition take_game (it : merged) : merged :=
    mk_merged (mg_state it) (mg_tracker it) (mg_game it) (mg_next_tracker it) None (mg_filters it).
  (** Model of src/state/mod.rs:691-714: the event to deliver. *)
  Definition pick (it : merged) : option sc2_event * merged :=
    match mg_next_tracker it, mg_next_game it with
    | Some t, Some g =>
        if tracker_first (fst t) (fst g) then (Some (tracker_item t), take_tracker it)
        else (Some (game_item_event g), take_game it)
    | None, Some g => (Some (game_item_event g), take_game it)
    | Some t, None => (Some (tracker_item t), take_tracker it)
    | None, None => (None, it)
    end.
  Definition advance (it : merged) : outcome (option sc2_event * merged) :=
    do it <- fill_tracker it; do it <- fill_game it; Ok (pick it).
  (** Model of src/state/mod.rs:673-729 [next].  One round of [loop]; [again] is
      the next round. *)
  Definition round (again : merged -> outcome (option item * merged)) (it : merged) : outcome (option item * merged) :=
    do (e, it) <- advance it;
    match e with
    | None => Ok (None, it)
    | Some e =>
        do (st, i) <- handle_transition mc (mg_state it) e;
        let it := with_state st it in
        match mg_filters it with
        | None => Ok (Some i, it)
        | Some f =>
            if skip_event f (it_event i) then again it
            else
              let f := decrease_allowed f in
              let it := with_filters (Some f) it in
              if max_reached f then Ok (None, it) else Ok (Some i, it)
        end
    end.
  (** Every round takes an event, so the events and bytes left bound the
      rounds; MergeFacts.v proves that fuel never runs out. *)
  Definition pending {A} (x : option A) : nat := match x with Some _ => 1%nat | None => O end.
  Definition left_over (it : merged) : nat :=
    (length (fst (mg_tracker it)) + cursor_size (fst (mg_game it)) + pending (mg_next_tracker it) + pending (mg_next_game it))%nat.
  Fixpoint merge_fuel (fuel : nat) (it : merged) : outcome (option item * merged) :=
    match fuel with
    | O => Err (EOther "out of fuel")
    | S f => round (merge_fuel f) it
    end.
  Definition merge_next (it : merged) : outcome (option item * merged) := merge_fuel (S (left_over it)) it.
  (** The answers of [n] successive calls of [next], and the iterator after them. *)
  Fixpoint merge_calls (n : nat) (it : merged) : outcome (list (option item) * merged) :=
    match n with
    | O => Ok ([], it)
    | S n' => do (r, it) <- merge_next it; do (rs, it) <- merge_calls n' it; Ok (r :: rs, it)
    end.
End Merge.
