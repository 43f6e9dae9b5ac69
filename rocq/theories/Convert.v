(** * From decoded values to protocol-agnostic events

    The Rust conversions are total functions on structs; here they run on
    [val], and a field that is not there is the error ["shape"], which
    ConvertFacts.v proves unreachable for decoded values. *)
From Verif Require Import Base Types Utf8 Events.
#[local] Open Scope string_scope.
#[local] Open Scope Z_scope.
#[local] Open Scope list_scope.

Definition shape {A} : outcome A := Err (EOther "shape").

(** Field access [v.n]. *)
Fixpoint lookup (n : string) (l : list (string * val)) : outcome val :=
  match l with [] => shape | (k, v) :: l' => if String.eqb k n then Ok v else lookup n l' end.
Definition field (n : string) (v : val) : outcome val := match v with VStruct l => lookup n l | _ => shape end.
Definition to_int (v : val) : outcome Z := match v with VInt z => Ok z | _ => shape end.
Definition to_bool (v : val) : outcome bool := match v with VBool b => Ok b | _ => shape end.
Definition to_bytes (v : val) : outcome (list Z) := match v with VBytes l => Ok l | _ => shape end.
Definition to_enum (v : val) : outcome string := match v with VEnum s => Ok s | _ => shape end.
Definition to_opt {A} (f : val -> outcome A) (v : val) : outcome (option A) :=
  match v with VOpt None => Ok None | VOpt (Some w) => do x <- f w; Ok (Some x) | _ => shape end.
Fixpoint map_out {A B} (f : A -> outcome B) (l : list A) : outcome (list B) :=
  match l with [] => Ok [] | a :: l' => do b <- f a; do bs <- map_out f l'; Ok (b :: bs) end.
Definition to_list {A} (f : val -> outcome A) (v : val) : outcome (list A) :=
  match v with VList l => map_out f l | _ => shape end.
Definition get {A} (f : val -> outcome A) (n : string) (v : val) : outcome A := do w <- field n v; f w.
(** An integer narrowed by [as]. *)
Definition cast (c : Z -> Z) (v : val) : outcome Z := do z <- to_int v; Ok (c z).
Definition as_i8 (z : Z) : Z := (z + 128) mod 256 - 128.
Definition as_i16 (z : Z) : Z := (z + 32768) mod 65536 - 32768.

(** ** Tracker events *)

(** The struct literal of src/versions/protocol87702/events/tracker/mod.rs:188-238
    [From<ReplayTrackerSPlayerStats> for PlayerStats]: field, source field,
    divided by 4096?  (Written by a script from the source.) *)
Definition stats_table : list (string * string * bool) := [
  ("minerals_current", "m_score_value_minerals_current", false);
  ("vespene_current", "m_score_value_vespene_current", false);
  ("minerals_collection_rate", "m_score_value_minerals_collection_rate", false);
  ("vespene_collection_rate", "m_score_value_vespene_collection_rate", false);
  ("workers_active_count", "m_score_value_workers_active_count", false);
  ("minerals_used_in_progress_army", "m_score_value_minerals_used_in_progress_army", false);
  ("minerals_used_in_progress_economy", "m_score_value_minerals_used_in_progress_economy", false);
  ("minerals_used_in_progress_technology", "m_score_value_minerals_used_in_progress_technology", false);
  ("vespene_used_in_progress_army", "m_score_value_vespene_used_in_progress_army", false);
  ("vespene_used_in_progress_economy", "m_score_value_vespene_used_in_progress_economy", false);
  ("vespene_used_in_progress_technology", "m_score_value_vespene_used_in_progress_technology", false);
  ("minerals_used_current_army", "m_score_value_minerals_used_current_army", false);
  ("minerals_used_current_economy", "m_score_value_minerals_used_current_economy", false);
  ("minerals_used_current_technology", "m_score_value_minerals_used_current_technology", false);
  ("vespene_used_current_army", "m_score_value_vespene_used_current_army", false);
  ("vespene_used_current_economy", "m_score_value_vespene_used_current_economy", false);
  ("vespene_used_current_technology", "m_score_value_vespene_used_current_technology", false);
  ("minerals_lost_army", "m_score_value_minerals_lost_army", false);
  ("minerals_lost_economy", "m_score_value_minerals_lost_economy", false);
  ("minerals_lost_technology", "m_score_value_minerals_lost_technology", false);
  ("vespene_lost_army", "m_score_value_vespene_lost_army", false);
  ("vespene_lost_economy", "m_score_value_vespene_lost_economy", false);
  ("vespene_lost_technology", "m_score_value_vespene_lost_technology", false);
  ("minerals_killed_army", "m_score_value_minerals_killed_army", false);
  ("minerals_killed_economy", "m_score_value_minerals_killed_economy", false);
  ("minerals_killed_technology", "m_score_value_minerals_killed_technology", false);
  ("vespene_killed_army", "m_score_value_vespene_killed_army", false);
  ("vespene_killed_economy", "m_score_value_vespene_killed_economy", false);
  ("vespene_killed_technology", "m_score_value_vespene_killed_technology", false);
  ("food_used", "m_score_value_food_used", true);
  ("food_made", "m_score_value_food_made", true);
  ("minerals_used_active_forces", "m_score_value_minerals_used_active_forces", false);
  ("vespene_used_active_forces", "m_score_value_vespene_used_active_forces", false);
  ("minerals_friendly_fire_army", "m_score_value_minerals_friendly_fire_army", false);
  ("minerals_friendly_fire_economy", "m_score_value_minerals_friendly_fire_economy", false);
  ("minerals_friendly_fire_technology", "m_score_value_minerals_friendly_fire_technology", false);
  ("vespene_friendly_fire_army", "m_score_value_vespene_friendly_fire_army", false);
  ("vespene_friendly_fire_economy", "m_score_value_vespene_friendly_fire_economy", false);
  ("vespene_friendly_fire_technology", "m_score_value_vespene_friendly_fire_technology", false)].
(** Model of src/versions/protocol87702/events/tracker/mod.rs:188-238.  Rust's
    [/] truncates. *)
Definition stats_from (v : val) : outcome player_stats :=
  map_out (fun x => let '(n, src, div) := x in
    do z <- get to_int src v; Ok (n, if (div : bool) then Z.quot z 4096 else z)) stats_table.
(** Model of src/tracker_events/player_stats.rs:83-224 [as_prop_name_value_vec]:
    path and field. *)
Definition prop_table : list (string * string) := [
  ("minerals/current", "minerals_current");
  ("vespene/current", "vespene_current");
  ("minerals/collection_rate", "minerals_collection_rate");
  ("vespene/collection_rate", "vespene_collection_rate");
  ("workers_active_count", "workers_active_count");
  ("minerals/used_in_progress_army", "minerals_used_in_progress_army");
  ("minerals/used_in_progress_economy", "minerals_used_in_progress_economy");
  ("minerals/used_in_progress_technology", "minerals_used_in_progress_technology");
  ("vespene/used_in_progress_army", "vespene_used_in_progress_army");
  ("vespene/used_in_progress_economy", "vespene_used_in_progress_economy");
  ("vespene/used_in_progress_technology", "vespene_used_in_progress_technology");
  ("minerals/used_current_army", "minerals_used_current_army");
  ("minerals/used_current_economy", "minerals_used_current_economy");
  ("minerals/used_current_technology", "minerals_used_current_technology");
  ("vespene/used_current_army", "vespene_used_current_army");
  ("vespene/used_current_economy", "vespene_used_current_economy");
  ("vespene/used_current_technology", "vespene_used_current_technology");
  ("minerals/lost_army", "minerals_lost_army");
  ("minerals/lost_economy", "minerals_lost_economy");
  ("minerals/lost_technology", "minerals_lost_technology");
  ("vespene/lost_army", "vespene_lost_army");
  ("vespene/lost_economy", "vespene_lost_economy");
  ("vespene/lost_technology", "vespene_lost_technology");
  ("minerals/killed_army", "minerals_killed_army");
  ("minerals/killed_economy", "minerals_killed_economy");
  ("minerals/killed_technology", "minerals_killed_technology");
  ("vespene/killed_army", "vespene_killed_army");
  ("vespene/killed_economy", "vespene_killed_economy");
  ("vespene/killed_technology", "vespene_killed_technology");
  ("food/used", "food_used");
  ("food/made", "food_made");
  ("minerals/used_active_forces", "minerals_used_active_forces");
  ("vespene/used_active_forces", "vespene_used_active_forces");
  ("minerals/friendly_fire_army", "minerals_friendly_fire_army");
  ("minerals/friendly_fire_economy", "minerals_friendly_fire_economy");
  ("minerals/friendly_fire_technology", "minerals_friendly_fire_technology");
  ("vespene/friendly_fire_army", "vespene_friendly_fire_army");
  ("vespene/friendly_fire_economy", "vespene_friendly_fire_economy");
  ("vespene/friendly_fire_technology", "vespene_friendly_fire_technology")].
Definition stat (n : string) (s : player_stats) : option Z :=
  match find (fun x => String.eqb (fst x) n) s with Some (_, z) => Some z | None => None end.
Definition as_prop_name_value_vec (s : player_stats) : list (string * option Z) :=
  map (fun x => (fst x, stat (snd x) s)) prop_table.

(** Model of src/versions/protocol87702/events/tracker/mod.rs:179-186. *)
Definition player_stats_from (v : val) : outcome tracker_event :=
  do p <- get to_int "m_player_id" v;
  do st <- get stats_from "m_stats" v;
  Ok (TPlayerStats (mk_player_stats p st)).
(** [str::from_utf8(&source.f)?.to_string()]. *)
Definition to_name (v : val) : outcome string := do l <- to_bytes v; from_utf8 l.
(** Model of src/versions/protocol87702/events/tracker/mod.rs:87-108.  The
    creator ability is converted first, then the type name. *)
Definition unit_born_from (v : val) : outcome tracker_event :=
  do ability <- get (to_opt to_name) "m_creator_ability_name" v;
  do i <- get to_int "m_unit_tag_index" v;
  do r <- get to_int "m_unit_tag_recycle" v;
  do n <- get to_name "m_unit_type_name" v;
  do c <- get to_int "m_control_player_id" v;
  do u <- get to_int "m_upkeep_player_id" v;
  do x <- get to_int "m_x" v;
  do y <- get to_int "m_y" v;
  do ci <- get (to_opt to_int) "m_creator_unit_tag_index" v;
  do cr <- get (to_opt to_int) "m_creator_unit_tag_recycle" v;
  Ok (TUnitBorn (mk_unit_born i r n c u x y ci cr ability)).
(** Model of src/versions/protocol87702/events/tracker/mod.rs:121-133. *)
Definition unit_died_from (v : val) : outcome tracker_event :=
  do i <- get to_int "m_unit_tag_index" v;
  do r <- get to_int "m_unit_tag_recycle" v;
  do kp <- get (to_opt to_int) "m_killer_player_id" v;
  do x <- get to_int "m_x" v;
  do y <- get to_int "m_y" v;
  do ki <- get (to_opt to_int) "m_killer_unit_tag_index" v;
  do kr <- get (to_opt to_int) "m_killer_unit_tag_recycle" v;
  Ok (TUnitDied (mk_unit_died i r kp x y ki kr)).
(** Model of src/versions/protocol87702/events/tracker/mod.rs:110-119. *)
Definition unit_owner_from (v : val) : outcome tracker_event :=
  do i <- get to_int "m_unit_tag_index" v;
  do r <- get to_int "m_unit_tag_recycle" v;
  do c <- get to_int "m_control_player_id" v;
  do u <- get to_int "m_upkeep_player_id" v;
  Ok (TUnitOwnerChange (mk_unit_owner i r c u)).
(** Model of src/versions/protocol87702/events/tracker/mod.rs:135-144. *)
Definition unit_type_from (v : val) : outcome tracker_event :=
  do i <- get to_int "m_unit_tag_index" v;
  do r <- get to_int "m_unit_tag_recycle" v;
  do n <- get to_name "m_unit_type_name" v;
  Ok (TUnitTypeChange (mk_unit_type i r n)).
(** Model of src/versions/protocol87702/events/tracker/mod.rs:72-86: a name that
    is not UTF-8 is replaced by its [{:?}] form. *)
Definition name_or_debug (l : list Z) : string := match from_utf8 l with Ok s => s | _ => show_bytes l end.
Definition upgrade_from (v : val) : outcome tracker_event :=
  do l <- get to_bytes "m_upgrade_type_name" v;
  do p <- get to_int "m_player_id" v;
  do c <- get to_int "m_count" v;
  Ok (TUpgrade (mk_upgrade p None (name_or_debug l) c)).
(** Model of src/versions/protocol87702/events/tracker/mod.rs:146-159. *)
Definition unit_init_from (v : val) : outcome tracker_event :=
  do i <- get to_int "m_unit_tag_index" v;
  do r <- get to_int "m_unit_tag_recycle" v;
  do n <- get to_name "m_unit_type_name" v;
  do c <- get to_int "m_control_player_id" v;
  do u <- get to_int "m_upkeep_player_id" v;
  do x <- get to_int "m_x" v;
  do y <- get to_int "m_y" v;
  Ok (TUnitInit (mk_unit_init i r n c u x y)).
(** Model of src/versions/protocol87702/events/tracker/mod.rs:161-168. *)
Definition unit_done_from (v : val) : outcome tracker_event :=
  do i <- get to_int "m_unit_tag_index" v;
  do r <- get to_int "m_unit_tag_recycle" v;
  Ok (TUnitDone (mk_unit_done i r)).
(** Model of src/versions/protocol87702/events/tracker/mod.rs:170-177. *)
Definition unit_positions_from (v : val) : outcome tracker_event :=
  do f <- get to_int "m_first_unit_index" v;
  do l <- get (to_list to_int) "m_items" v;
  Ok (TUnitPosition (mk_unit_positions f l)).
(** Model of src/versions/protocol87702/events/tracker/mod.rs:240-249. *)
Definition player_setup_from (v : val) : outcome tracker_event :=
  do p <- get to_int "m_player_id" v;
  do t <- get to_int "m_type" v;
  do u <- get (to_opt to_int) "m_user_id" v;
  do s <- get (to_opt to_int) "m_slot_id" v;
  Ok (TPlayerSetup (mk_player_setup p t u s)).

(** Model of src/versions/protocol87702/events/tracker/mod.rs:53-70
    [TryFrom<ReplayTrackerEEventId> for ReplayTrackerEvent].  Protocol 75689
    re-exports the same type. *)
Definition tracker_from (v : val) : outcome tracker_event :=
  match v with
  | VChoice s w =>
      if s =? "EPlayerStats" then player_stats_from w
      else if s =? "EUnitBorn" then unit_born_from w
      else if s =? "EUnitDied" then unit_died_from w
      else if s =? "EUnitOwnerChange" then unit_owner_from w
      else if s =? "EUnitTypeChange" then unit_type_from w
      else if s =? "EUpgrade" then upgrade_from w
      else if s =? "EUnitInit" then unit_init_from w
      else if s =? "EUnitDone" then unit_done_from w
      else if s =? "EUnitPosition" then unit_positions_from w
      else if s =? "EPlayerSetup" then player_setup_from w
      else shape
  | _ => shape
  end%string.

(** ** Game events *)

(** Model of src/versions/protocol87702/events/game/mod.rs:69-77. *)
Definition coord3_from (v : val) : outcome coord3 :=
  do x <- get to_int "x" v; do y <- get to_int "y" v; do z <- get (cast as_i32) "z" v; Ok (mk_coord x y z).
(** Model of src/versions/protocol87702/events/game/mod.rs:79-86. *)
Definition ui_coord_from (v : val) : outcome ui_coord :=
  do x <- get (cast as_u16) "x" v; do y <- get (cast as_u16) "y" v; Ok (mk_ui x y).
(** Model of src/versions/protocol87702/events/game/mod.rs:119-126. *)
Definition point_from (v : val) : outcome point_mini :=
  do x <- get to_int "x" v; do y <- get to_int "y" v; Ok (mk_point x y).
(** Model of src/versions/protocol87702/events/game/user.rs:6-43. *)
Definition leave_reason (s : string) : outcome string :=
  match find (fun x => String.eqb (fst x) s)
    [("EUserLeft", "UserLeft"); ("EUserDropped", "UserDropped"); ("EUserBanned", "UserBanned"); ("EUserVictory", "UserVictory");
     ("EUserDefeat", "UserDefeat"); ("EUserTied", "UserTied"); ("EUserDesynced", "UserDesynced"); ("EUserOutOfTime", "UserOutOfTime");
     ("EWeWereUnresponsive", "WeWereUnresponsive"); ("EWeContinuedAlone", "WeContinuedAlone"); ("EReplayDesynced", "ReplayDesynced");
     ("EUserTimeout", "UserTimeout"); ("EUserDisconnected", "UserDisconnected"); ("EUnrecoverable", "Unrecoverable");
     ("EUserCatchupDesynced", "UserCatchupDesynced"); ("ETakeCommandDropped", "TakeCommandDropped")] with
  | Some (_, r) => Ok r
  | None => shape
  end.
Definition drop_user_from (v : val) : outcome game_event :=
  do u <- get (cast as_u8) "m_drop_session_user_id" v;
  do r <- get to_enum "m_reason" v;
  do r <- leave_reason r;
  Ok (GDropUser u r).
(** Model of src/versions/protocol87702/events/game/camera.rs:6-26. *)
Definition camera_save_from (v : val) : outcome game_event :=
  do w <- get to_int "m_which" v; do t <- get point_from "m_target" v; Ok (GCameraSave (mk_camera_save w t)).
Definition camera_update_from (v : val) : outcome game_event :=
  do t <- get (to_opt point_from) "m_target" v;
  do d <- get (to_opt to_int) "m_distance" v;
  do p <- get (to_opt to_int) "m_pitch" v;
  do y <- get (to_opt to_int) "m_yaw" v;
  do r <- get (to_opt (cast as_i8)) "m_reason" v;
  do f <- get to_bool "m_follow" v;
  Ok (GCameraUpdate (mk_camera_update t d p y r f)).
(** Model of src/versions/protocol87702/events/game/cmd.rs:21-30. *)
Definition cmd_abil_from (v : val) : outcome cmd_abil :=
  do l <- get (cast as_u16) "m_abil_link" v;
  do i <- get to_int "m_abil_cmd_index" v;
  do d <- get (to_opt (cast as_u8)) "m_abil_cmd_data" v;
  Ok (mk_abil l "" i d).
(** Model of src/versions/protocol87702/events/game/cmd.rs:47-59. *)
Definition target_unit_from (v : val) : outcome target_unit :=
  do f <- get (cast as_u16) "m_target_unit_flags" v;
  do t <- get (cast as_u8) "m_timer" v;
  do tag <- get (cast as_u32) "m_tag" v;
  do l <- get (cast as_u16) "m_snapshot_unit_link" v;
  do c <- get (to_opt to_int) "m_snapshot_control_player_id" v;
  do u <- get (to_opt to_int) "m_snapshot_upkeep_player_id" v;
  do p <- get coord3_from "m_snapshot_point" v;
  Ok (mk_target f t tag l c u p).
(** Model of src/versions/protocol87702/events/game/cmd.rs:32-45. *)
Definition cmd_data_from (v : val) : outcome cmd_data :=
  match v with
  | VChoice s w =>
      if s =? "None" then Ok CDNone
      else if s =? "TargetPoint" then do c <- coord3_from w; Ok (CDPoint c)
      else if s =? "TargetUnit" then do t <- target_unit_from w; Ok (CDUnit t)
      else if s =? "Data" then do z <- cast as_u32 w; Ok (CDData z)
      else shape
  | _ => shape
  end%string.
(** Model of src/versions/protocol87702/events/game/cmd.rs:6-19 and
    src/versions/protocol75689/mod.rs:1284-1296. *)
Definition cmd_from (v : val) : outcome game_event :=
  do a <- get (to_opt cmd_abil_from) "m_abil" v;
  do f <- get to_int "m_cmd_flags" v;
  do d <- get cmd_data_from "m_data" v;
  do s <- get to_int "m_sequence" v;
  do o <- get (to_opt (cast as_u32)) "m_other_unit" v;
  do g <- get (to_opt (cast as_u32)) "m_unit_group" v;
  Ok (GCmd (mk_cmd f a d s o g)).
(** Model of src/versions/protocol87702/events/game/selection.rs:47-62. *)
Definition sel_mask_from (v : val) : outcome sel_mask :=
  match v with
  | VChoice s w =>
      if s =? "None" then Ok SMNone
      else if s =? "Mask" then do l <- to_bytes w; Ok (SMMask l)
      else if s =? "OneIndices" then do l <- to_list (cast as_u16) w; Ok (SMOne l)
      else if s =? "ZeroIndices" then do l <- to_list (cast as_u16) w; Ok (SMZero l)
      else shape
  | _ => shape
  end%string.
(** Model of src/versions/protocol87702/events/game/selection.rs:94-103. *)
Definition subgroup_from (v : val) : outcome subgroup :=
  do l <- get (cast as_u16) "m_unit_link" v;
  do p <- get (cast as_u8) "m_subgroup_priority" v;
  do i <- get (cast as_u8) "m_intra_subgroup_priority" v;
  do c <- get (cast as_u16) "m_count" v;
  Ok (mk_subgroup l p i c).
(** Model of src/versions/protocol87702/events/game/selection.rs:5-45. *)
Definition selection_delta_from (v : val) : outcome game_event :=
  do g <- get (cast as_u8) "m_control_group_id" v;
  do d <- field "m_delta" v;
  do sgs <- get (to_list subgroup_from) "m_add_subgroups" d;
  do tags <- get (to_list (cast as_u32)) "m_add_unit_tags" d;
  do i <- get (cast as_u16) "m_subgroup_index" d;
  do mask <- get sel_mask_from "m_remove_mask" d;
  Ok (GSelectionDelta (mk_selection g i mask sgs tags)).
(** Model of src/versions/protocol87702/events/game/control_group.rs:19-38. *)
Definition group_update_from (s : string) : outcome group_update :=
  (if s =? "ESet" then Ok GSet
  else if s =? "EAppend" then Ok GAppend
  else if s =? "ERecall" then Ok GRecall
  else if s =? "EClear" then Ok GClear
  else if s =? "ESetAndSteal" then Ok GSetAndSteal
  else if s =? "EAppendAndSteal" then Ok GAppendAndSteal
  else shape)%string.
(** Model of src/versions/protocol87702/events/game/control_group.rs:6-17. *)
Definition control_group_from (v : val) : outcome game_event :=
  do i <- get (cast as_u8) "m_control_group_index" v;
  do s <- get to_enum "m_control_group_update" v;
  do u <- group_update_from s;
  do mask <- get sel_mask_from "m_mask" v;
  Ok (GControlGroupUpdate (mk_control i u mask)).
(** Model of src/versions/protocol87702/events/game/selection.rs:115-139. *)
Definition sync_check_from (v : val) : outcome game_event :=
  do g <- get (cast as_u8) "m_control_group_id" v;
  do d <- field "m_selection_sync_data" v;
  do c <- get (cast as_u16) "m_count" d;
  do sc <- get (cast as_u16) "m_subgroup_count" d;
  do a <- get (cast as_u16) "m_active_subgroup_index" d;
  do k1 <- get (cast as_u32) "m_unit_tags_checksum" d;
  do k2 <- get (cast as_u32) "m_subgroup_indices_checksum" d;
  do k3 <- get (cast as_u32) "m_subgroups_checksum" d;
  Ok (GSelectionSyncCheck g c sc a k1 k2 k3).
(** Model of src/versions/protocol87702/events/game/mod.rs:164-178. *)
Definition chat_from (v : val) : outcome game_event :=
  do l <- get to_bytes "m_chat_message" v;
  Ok (GTriggerChatMessage (match from_utf8 l with Ok s => s | _ => ("InvalidUTF8(" ++ show_bytes l ++ ")")%string end)).
(** Model of src/versions/protocol87702/events/game/unit.rs:6-21. *)
Definition unit_click_from (v : val) : outcome game_event := do t <- get (cast as_u32) "m_unit_tag" v; Ok (GUnitClick t).
Definition unit_highlight_from (v : val) : outcome game_event :=
  do t <- get (cast as_u32) "m_unit_tag" v; do f <- get (cast as_u8) "m_flags" v; Ok (GUnitHighlight t f).
(** Model of src/versions/protocol87702/events/game/mod.rs:179-231. *)
Definition reply_from (v : val) : outcome game_event :=
  do c <- get (cast as_i32) "m_conversation_id" v; do r <- get (cast as_i32) "m_reply_id" v; Ok (GTriggerReplySelected c r).
Definition hotkey_from (v : val) : outcome game_event :=
  do k <- get (cast as_u32) "m_hotkey" v; do d <- get to_bool "m_down" v; Ok (GTriggerHotkeyPressed k d).
Definition target_mode_from (v : val) : outcome game_event :=
  do l <- get (cast as_u16) "m_abil_link" v; do i <- get to_int "m_abil_cmd_index" v; do s <- get (cast as_i8) "m_state" v;
  Ok (GTriggerTargetModeUpdate l "" i s).
Definition key_from (v : val) : outcome game_event :=
  do k <- get (cast as_i8) "m_key" v; do f <- get (cast as_i8) "m_flags" v; Ok (GTriggerKeyPressed k f).
Definition button_from (v : val) : outcome game_event :=
  do b <- get (cast as_u16) "m_button" v; Ok (GTriggerButtonPressed b).
(** Model of src/versions/protocol87702/events/game/mouse.rs:6-35. *)
Definition mouse_click_from (v : val) : outcome game_event :=
  do b <- get (cast as_u32) "m_button" v;
  do d <- get to_bool "m_down" v;
  do u <- get ui_coord_from "m_pos_ui" v;
  do w <- get coord3_from "m_pos_world" v;
  do f <- get (cast as_i8) "m_flags" v;
  Ok (GTriggerMouseClicked b d u w f).
Definition mouse_move_from (v : val) : outcome game_event :=
  do u <- get ui_coord_from "m_pos_ui" v;
  do w <- get coord3_from "m_pos_world" v;
  do f <- get (cast as_i8) "m_flags" v;
  Ok (GTriggerMouseMoved u w f).
Definition mouse_wheel_from (v : val) : outcome game_event :=
  do s <- get (cast as_i16) "m_wheel_spin" v; do f <- get (cast as_i8) "m_flags" v; Ok (GTriggerMouseWheel s f).
(** Model of src/versions/protocol87702/events/game/cmd.rs:61-99. *)
Definition target_point_from (v : val) : outcome game_event := do c <- get coord3_from "m_target" v; Ok (GCmdUpdateTargetPoint c).
Definition target_unit_event_from (v : val) : outcome game_event :=
  do t <- get target_unit_from "m_target" v; Ok (GCmdUpdateTargetUnit t).
Definition manager_state_from (v : val) : outcome game_event :=
  do s <- get to_enum "m_state" v; do q <- get (to_opt to_int) "m_sequence" v; Ok (GCommandManagerState s q).

(** Model of src/versions/protocol87702/events/game/mod.rs:88-117
    [TryFrom<GameEEventId> for ReplayGameEvent]; the list of
    src/versions/protocol75689/mod.rs:1254-1282 is the same. *)
Definition game_conversions : list (string * (val -> outcome game_event)) := [
  ("EDropUser", drop_user_from); ("ECameraSave", camera_save_from); ("ECmd", cmd_from);
  ("ESelectionDelta", selection_delta_from); ("EControlGroupUpdate", control_group_from);
  ("ESelectionSyncCheck", sync_check_from); ("ETriggerChatMessage", chat_from); ("EUnitClick", unit_click_from);
  ("EUnitHighlight", unit_highlight_from); ("ETriggerReplySelected", reply_from); ("ECameraUpdate", camera_update_from);
  ("ETriggerMouseClicked", mouse_click_from); ("ETriggerMouseMoved", mouse_move_from); ("ETriggerHotkeyPressed", hotkey_from);
  ("ETriggerTargetModeUpdate", target_mode_from); ("ETriggerKeyPressed", key_from); ("ETriggerMouseWheel", mouse_wheel_from);
  ("ETriggerButtonPressed", button_from); ("ECommandManagerState", manager_state_from);
  ("ECmdUpdateTargetPoint", target_point_from); ("ECmdUpdateTargetUnit", target_unit_event_from)].
Definition game_from (v : val) : outcome game_event :=
  match v with
  | VChoice s w =>
      match find (fun x => String.eqb (fst x) s) game_conversions with
      | Some (_, f) => f w
      | None => Err EUnsupported
      end
  | _ => shape
  end.
