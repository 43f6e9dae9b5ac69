(** * The protocol-agnostic events

    Rust structs as records; machine integers as [Z], strings as bytes.  The
    serde and arrow derives carry no behaviour modelled here. *)
From Verif Require Import Base.

(** ** Tracker events *)

(** Model of src/tracker_events/player_stats.rs:39-79 [PlayerStats]: the values
    with their field names. *)
Definition player_stats : Type := list (string * Z).
(** Model of src/tracker_events/player_stats.rs:15-18 [PlayerStatsEvent]. *)
Record player_stats_event := mk_player_stats { ps_player_id : Z; ps_stats : player_stats }.
(** Model of src/tracker_events/unit_born.rs:16-27 [UnitBornEvent]. *)
Record unit_born_event := mk_unit_born {
  ub_index : Z; ub_recycle : Z; ub_name : string; ub_control : Z; ub_upkeep : Z; ub_x : Z; ub_y : Z;
  ub_creator_index : option Z; ub_creator_recycle : option Z; ub_creator_ability : option string }.
(** Model of src/tracker_events/unit_died.rs:16-24 [UnitDiedEvent]. *)
Record unit_died_event := mk_unit_died {
  ud_index : Z; ud_recycle : Z; ud_killer_player : option Z; ud_x : Z; ud_y : Z;
  ud_killer_index : option Z; ud_killer_recycle : option Z }.
(** Model of src/tracker_events/unit_owner_change.rs:14-19 [UnitOwnerChangeEvent]. *)
Record unit_owner_event := mk_unit_owner { uo_index : Z; uo_recycle : Z; uo_control : Z; uo_upkeep : Z }.
(** Model of src/tracker_events/unit_type_change.rs:14-18 [UnitTypeChangeEvent]. *)
Record unit_type_event := mk_unit_type { ut_index : Z; ut_recycle : Z; ut_name : string }.
(** Model of src/tracker_events/player_upgrade.rs:14-19 [UpgradeEvent]. *)
Record upgrade_event := mk_upgrade { ug_player_id : Z; ug_player_name : option string; ug_name : string; ug_count : Z }.
(** Model of src/tracker_events/unit_init.rs:15-23 [UnitInitEvent]. *)
Record unit_init_event := mk_unit_init {
  ui_index : Z; ui_recycle : Z; ui_name : string; ui_control : Z; ui_upkeep : Z; ui_x : Z; ui_y : Z }.
(** Model of src/tracker_events/unit_done.rs:15-18 [UnitDoneEvent]. *)
Record unit_done_event := mk_unit_done { un_index : Z; un_recycle : Z }.
(** Model of src/tracker_events/unit_positions.rs:31-34 [UnitPositionsEvent]. *)
Record unit_positions_event := mk_unit_positions { up_first : Z; up_items : list Z }.
(** Model of src/tracker_events/player_setup.rs:14-19 [PlayerSetupEvent]. *)
Record player_setup_event := mk_player_setup { se_player_id : Z; se_type : Z; se_user_id : option Z; se_slot_id : option Z }.

(** Model of src/tracker_events/mod.rs:58-70 [ReplayTrackerEvent]. *)
Inductive tracker_event :=
| TPlayerStats (e : player_stats_event)
| TUnitBorn (e : unit_born_event)
| TUnitDied (e : unit_died_event)
| TUnitOwnerChange (e : unit_owner_event)
| TUnitTypeChange (e : unit_type_event)
| TUpgrade (e : upgrade_event)
| TUnitInit (e : unit_init_event)
| TUnitDone (e : unit_done_event)
| TUnitPosition (e : unit_positions_event)
| TPlayerSetup (e : player_setup_event).

(** ** Game events: src/game_events/mod.rs *)

(** [GameSPointMini]. *)
Record point_mini := mk_point { pm_x : Z; pm_y : Z }.
(** [GameSMapCoord3D]. *)
Record coord3 := mk_coord { co_x : Z; co_y : Z; co_z : Z }.
(** [GameSCmdDataTargetUnit]. *)
Record target_unit := mk_target {
  tu_flags : Z; tu_timer : Z; tu_tag : Z; tu_link : Z; tu_control : option Z; tu_upkeep : option Z; tu_point : coord3 }.
(** [GameSCmdData]. *)
Inductive cmd_data := CDNone | CDPoint (c : coord3) | CDUnit (t : target_unit) | CDData (z : Z).
(** [GameSCmdAbil]. *)
Record cmd_abil := mk_abil { ab_link : Z; ab_name : string; ab_index : Z; ab_data : option Z }.
(** [GameSCmdEvent]. *)
Record cmd_event := mk_cmd {
  cm_flags : Z; cm_abil : option cmd_abil; cm_data : cmd_data; cm_sequence : Z; cm_other : option Z; cm_group : option Z }.
(** [CameraUpdateEvent]. *)
Record camera_update_event := mk_camera_update {
  cu_target : option point_mini; cu_distance : option Z; cu_pitch : option Z; cu_yaw : option Z; cu_reason : option Z; cu_follow : bool }.
(** [CameraSaveEvent]. *)
Record camera_save_event := mk_camera_save { cs_which : Z; cs_target : point_mini }.
(** [GameSSelectionMask]. *)
Inductive sel_mask := SMNone | SMMask (l : list Z) | SMOne (l : list Z) | SMZero (l : list Z).
(** [GameSSelectionDeltaSubgroup]. *)
Record subgroup := mk_subgroup { sg_link : Z; sg_priority : Z; sg_intra : Z; sg_count : Z }.
(** [GameSSelectionDeltaEvent] with its [GameSSelectionDelta] inlined. *)
Record selection_delta_event := mk_selection {
  sd_group : Z; sd_subgroup_index : Z; sd_mask : sel_mask; sd_subgroups : list subgroup; sd_tags : list Z }.
(** [GameEControlGroupUpdate]. *)
Inductive group_update := GSet | GAppend | GRecall | GClear | GSetAndSteal | GAppendAndSteal.
(** [GameSControlGroupUpdateEvent]. *)
Record control_group_event := mk_control { cg_index : Z; cg_update : group_update; cg_mask : sel_mask }.
(** [GameSuiCoord]. *)
Record ui_coord := mk_ui { uc_x : Z; uc_y : Z }.

(** [ReplayGameEvent].  Structs used nowhere else are inlined as arguments, in
    declaration order. *)
Inductive game_event :=
| GDropUser (session_user : Z) (reason : string)
| GCameraSave (e : camera_save_event)
| GCmd (e : cmd_event)
| GSelectionDelta (e : selection_delta_event)
| GControlGroupUpdate (e : control_group_event)
| GSelectionSyncCheck (group count subgroup_count active_subgroup tags_checksum indices_checksum subgroups_checksum : Z)
| GTriggerChatMessage (message : string)
| GUnitClick (tag : Z)
| GUnitHighlight (tag flags : Z)
| GTriggerReplySelected (conversation reply : Z)
| GCameraUpdate (e : camera_update_event)
| GTriggerMouseClicked (button : Z) (down : bool) (ui : ui_coord) (world : coord3) (flags : Z)
| GTriggerMouseMoved (ui : ui_coord) (world : coord3) (flags : Z)
| GTriggerHotkeyPressed (hotkey : Z) (down : bool)
| GTriggerTargetModeUpdate (link : Z) (ability : string) (index state : Z)
| GTriggerKeyPressed (key flags : Z)
| GTriggerMouseWheel (spin flags : Z)
| GTriggerButtonPressed (button : Z)
| GCommandManagerState (state : string) (sequence : option Z)
| GCmdUpdateTargetPoint (target : coord3)
| GCmdUpdateTargetUnit (target : target_unit).
