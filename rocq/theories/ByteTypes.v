(* Generated by tools/extract_proto.py from /repo; do not edit. *)
(** * Descriptors of the byte-aligned types of protocol 87702

    Protocol 75689 re-exports all of them (src/versions/protocol75689/mod.rs:2-30). *)
From Verif Require Import Base Types.
#[local] Open Scope string_scope.
#[local] Open Scope Z_scope.

(** Model of src/versions/protocol87702/mod.rs:17-47 [SVarUint32::parse] and its field parsers. *)
Definition ba_SVarUint32 : vty :=
  TChoice CHOICE_TAG [(0, "MUint6", TInt IU8);
    (1, "MUint14", TInt IU32);
    (2, "MUint22", TInt IU32);
    (3, "MUint32", TInt IU32)].

(** Model of src/versions/protocol87702/mod.rs:58-80 [EObserve::parse] and its field parsers. *)
Definition ba_EObserve : vty :=
  TEnum [(0, "ENone"); (1, "ESpectator"); (2, "EReferee")].

(** Model of src/versions/protocol87702/mod.rs:94-243 [SVersion::parse] and its field parsers. *)
Definition ba_SVersion : vty :=
  TStruct [
    mkfld "m_flags" 0 0 InitNone FinReq (TInt IU8);
    mkfld "m_major" 1 1 InitNone FinReq (TInt IU8);
    mkfld "m_minor" 2 2 InitNone FinReq (TInt IU8);
    mkfld "m_revision" 3 3 InitNone FinReq (TInt IU8);
    mkfld "m_build" 4 4 InitNone FinReq (TInt IU32);
    mkfld "m_base_build" 5 5 InitNone FinReq (TInt IU32)].

(** Model of src/versions/protocol87702/mod.rs:253-338 [Smd5::parse] and its field parsers. *)
Definition ba_Smd5 : vty :=
  TStruct [
    mkfld "m_data_deprecated" 0 0 InitSomeNone FinReq (TOpt (TArray (TInt IU8)));
    mkfld "m_data" 1 1 InitNone FinReq TBlob].

(** Model of src/versions/protocol87702/mod.rs:351-381 [GameEGameSpeed::parse] and its field parsers. *)
Definition ba_GameEGameSpeed : vty :=
  TEnum [(0, "ESlower"); (1, "ESlow"); (2, "ENormal"); (3, "EFast"); (4, "EFaster")].

(** Model of src/versions/protocol87702/mod.rs:390-430 [GameSThumbnail::parse] and its field parsers. *)
Definition ba_GameSThumbnail : vty :=
  TStruct [
    mkfld "m_file" 0 0 InitNone FinReq TBlob].

(** Model of src/versions/protocol87702/mod.rs:442-545 [GameSColor::parse] and its field parsers. *)
Definition ba_GameSColor : vty :=
  TStruct [
    mkfld "m_a" 0 0 InitNone FinReq (TInt IU8);
    mkfld "m_r" 1 1 InitNone FinReq (TInt IU8);
    mkfld "m_g" 2 2 InitNone FinReq (TInt IU8);
    mkfld "m_b" 3 3 InitNone FinReq (TInt IU8)].

(** Model of src/versions/protocol87702/mod.rs:557-583 [GameEResultDetails::parse] and its field parsers. *)
Definition ba_GameEResultDetails : vty :=
  TEnum [(0, "EUndecided"); (1, "EWin"); (2, "ELoss"); (3, "ETie")].

(** Model of src/versions/protocol87702/mod.rs:596-723 [GameSToonNameDetails::parse] and its field parsers. *)
Definition ba_GameSToonNameDetails : vty :=
  TStruct [
    mkfld "m_region" 0 0 InitNone FinReq (TInt IU8);
    mkfld "m_program_id" 1 1 InitNone FinReq TFourcc;
    mkfld "m_realm" 2 2 InitNone FinReq (TInt IU32);
    mkfld "m_name" 3 3 InitNone (FinDefault (VBytes [])) TBlob;
    mkfld "m_id" 4 4 InitNone FinReq (TInt IU64)].

(** Model of src/versions/protocol87702/mod.rs:742-1016 [GameSPlayerDetails::parse] and its field parsers. *)
Definition ba_GameSPlayerDetails : vty :=
  TStruct [
    mkfld "m_name" 0 0 InitNone FinReq TBlob;
    mkfld "m_toon" 1 1 InitNone FinReq ba_GameSToonNameDetails;
    mkfld "m_race" 2 2 InitNone FinReq TBlob;
    mkfld "m_color" 3 3 InitNone FinReq ba_GameSColor;
    mkfld "m_control" 4 4 InitNone FinReq (TInt IU8);
    mkfld "m_team_id" 5 5 InitNone FinReq (TInt IU8);
    mkfld "m_handicap" 6 6 InitNone FinReq (TInt IU32);
    mkfld "m_observe" 7 7 InitNone FinReq ba_EObserve;
    mkfld "m_result" 8 8 InitNone FinReq ba_GameEResultDetails;
    mkfld "m_working_set_slot_id" 9 9 InitSomeNone FinReq (TOpt (TInt IU8));
    mkfld "m_hero" 10 10 InitNone FinReq TBlob].

(** Model of src/versions/protocol87702/mod.rs:1025-1041 [GameCPlayerDetailsArray::parse] and its field parsers. *)
Definition ba_GameCPlayerDetailsArray : vty :=
  TArray ba_GameSPlayerDetails.

(** Model of src/versions/protocol87702/mod.rs:1067-1618 [GameSDetails::parse] and its field parsers. *)
Definition ba_GameSDetails : vty :=
  TStruct [
    mkfld "m_player_list" 0 0 InitSomeNone FinReq (TOpt (TArray ba_GameSPlayerDetails));
    mkfld "m_title" 1 1 InitNone FinReq TBlob;
    mkfld "m_difficulty" 2 2 InitNone FinReq TBlob;
    mkfld "m_thumbnail" 3 3 InitNone FinReq ba_GameSThumbnail;
    mkfld "m_is_blizzard_map" 4 4 InitNone FinReq TBool;
    mkfld "m_time_utc" 5 5 InitNone FinReq (TInt II64);
    mkfld "m_time_local_offset" 6 6 InitNone FinReq (TInt II64);
    mkfld "m_restart_as_transition_map" 16 16 InitSomeNone FinReq (TOpt TBool);
    mkfld "m_disable_recover_game" 17 17 InitNone FinReq TBool;
    mkfld "m_description" 7 7 InitNone FinReq TBlob;
    mkfld "m_image_file_path" 8 8 InitNone FinReq TBlob;
    mkfld "m_campaign_index" 15 15 InitNone FinReq (TInt IU8);
    mkfld "m_map_file_name" 9 9 InitNone FinReq TBlob;
    mkfld "m_cache_handles" 10 10 InitSomeNone FinReq (TOpt (TArray TBlob));
    mkfld "m_mini_save" 11 11 InitNone FinReq TBool;
    mkfld "m_game_speed" 12 12 InitNone FinReq ba_GameEGameSpeed;
    mkfld "m_default_difficulty" 13 13 InitNone FinReq (TInt IU32);
    mkfld "m_mod_paths" 14 14 InitSomeNone FinReq (TOpt (TArray TBlob))].

(** Model of src/versions/protocol87702/mod.rs:1635-1899 [ReplaySHeader::parse] and its field parsers. *)
Definition ba_ReplaySHeader : vty :=
  TStruct [
    mkfld "m_signature" 0 0 InitNone FinReq TBlob;
    mkfld "m_version" 1 1 InitNone FinReq ba_SVersion;
    mkfld "m_type" 2 2 InitNone FinReq (TInt IU8);
    mkfld "m_elapsed_game_loops" 3 3 InitNone FinReq (TInt IU32);
    mkfld "m_use_scaled_time" 4 4 InitNone FinReq TBool;
    mkfld "m_ngdp_root_key" 5 5 InitNone FinReq ba_Smd5;
    mkfld "m_data_build_num" 6 6 InitNone FinReq (TInt IU32);
    mkfld "m_replay_compatibility_hash" 7 7 InitNone FinReq ba_Smd5;
    mkfld "m_ngdp_root_key_is_dev_data" 8 8 InitNone FinReq TBool].

(** Model of src/versions/protocol87702/mod.rs:2034-3542 [ReplayTrackerSPlayerStats::parse] and its field parsers. *)
Definition ba_ReplayTrackerSPlayerStats : vty :=
  TStruct [
    mkfld "m_score_value_minerals_current" 0 0 InitNone FinReq (TInt II32);
    mkfld "m_score_value_vespene_current" 1 1 InitNone FinReq (TInt II32);
    mkfld "m_score_value_minerals_collection_rate" 2 2 InitNone FinReq (TInt II32);
    mkfld "m_score_value_vespene_collection_rate" 3 3 InitNone FinReq (TInt II32);
    mkfld "m_score_value_workers_active_count" 4 4 InitNone FinReq (TInt II32);
    mkfld "m_score_value_minerals_used_in_progress_army" 5 5 InitNone FinReq (TInt II32);
    mkfld "m_score_value_minerals_used_in_progress_economy" 6 6 InitNone FinReq (TInt II32);
    mkfld "m_score_value_minerals_used_in_progress_technology" 7 7 InitNone FinReq (TInt II32);
    mkfld "m_score_value_vespene_used_in_progress_army" 8 8 InitNone FinReq (TInt II32);
    mkfld "m_score_value_vespene_used_in_progress_economy" 9 9 InitNone FinReq (TInt II32);
    mkfld "m_score_value_vespene_used_in_progress_technology" 10 10 InitNone FinReq (TInt II32);
    mkfld "m_score_value_minerals_used_current_army" 11 11 InitNone FinReq (TInt II32);
    mkfld "m_score_value_minerals_used_current_economy" 12 12 InitNone FinReq (TInt II32);
    mkfld "m_score_value_minerals_used_current_technology" 13 13 InitNone FinReq (TInt II32);
    mkfld "m_score_value_vespene_used_current_army" 14 14 InitNone FinReq (TInt II32);
    mkfld "m_score_value_vespene_used_current_economy" 15 15 InitNone FinReq (TInt II32);
    mkfld "m_score_value_vespene_used_current_technology" 16 16 InitNone FinReq (TInt II32);
    mkfld "m_score_value_minerals_lost_army" 17 17 InitNone FinReq (TInt II32);
    mkfld "m_score_value_minerals_lost_economy" 18 18 InitNone FinReq (TInt II32);
    mkfld "m_score_value_minerals_lost_technology" 19 19 InitNone FinReq (TInt II32);
    mkfld "m_score_value_vespene_lost_army" 20 20 InitNone FinReq (TInt II32);
    mkfld "m_score_value_vespene_lost_economy" 21 21 InitNone FinReq (TInt II32);
    mkfld "m_score_value_vespene_lost_technology" 22 22 InitNone FinReq (TInt II32);
    mkfld "m_score_value_minerals_killed_army" 23 23 InitNone FinReq (TInt II32);
    mkfld "m_score_value_minerals_killed_economy" 24 24 InitNone FinReq (TInt II32);
    mkfld "m_score_value_minerals_killed_technology" 25 25 InitNone FinReq (TInt II32);
    mkfld "m_score_value_vespene_killed_army" 26 26 InitNone FinReq (TInt II32);
    mkfld "m_score_value_vespene_killed_economy" 27 27 InitNone FinReq (TInt II32);
    mkfld "m_score_value_vespene_killed_technology" 28 28 InitNone FinReq (TInt II32);
    mkfld "m_score_value_food_used" 29 29 InitNone FinReq (TInt II32);
    mkfld "m_score_value_food_made" 30 30 InitNone FinReq (TInt II32);
    mkfld "m_score_value_minerals_used_active_forces" 31 31 InitNone FinReq (TInt II32);
    mkfld "m_score_value_vespene_used_active_forces" 32 32 InitNone FinReq (TInt II32);
    mkfld "m_score_value_minerals_friendly_fire_army" 33 33 InitNone FinReq (TInt II32);
    mkfld "m_score_value_minerals_friendly_fire_economy" 34 34 InitNone FinReq (TInt II32);
    mkfld "m_score_value_minerals_friendly_fire_technology" 35 35 InitNone FinReq (TInt II32);
    mkfld "m_score_value_vespene_friendly_fire_army" 36 36 InitNone FinReq (TInt II32);
    mkfld "m_score_value_vespene_friendly_fire_economy" 37 37 InitNone FinReq (TInt II32);
    mkfld "m_score_value_vespene_friendly_fire_technology" 38 38 InitNone FinReq (TInt II32)].

(** Model of src/versions/protocol87702/mod.rs:3552-3616 [ReplayTrackerSPlayerStatsEvent::parse] and its field parsers. *)
Definition ba_ReplayTrackerSPlayerStatsEvent : vty :=
  TStruct [
    mkfld "m_player_id" 0 0 InitNone FinReq (TInt IU8);
    mkfld "m_stats" 1 1 InitNone FinReq ba_ReplayTrackerSPlayerStats].

(** Model of src/versions/protocol87702/mod.rs:3634-3943 [ReplayTrackerSUnitBornEvent::parse] and its field parsers. *)
Definition ba_ReplayTrackerSUnitBornEvent : vty :=
  TStruct [
    mkfld "m_unit_tag_index" 0 8 InitNone FinReq (TInt IU32);
    mkfld "m_unit_tag_recycle" 1 8 InitNone FinReq (TInt IU32);
    mkfld "m_unit_type_name" 2 8 InitNone FinReq TBlob;
    mkfld "m_control_player_id" 3 8 InitNone FinReq (TInt IU8);
    mkfld "m_upkeep_player_id" 4 8 InitNone FinReq (TInt IU8);
    mkfld "m_x" 5 8 InitNone FinReq (TInt IU8);
    mkfld "m_y" 6 8 InitNone FinReq (TInt IU8);
    mkfld "m_creator_unit_tag_index" 7 8 InitSomeNone FinReq (TOpt (TInt IU32));
    mkfld "m_creator_unit_tag_recycle" 8 8 InitSomeNone FinReq (TOpt (TInt IU32));
    mkfld "m_creator_ability_name" 9 8 InitSomeNone FinReq (TOpt TBlob)].

(** Model of src/versions/protocol87702/mod.rs:3958-4180 [ReplayTrackerSUnitDiedEvent::parse] and its field parsers. *)
Definition ba_ReplayTrackerSUnitDiedEvent : vty :=
  TStruct [
    mkfld "m_unit_tag_index" 0 8 InitNone FinReq (TInt IU32);
    mkfld "m_unit_tag_recycle" 1 8 InitNone FinReq (TInt IU32);
    mkfld "m_killer_player_id" 2 8 InitSomeNone FinReq (TOpt (TInt IU8));
    mkfld "m_x" 3 8 InitNone FinReq (TInt IU8);
    mkfld "m_y" 4 8 InitNone FinReq (TInt IU8);
    mkfld "m_killer_unit_tag_index" 5 8 InitSomeNone FinReq (TOpt (TInt IU32));
    mkfld "m_killer_unit_tag_recycle" 6 8 InitSomeNone FinReq (TOpt (TInt IU32))].

(** Model of src/versions/protocol87702/mod.rs:4192-4319 [ReplayTrackerSUnitOwnerChangeEvent::parse] and its field parsers. *)
Definition ba_ReplayTrackerSUnitOwnerChangeEvent : vty :=
  TStruct [
    mkfld "m_unit_tag_index" 0 8 InitNone FinReq (TInt IU32);
    mkfld "m_unit_tag_recycle" 1 8 InitNone FinReq (TInt IU32);
    mkfld "m_control_player_id" 2 2 InitNone FinReq (TInt IU8);
    mkfld "m_upkeep_player_id" 3 3 InitNone FinReq (TInt IU8)].

(** Model of src/versions/protocol87702/mod.rs:4330-4430 [ReplayTrackerSUnitTypeChangeEvent::parse] and its field parsers. *)
Definition ba_ReplayTrackerSUnitTypeChangeEvent : vty :=
  TStruct [
    mkfld "m_unit_tag_index" 0 0 InitNone FinReq (TInt IU32);
    mkfld "m_unit_tag_recycle" 1 1 InitNone FinReq (TInt IU32);
    mkfld "m_unit_type_name" 2 2 InitNone FinReq TBlob].

(** Model of src/versions/protocol87702/mod.rs:4441-4535 [ReplayTrackerSUpgradeEvent::parse] and its field parsers. *)
Definition ba_ReplayTrackerSUpgradeEvent : vty :=
  TStruct [
    mkfld "m_player_id" 0 0 InitNone FinReq (TInt IU8);
    mkfld "m_upgrade_type_name" 1 1 InitNone FinReq TBlob;
    mkfld "m_count" 2 2 InitNone FinReq (TInt II32)].

(** Model of src/versions/protocol87702/mod.rs:4550-4746 [ReplayTrackerSUnitInitEvent::parse] and its field parsers. *)
Definition ba_ReplayTrackerSUnitInitEvent : vty :=
  TStruct [
    mkfld "m_unit_tag_index" 0 0 InitNone FinReq (TInt IU32);
    mkfld "m_unit_tag_recycle" 1 1 InitNone FinReq (TInt IU32);
    mkfld "m_unit_type_name" 2 2 InitNone FinReq TBlob;
    mkfld "m_control_player_id" 3 3 InitNone FinReq (TInt IU8);
    mkfld "m_upkeep_player_id" 4 4 InitNone FinReq (TInt IU8);
    mkfld "m_x" 5 5 InitNone FinReq (TInt IU8);
    mkfld "m_y" 6 6 InitNone FinReq (TInt IU8)].

(** Model of src/versions/protocol87702/mod.rs:4756-4829 [ReplayTrackerSUnitDoneEvent::parse] and its field parsers. *)
Definition ba_ReplayTrackerSUnitDoneEvent : vty :=
  TStruct [
    mkfld "m_unit_tag_index" 0 0 InitNone FinReq (TInt IU32);
    mkfld "m_unit_tag_recycle" 1 1 InitNone FinReq (TInt IU32)].

(** Model of src/versions/protocol87702/mod.rs:4839-4917 [ReplayTrackerSUnitPositionsEvent::parse] and its field parsers. *)
Definition ba_ReplayTrackerSUnitPositionsEvent : vty :=
  TStruct [
    mkfld "m_first_unit_index" 0 0 InitNone FinReq (TInt IU32);
    mkfld "m_items" 1 1 InitNone FinReq (TArray (TInt II32))].

(** Model of src/versions/protocol87702/mod.rs:4929-5053 [ReplayTrackerSPlayerSetupEvent::parse] and its field parsers. *)
Definition ba_ReplayTrackerSPlayerSetupEvent : vty :=
  TStruct [
    mkfld "m_player_id" 0 0 InitNone FinReq (TInt IU8);
    mkfld "m_type" 1 1 InitNone FinReq (TInt IU32);
    mkfld "m_user_id" 2 2 InitSomeNone FinReq (TOpt (TInt IU32));
    mkfld "m_slot_id" 3 3 InitSomeNone FinReq (TOpt (TInt IU32))].

(** Model of src/versions/protocol87702/mod.rs:1917-1987 [ReplayTrackerEEventId::parse] and its field parsers. *)
Definition ba_ReplayTrackerEEventId : vty :=
  TChoice INT_TAG [(0, "EPlayerStats", ba_ReplayTrackerSPlayerStatsEvent);
    (1, "EUnitBorn", ba_ReplayTrackerSUnitBornEvent);
    (2, "EUnitDied", ba_ReplayTrackerSUnitDiedEvent);
    (3, "EUnitOwnerChange", ba_ReplayTrackerSUnitOwnerChangeEvent);
    (4, "EUnitTypeChange", ba_ReplayTrackerSUnitTypeChangeEvent);
    (5, "EUpgrade", ba_ReplayTrackerSUpgradeEvent);
    (6, "EUnitInit", ba_ReplayTrackerSUnitInitEvent);
    (7, "EUnitDone", ba_ReplayTrackerSUnitDoneEvent);
    (8, "EUnitPosition", ba_ReplayTrackerSUnitPositionsEvent);
    (9, "EPlayerSetup", ba_ReplayTrackerSPlayerSetupEvent)].

(** All of them, with their names. *)
Definition ba_all : list (string * vty) := [
  ("SVarUint32", ba_SVarUint32);
  ("EObserve", ba_EObserve);
  ("SVersion", ba_SVersion);
  ("Smd5", ba_Smd5);
  ("GameEGameSpeed", ba_GameEGameSpeed);
  ("GameSThumbnail", ba_GameSThumbnail);
  ("GameSColor", ba_GameSColor);
  ("GameEResultDetails", ba_GameEResultDetails);
  ("GameSToonNameDetails", ba_GameSToonNameDetails);
  ("GameSPlayerDetails", ba_GameSPlayerDetails);
  ("GameCPlayerDetailsArray", ba_GameCPlayerDetailsArray);
  ("GameSDetails", ba_GameSDetails);
  ("ReplaySHeader", ba_ReplaySHeader);
  ("ReplayTrackerSPlayerStats", ba_ReplayTrackerSPlayerStats);
  ("ReplayTrackerSPlayerStatsEvent", ba_ReplayTrackerSPlayerStatsEvent);
  ("ReplayTrackerSUnitBornEvent", ba_ReplayTrackerSUnitBornEvent);
  ("ReplayTrackerSUnitDiedEvent", ba_ReplayTrackerSUnitDiedEvent);
  ("ReplayTrackerSUnitOwnerChangeEvent", ba_ReplayTrackerSUnitOwnerChangeEvent);
  ("ReplayTrackerSUnitTypeChangeEvent", ba_ReplayTrackerSUnitTypeChangeEvent);
  ("ReplayTrackerSUpgradeEvent", ba_ReplayTrackerSUpgradeEvent);
  ("ReplayTrackerSUnitInitEvent", ba_ReplayTrackerSUnitInitEvent);
  ("ReplayTrackerSUnitDoneEvent", ba_ReplayTrackerSUnitDoneEvent);
  ("ReplayTrackerSUnitPositionsEvent", ba_ReplayTrackerSUnitPositionsEvent);
  ("ReplayTrackerSPlayerSetupEvent", ba_ReplayTrackerSPlayerSetupEvent);
  ("ReplayTrackerEEventId", ba_ReplayTrackerEEventId)].
