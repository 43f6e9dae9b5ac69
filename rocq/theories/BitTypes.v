(* Generated by tools/extract_proto.py from /repo; do not edit. *)
(** * Descriptors of the bit-packed types of protocols 87702 and 75689

    A tuple struct with the single field [value] is identified with that field.  *)
From Verif Require Import Base Types.
#[local] Open Scope string_scope.
#[local] Open Scope Z_scope.

(** Model of src/versions/protocol87702/mod.rs:5066-5072 [CFilePath::parse] and its field parsers. *)
Definition bp_CFilePath : bty :=
  BBlob 11.

(** Model of src/versions/protocol87702/mod.rs:5081-5086 [TRaceId::parse] and its field parsers. *)
Definition bp_TRaceId : bty :=
  BInt (0) 8.

(** Model of src/versions/protocol87702/mod.rs:5095-5100 [TRaceCount::parse] and its field parsers. *)
Definition bp_TRaceCount : bty :=
  BInt (1) 8.

(** Model of src/versions/protocol87702/mod.rs:5109-5137 [TRacePreference::parse] and its field parsers. *)
Definition bp_TRacePreference : bty :=
  BStruct [
    ("m_race", (BOpt bp_TRaceId))].

(** Model of src/versions/protocol87702/mod.rs:5147-5153 [CAllowedRaces::parse] and its field parsers. *)
Definition bp_CAllowedRaces : bty :=
  BBitInt 8.

(** Model of src/versions/protocol87702/mod.rs:5162-5167 [Int8::parse] and its field parsers. *)
Definition bp_Int8 : bty :=
  BInt (-128) 8.

(** Model of src/versions/protocol87702/mod.rs:5176-5181 [Int16::parse] and its field parsers. *)
Definition bp_Int16 : bty :=
  BInt (-32768) 16.

(** Model of src/versions/protocol87702/mod.rs:5190-5195 [Int32::parse] and its field parsers. *)
Definition bp_Int32 : bty :=
  BInt (-2147483648) 32.

(** Model of src/versions/protocol87702/mod.rs:5204-5209 [Int64::parse] and its field parsers. *)
Definition bp_Int64 : bty :=
  BInt (-9223372036854775808) 64.

(** Model of src/versions/protocol87702/mod.rs:5218-5223 [Uint8::parse] and its field parsers. *)
Definition bp_Uint8 : bty :=
  BInt (0) 8.

(** Model of src/versions/protocol87702/mod.rs:5232-5237 [Uint16::parse] and its field parsers. *)
Definition bp_Uint16 : bty :=
  BInt (0) 16.

(** Model of src/versions/protocol87702/mod.rs:5246-5251 [Uint32::parse] and its field parsers. *)
Definition bp_Uint32 : bty :=
  BInt (0) 32.

(** Model of src/versions/protocol87702/mod.rs:5260-5265 [Uint64::parse] and its field parsers. *)
Definition bp_Uint64 : bty :=
  BInt (0) 64.

(** Model of src/versions/protocol87702/mod.rs:5274-5279 [Uint6::parse] and its field parsers. *)
Definition bp_Uint6 : bty :=
  BInt (0) 6.

(** Model of src/versions/protocol87702/mod.rs:5288-5293 [Uint14::parse] and its field parsers. *)
Definition bp_Uint14 : bty :=
  BInt (0) 14.

(** Model of src/versions/protocol87702/mod.rs:5302-5307 [Uint22::parse] and its field parsers. *)
Definition bp_Uint22 : bty :=
  BInt (0) 22.

(** Model of src/versions/protocol87702/mod.rs:5319-5354 [SVarUint32::parse] and its field parsers. *)
Definition bp_SVarUint32 : bty :=
  BChoice 2 [
    (0, "MUint6", bp_Uint6);
    (1, "MUint14", bp_Uint14);
    (2, "MUint22", bp_Uint22);
    (3, "MUint32", bp_Uint32)].

(** Model of src/versions/protocol87702/mod.rs:5363-5368 [TUserId::parse] and its field parsers. *)
Definition bp_TUserId : bty :=
  BInt (0) 4.

(** Model of src/versions/protocol87702/mod.rs:5377-5382 [TUserCount::parse] and its field parsers. *)
Definition bp_TUserCount : bty :=
  BInt (0) 5.

(** Model of src/versions/protocol87702/mod.rs:5391-5399 [CCacheHandle::parse] and its field parsers. *)
Definition bp_CCacheHandle : bty :=
  BFixedBlob 40.

(** Model of src/versions/protocol87702/mod.rs:5408-5414 [CUserName::parse] and its field parsers. *)
Definition bp_CUserName : bty :=
  BBlob 8.

(** Model of src/versions/protocol87702/mod.rs:5423-5429 [CClanTag::parse] and its field parsers. *)
Definition bp_CClanTag : bty :=
  BBlob 8.

(** Model of src/versions/protocol87702/mod.rs:5438-5444 [CHeroHandle::parse] and its field parsers. *)
Definition bp_CHeroHandle : bty :=
  BBlob 9.

(** Model of src/versions/protocol87702/mod.rs:5453-5459 [CSkinHandle::parse] and its field parsers. *)
Definition bp_CSkinHandle : bty :=
  BBlob 9.

(** Model of src/versions/protocol87702/mod.rs:5468-5474 [CMountHandle::parse] and its field parsers. *)
Definition bp_CMountHandle : bty :=
  BBlob 9.

(** Model of src/versions/protocol87702/mod.rs:5483-5489 [CArtifactHandle::parse] and its field parsers. *)
Definition bp_CArtifactHandle : bty :=
  BBlob 9.

(** Model of src/versions/protocol87702/mod.rs:5498-5504 [CToonHandle::parse] and its field parsers. *)
Definition bp_CToonHandle : bty :=
  BBlob 7.

(** Model of src/versions/protocol87702/mod.rs:5513-5519 [CCommanderHandle::parse] and its field parsers. *)
Definition bp_CCommanderHandle : bty :=
  BBlob 9.

(** Model of src/versions/protocol87702/mod.rs:5530-5553 [EObserve::parse] and its field parsers. *)
Definition bp_EObserve : bty :=
  BEnum 2 [(0, "ENone"); (1, "ESpectator"); (2, "EReferee")].

(** Model of src/versions/protocol87702/mod.rs:5563-5569 [CAllowedObserveTypes::parse] and its field parsers. *)
Definition bp_CAllowedObserveTypes : bty :=
  BBitInt 2.

(** Model of src/versions/protocol87702/mod.rs:5578-5604 [TTeamPreference::parse] and its field parsers. *)
Definition bp_TTeamPreference : bty :=
  BStruct [
    ("m_team", (BOpt bp_Uint8))].

(** Model of src/versions/protocol87702/mod.rs:5631-5934 [SUserInitialData::parse] and its field parsers. *)
Definition bp_SUserInitialData : bty :=
  BStruct [
    ("m_name", bp_CUserName);
    ("m_clan_tag", (BOpt bp_CClanTag));
    ("m_clan_logo", (BOpt bp_CCacheHandle));
    ("m_highest_league", (BOpt bp_Uint8));
    ("m_combined_race_levels", (BOpt bp_Uint32));
    ("m_random_seed", bp_Uint32);
    ("m_race_preference", bp_TRacePreference);
    ("m_team_preference", bp_TTeamPreference);
    ("m_test_map", BBool);
    ("m_test_auto", BBool);
    ("m_examine", BBool);
    ("m_custom_interface", BBool);
    ("m_test_type", bp_Uint32);
    ("m_observe", bp_EObserve);
    ("m_hero", bp_CHeroHandle);
    ("m_skin", bp_CSkinHandle);
    ("m_mount", bp_CMountHandle);
    ("m_toon_handle", bp_CToonHandle);
    ("m_scaled_rating", (BOpt bp_Int32))].

(** Model of src/versions/protocol87702/mod.rs:5943-5958 [CUserInitialDataArray::parse] and its field parsers. *)
Definition bp_CUserInitialDataArray : bty :=
  BArray 5 bp_SUserInitialData.

(** Model of src/versions/protocol87702/mod.rs:5982-6057 [ELeaveReason::parse] and its field parsers. *)
Definition bp_ELeaveReason : bty :=
  BEnum 4 [(0, "EUserLeft"); (1, "EUserDropped"); (2, "EUserBanned"); (3, "EUserVictory"); (4, "EUserDefeat"); (5, "EUserTied"); (6, "EUserDesynced"); (7, "EUserOutOfTime"); (8, "EWeWereUnresponsive"); (9, "EWeContinuedAlone"); (10, "EReplayDesynced"); (11, "EUserTimeout"); (12, "EUserDisconnected"); (13, "EUnrecoverable"); (14, "EUserCatchupDesynced"); (15, "ETakeCommandDropped")].

(** Model of src/versions/protocol87702/mod.rs:6069-6096 [EReconnectStatus::parse] and its field parsers. *)
Definition bp_EReconnectStatus : bty :=
  BEnum 2 [(0, "EConnected"); (1, "EReconnected"); (2, "EDisconnected"); (3, "EUnrecoverable")].

(** Model of src/versions/protocol87702/mod.rs:6110-6195 [SVersion::parse] and its field parsers. *)
Definition bp_SVersion : bty :=
  BStruct [
    ("m_flags", bp_Uint8);
    ("m_major", bp_Uint8);
    ("m_minor", bp_Uint8);
    ("m_revision", bp_Uint8);
    ("m_build", bp_Uint32);
    ("m_base_build", bp_Uint32)].

(** Model of src/versions/protocol87702/mod.rs:6205-6263 [Smd5::parse] and its field parsers. *)
Definition bp_Smd5 : bty :=
  BStruct [
    ("m_data_deprecated", (BOptReread (BArray 5 bp_Uint8)));
    ("m_data", (BArray 5 BByte))].

(** Model of src/versions/protocol87702/mod.rs:6272-6277 [GameTColorId::parse] and its field parsers. *)
Definition bp_GameTColorId : bty :=
  BInt (0) 5.

(** Model of src/versions/protocol87702/mod.rs:6286-6291 [GameTColorCount::parse] and its field parsers. *)
Definition bp_GameTColorCount : bty :=
  BInt (0) 6.

(** Model of src/versions/protocol87702/mod.rs:6300-6328 [GameTColorPreference::parse] and its field parsers. *)
Definition bp_GameTColorPreference : bty :=
  BStruct [
    ("m_color", (BOpt bp_GameTColorId))].

(** Model of src/versions/protocol87702/mod.rs:6338-6344 [GameCAllowedColors::parse] and its field parsers. *)
Definition bp_GameCAllowedColors : bty :=
  BBitInt 6.

(** Model of src/versions/protocol87702/mod.rs:15861-15866 [GameTLobbySlotId::parse] and its field parsers. *)
Definition bp_GameTLobbySlotId : bty :=
  BInt (0) 4.

(** Model of src/versions/protocol87702/mod.rs:15115-15120 [GameTControlId::parse] and its field parsers. *)
Definition bp_GameTControlId : bty :=
  BInt (0) 8.

(** Model of src/versions/protocol87702/mod.rs:18154-18159 [GameTTeamId::parse] and its field parsers. *)
Definition bp_GameTTeamId : bty :=
  BInt (0) 4.

(** Model of src/versions/protocol87702/mod.rs:13624-13629 [GameTDifficulty::parse] and its field parsers. *)
Definition bp_GameTDifficulty : bty :=
  BInt (0) 6.

(** Model of src/versions/protocol87702/mod.rs:13654-13659 [GameTaiBuild::parse] and its field parsers. *)
Definition bp_GameTaiBuild : bty :=
  BInt (0) 8.

(** Model of src/versions/protocol87702/mod.rs:13612-13615 [GameTHandicap::parse] and its field parsers. *)
Definition bp_GameTHandicap : bty :=
  bp_Uint32.

(** Model of src/versions/protocol87702/mod.rs:13220-13223 [GameTPlayerLogoIndex::parse] and its field parsers. *)
Definition bp_GameTPlayerLogoIndex : bty :=
  bp_Uint32.

(** Model of src/versions/protocol87702/mod.rs:16052-16055 [GameTLicense::parse] and its field parsers. *)
Definition bp_GameTLicense : bty :=
  bp_Uint32.

(** Model of src/versions/protocol87702/mod.rs:16064-16079 [GameCLicenseArray::parse] and its field parsers. *)
Definition bp_GameCLicenseArray : bty :=
  BArray 16 bp_GameTLicense.

(** Model of src/versions/protocol87702/mod.rs:15923-15938 [GameCRetryMutationIndexArray::parse] and its field parsers. *)
Definition bp_GameCRetryMutationIndexArray : bty :=
  BArray 3 bp_Uint32.

(** Model of src/versions/protocol87702/mod.rs:16747-16902 [GameSLobbySlotChange::parse] and its field parsers. *)
Definition bp_GameSLobbySlotChange : bty :=
  BChoice 5 [
    (0, "MControl", bp_GameTControlId);
    (1, "MUserId", BOpt bp_TUserId);
    (2, "MTeamId", bp_GameTTeamId);
    (3, "MColorPref", bp_GameTColorPreference);
    (4, "MRacePref", bp_TRacePreference);
    (5, "MDifficulty", bp_GameTDifficulty);
    (6, "MAiBuild", bp_GameTaiBuild);
    (7, "MHandicap", bp_GameTHandicap);
    (8, "MObserve", bp_EObserve);
    (9, "MLogoIndex", bp_GameTPlayerLogoIndex);
    (10, "MHero", bp_CHeroHandle);
    (11, "MSkin", bp_CSkinHandle);
    (12, "MMount", bp_CMountHandle);
    (13, "MLicenses", bp_GameCLicenseArray);
    (14, "MTandemLeaderId", BOpt bp_TUserId);
    (15, "MCommander", bp_CCommanderHandle);
    (16, "MCommanderLevel", bp_Uint32);
    (17, "MHasSilencePenalty", BBool);
    (18, "MTandemId", BOpt bp_TUserId);
    (19, "MCommanderMasteryLevel", bp_Uint32);
    (20, "MBrutalPlusDifficulty", bp_Uint32);
    (21, "MRetryMutationIndexes", bp_GameCRetryMutationIndexArray);
    (22, "MACEnemyRace", bp_Uint32);
    (23, "MACEnemyWaveType", bp_Uint32);
    (24, "MSelectedCommanderPrestige", bp_Uint32)].

(** Model of src/versions/protocol87702/mod.rs:7642-7679 [GameSSetLobbySlotEvent::parse] and its field parsers. *)
Definition bp_GameSSetLobbySlotEvent : bty :=
  BStruct [
    ("m_slot_id", bp_GameTLobbySlotId);
    ("m_slot_change", bp_GameSLobbySlotChange)].

(** Model of src/versions/protocol87702/mod.rs:7756-7783 [GameSBankFileEvent::parse] and its field parsers. *)
Definition bp_GameSBankFileEvent : bty :=
  BStruct [
    ("m_name", (BArray 7 BByte))].

(** Model of src/versions/protocol87702/mod.rs:6355-6382 [GameESynchronous::parse] and its field parsers. *)
Definition bp_GameESynchronous : bty :=
  BChoice 2 [
    (0, "ELocal", BUnit);
    (1, "ESession", bp_GameSSetLobbySlotEvent);
    (2, "EGame", bp_GameSBankFileEvent)].

(** Model of src/versions/protocol87702/mod.rs:7744-7747 [GameSDropOurselvesEvent::parse] and its field parsers. *)
Definition bp_GameSDropOurselvesEvent : bty :=
  BStruct [].

(** Model of src/versions/protocol87702/mod.rs:6392-6415 [GameESynthesized::parse] and its field parsers. *)
Definition bp_GameESynthesized : bty :=
  BChoice 1 [
    (0, "ESynthesized", bp_GameSDropOurselvesEvent);
    (1, "ENotSynthesized", bp_GameSSetLobbySlotEvent)].

(** Model of src/versions/protocol87702/mod.rs:8294-8316 [GameSPickMapTagEvent::parse] and its field parsers. *)
Definition bp_GameSPickMapTagEvent : bty :=
  BStruct [
    ("m_picked_map_tag", bp_Uint8)].

(** Model of src/versions/protocol87702/mod.rs:6425-6448 [GameEDebug::parse] and its field parsers. *)
Definition bp_GameEDebug : bty :=
  BChoice 1 [
    (0, "EDebug", bp_GameSPickMapTagEvent);
    (1, "ENotDebug", bp_GameSSetLobbySlotEvent)].

(** Model of src/versions/protocol87702/mod.rs:6458-6477 [GameEHijackMethod::parse] and its field parsers. *)
Definition bp_GameEHijackMethod : bty :=
  BEnum 1 [(0, "ERecover"); (1, "ETakeCommand")].

(** Model of src/versions/protocol87702/mod.rs:6486-6489 [GameTQueryId::parse] and its field parsers. *)
Definition bp_GameTQueryId : bty :=
  bp_Uint16.

(** Model of src/versions/protocol87702/mod.rs:7689-7727 [GameSDropUserEvent::parse] and its field parsers. *)
Definition bp_GameSDropUserEvent : bty :=
  BStruct [
    ("m_drop_session_user_id", bp_TUserId);
    ("m_reason", bp_ELeaveReason)].

(** Model of src/versions/protocol87702/mod.rs:7734-7737 [GameSStartGameEvent::parse] and its field parsers. *)
Definition bp_GameSStartGameEvent : bty :=
  BStruct [].

(** Model of src/versions/protocol87702/mod.rs:8323-8326 [GameSUserFinishedLoadingEvent::parse] and its field parsers. *)
Definition bp_GameSUserFinishedLoadingEvent : bty :=
  BStruct [].

(** Model of src/versions/protocol87702/mod.rs:8333-8336 [GameSUserFinishedLoadingSyncEvent::parse] and its field parsers. *)
Definition bp_GameSUserFinishedLoadingSyncEvent : bty :=
  BStruct [].

(** Model of src/versions/protocol87702/mod.rs:8345-8367 [GameSSetGameDurationEvent::parse] and its field parsers. *)
Definition bp_GameSSetGameDurationEvent : bty :=
  BStruct [
    ("m_game_duration", bp_Uint32)].

(** Model of src/versions/protocol87702/mod.rs:8037-8285 [GameSUserOptionsEvent::parse] and its field parsers. *)
Definition bp_GameSUserOptionsEvent : bty :=
  BStruct [
    ("m_game_fully_downloaded", BBool);
    ("m_development_cheats_enabled", BBool);
    ("m_test_cheats_enabled", BBool);
    ("m_multiplayer_cheats_enabled", BBool);
    ("m_sync_checksumming_enabled", BBool);
    ("m_is_map_to_map_transition", BBool);
    ("m_debug_pause_enabled", BBool);
    ("m_use_galaxy_asserts", BBool);
    ("m_platform_mac", BBool);
    ("m_camera_follow", BBool);
    ("m_base_build_num", bp_Uint32);
    ("m_build_num", bp_Uint32);
    ("m_version_flags", bp_Uint32);
    ("m_hotkey_profile", (BArray 7 BByte))].

(** Model of src/versions/protocol87702/mod.rs:8374-8377 [GameSTurnEvent::parse] and its field parsers. *)
Definition bp_GameSTurnEvent : bty :=
  BStruct [].

(** Model of src/versions/protocol87702/mod.rs:7792-7819 [GameSBankSectionEvent::parse] and its field parsers. *)
Definition bp_GameSBankSectionEvent : bty :=
  BStruct [
    ("m_name", (BArray 6 BByte))].

(** Model of src/versions/protocol87702/mod.rs:7830-7890 [GameSBankKeyEvent::parse] and its field parsers. *)
Definition bp_GameSBankKeyEvent : bty :=
  BStruct [
    ("m_name", (BArray 6 BByte));
    ("m_type", bp_Uint32);
    ("m_data", (BArray 5 BByte))].

(** Model of src/versions/protocol87702/mod.rs:7901-7961 [GameSBankValueEvent::parse] and its field parsers. *)
Definition bp_GameSBankValueEvent : bty :=
  BStruct [
    ("m_type", bp_Uint32);
    ("m_name", (BArray 6 BByte));
    ("m_data", (BArray 10 BByte))].

(** Model of src/versions/protocol87702/mod.rs:7971-8015 [GameSBankSignatureEvent::parse] and its field parsers. *)
Definition bp_GameSBankSignatureEvent : bty :=
  BStruct [
    ("m_signature", (BArray 5 bp_Uint8));
    ("m_toon_handle", bp_CToonHandle)].

(** Model of src/versions/protocol87702/mod.rs:13196-13199 [GameTFixedMiniBitsUnsigned::parse] and its field parsers. *)
Definition bp_GameTFixedMiniBitsUnsigned : bty :=
  bp_Uint16.

(** Model of src/versions/protocol87702/mod.rs:13415-13452 [GameSPointMini::parse] and its field parsers. *)
Definition bp_GameSPointMini : bty :=
  BStruct [
    ("x", bp_GameTFixedMiniBitsUnsigned);
    ("y", bp_GameTFixedMiniBitsUnsigned)].

(** Model of src/versions/protocol87702/mod.rs:8387-8422 [GameSCameraSaveEvent::parse] and its field parsers. *)
Definition bp_GameSCameraSaveEvent : bty :=
  BStruct [
    ("m_which", (BInt 0 3));
    ("m_target", bp_GameSPointMini)].

(** Model of src/versions/protocol87702/mod.rs:8431-8453 [GameSPauseGameEvent::parse] and its field parsers. *)
Definition bp_GameSPauseGameEvent : bty :=
  BStruct [
    ("m_pause_type_index", bp_Uint8)].

(** Model of src/versions/protocol87702/mod.rs:8462-8484 [GameSUnpauseGameEvent::parse] and its field parsers. *)
Definition bp_GameSUnpauseGameEvent : bty :=
  BStruct [
    ("m_pause_type_index", bp_Uint8)].

(** Model of src/versions/protocol87702/mod.rs:8491-8494 [GameSSingleStepGameEvent::parse] and its field parsers. *)
Definition bp_GameSSingleStepGameEvent : bty :=
  BStruct [].

(** Model of src/versions/protocol87702/mod.rs:12940-12971 [GameEGameSpeed::parse] and its field parsers. *)
Definition bp_GameEGameSpeed : bty :=
  BEnum 3 [(0, "ESlower"); (1, "ESlow"); (2, "ENormal"); (3, "EFast"); (4, "EFaster")].

(** Model of src/versions/protocol87702/mod.rs:8503-8525 [GameSSetGameSpeedEvent::parse] and its field parsers. *)
Definition bp_GameSSetGameSpeedEvent : bty :=
  BStruct [
    ("m_speed", bp_GameEGameSpeed)].

(** Model of src/versions/protocol87702/mod.rs:8534-8554 [GameSAddGameSpeedEvent::parse] and its field parsers. *)
Definition bp_GameSAddGameSpeedEvent : bty :=
  BStruct [
    ("m_delta", bp_Int8)].

(** Model of src/versions/protocol87702/mod.rs:8563-8594 [GameSReplayJumpEvent::parse] and its field parsers. *)
Definition bp_GameSReplayJumpEvent : bty :=
  BStruct [
    ("m_replay_jump_game_loop", (BOpt bp_Uint32))].

(** Model of src/versions/protocol87702/mod.rs:8607-8697 [GameSSaveGameEvent::parse] and its field parsers. *)
Definition bp_GameSSaveGameEvent : bty :=
  BStruct [
    ("m_file_name", bp_CFilePath);
    ("m_automatic", BBool);
    ("m_overwrite", BBool);
    ("m_name", (BArray 6 BByte));
    ("m_description", (BArray 9 BByte))].

(** Model of src/versions/protocol87702/mod.rs:8704-8707 [GameSSaveGameDoneEvent::parse] and its field parsers. *)
Definition bp_GameSSaveGameDoneEvent : bty :=
  BStruct [].

(** Model of src/versions/protocol87702/mod.rs:8714-8717 [GameSLoadGameDoneEvent::parse] and its field parsers. *)
Definition bp_GameSLoadGameDoneEvent : bty :=
  BStruct [].

(** Model of src/versions/protocol87702/mod.rs:13184-13187 [GameTFixedBits::parse] and its field parsers. *)
Definition bp_GameTFixedBits : bty :=
  bp_Int32.

(** Model of src/versions/protocol87702/mod.rs:13315-13348 [GameSPoint::parse] and its field parsers. *)
Definition bp_GameSPoint : bty :=
  BStruct [
    ("x", bp_GameTFixedBits);
    ("y", bp_GameTFixedBits)].

(** Model of src/versions/protocol87702/mod.rs:13058-13064 [GameCCheatString::parse] and its field parsers. *)
Definition bp_GameCCheatString : bty :=
  BBlob 11.

(** Model of src/versions/protocol87702/mod.rs:8729-8792 [GameSCheatEventData::parse] and its field parsers. *)
Definition bp_GameSCheatEventData : bty :=
  BStruct [
    ("m_point", bp_GameSPoint);
    ("m_time", bp_Int32);
    ("m_verb", bp_GameCCheatString);
    ("m_arguments", bp_GameCCheatString)].

(** Model of src/versions/protocol87702/mod.rs:8801-8823 [GameSSessionCheatEvent::parse] and its field parsers. *)
Definition bp_GameSSessionCheatEvent : bty :=
  BStruct [
    ("m_data", bp_GameSCheatEventData)].

(** Model of src/versions/protocol87702/mod.rs:8832-8852 [GameSCommandManagerResetEvent::parse] and its field parsers. *)
Definition bp_GameSCommandManagerResetEvent : bty :=
  BStruct [
    ("m_sequence", bp_Uint32)].

(** Model of src/versions/protocol87702/mod.rs:8861-8883 [GameSGameCheatEvent::parse] and its field parsers. *)
Definition bp_GameSGameCheatEvent : bty :=
  BStruct [
    ("m_data", bp_GameSCheatEventData)].

(** Model of src/versions/protocol87702/mod.rs:13172-13175 [GameTAbilLink::parse] and its field parsers. *)
Definition bp_GameTAbilLink : bty :=
  bp_Uint16.

(** Model of src/versions/protocol87702/mod.rs:7381-7437 [GameSCmdAbil::parse] and its field parsers. *)
Definition bp_GameSCmdAbil : bty :=
  BStruct [
    ("m_abil_link", bp_GameTAbilLink);
    ("m_abil_cmd_index", (BInt 0 5));
    ("m_abil_cmd_data", (BOpt bp_Uint8))].

(** Model of src/versions/protocol87702/mod.rs:13260-13265 [GameTMapCoordFixedBits::parse] and its field parsers. *)
Definition bp_GameTMapCoordFixedBits : bty :=
  BInt (0) 20.

(** Model of src/versions/protocol87702/mod.rs:13510-13560 [GameSMapCoord3D::parse] and its field parsers. *)
Definition bp_GameSMapCoord3D : bty :=
  BStruct [
    ("x", bp_GameTMapCoordFixedBits);
    ("y", bp_GameTMapCoordFixedBits);
    ("z", bp_GameTFixedBits)].

(** Model of src/versions/protocol87702/mod.rs:13136-13139 [GameTUnitTag::parse] and its field parsers. *)
Definition bp_GameTUnitTag : bty :=
  bp_Uint32.

(** Model of src/versions/protocol87702/mod.rs:13124-13127 [GameTUnitLink::parse] and its field parsers. *)
Definition bp_GameTUnitLink : bty :=
  bp_Uint16.

(** Model of src/versions/protocol87702/mod.rs:17443-17448 [GameTPlayerId::parse] and its field parsers. *)
Definition bp_GameTPlayerId : bty :=
  BInt (0) 4.

(** Model of src/versions/protocol87702/mod.rs:7452-7585 [GameSCmdDataTargetUnit::parse] and its field parsers. *)
Definition bp_GameSCmdDataTargetUnit : bty :=
  BStruct [
    ("m_target_unit_flags", bp_Uint16);
    ("m_timer", bp_Uint8);
    ("m_tag", bp_GameTUnitTag);
    ("m_snapshot_unit_link", bp_GameTUnitLink);
    ("m_snapshot_control_player_id", (BOpt bp_GameTPlayerId));
    ("m_snapshot_upkeep_player_id", (BOpt bp_GameTPlayerId));
    ("m_snapshot_point", bp_GameSMapCoord3D)].

(** Model of src/versions/protocol87702/mod.rs:7597-7632 [GameSCmdData::parse] and its field parsers. *)
Definition bp_GameSCmdData : bty :=
  BChoice 2 [
    (0, "None", BNull);
    (1, "TargetPoint", bp_GameSMapCoord3D);
    (2, "TargetUnit", bp_GameSCmdDataTargetUnit);
    (3, "Data", bp_Uint32)].

(** Model of src/versions/protocol87702/mod.rs:8897-9006 [GameSCmdEvent::parse] and its field parsers. *)
Definition bp_GameSCmdEvent : bty :=
  BStruct [
    ("m_cmd_flags", (BInt 0 27));
    ("m_abil", (BOpt bp_GameSCmdAbil));
    ("m_data", bp_GameSCmdData);
    ("m_sequence", (BInt 1 32));
    ("m_other_unit", (BOpt bp_GameTUnitTag));
    ("m_unit_group", (BOpt bp_Uint32))].

(** Model of src/versions/protocol87702/mod.rs:17657-17662 [GameTControlGroupId::parse] and its field parsers. *)
Definition bp_GameTControlGroupId : bty :=
  BInt (0) 4.

(** Model of src/versions/protocol87702/mod.rs:17615-17620 [GameTSubgroupIndex::parse] and its field parsers. *)
Definition bp_GameTSubgroupIndex : bty :=
  BInt (0) 9.

(** Model of src/versions/protocol87702/mod.rs:17777-17783 [GameSelectionMaskType::parse] and its field parsers. *)
Definition bp_GameSelectionMaskType : bty :=
  BBitArray 9.

(** Model of src/versions/protocol87702/mod.rs:17573-17578 [GameTSelectionIndex::parse] and its field parsers. *)
Definition bp_GameTSelectionIndex : bty :=
  BInt (0) 9.

(** Model of src/versions/protocol87702/mod.rs:17753-17768 [GameSelectionIndexArrayType::parse] and its field parsers. *)
Definition bp_GameSelectionIndexArrayType : bty :=
  BArray 9 bp_GameTSelectionIndex.

(** Model of src/versions/protocol87702/mod.rs:17795-17830 [GameSSelectionMask::parse] and its field parsers. *)
Definition bp_GameSSelectionMask : bty :=
  BChoice 2 [
    (0, "None", BNull);
    (1, "Mask", bp_GameSelectionMaskType);
    (2, "OneIndices", bp_GameSelectionIndexArrayType);
    (3, "ZeroIndices", bp_GameSelectionIndexArrayType)].

(** Model of src/versions/protocol87702/mod.rs:17587-17592 [GameTSubgroupPriority::parse] and its field parsers. *)
Definition bp_GameTSubgroupPriority : bty :=
  BInt (0) 8.

(** Model of src/versions/protocol87702/mod.rs:17559-17564 [GameTSelectionCount::parse] and its field parsers. *)
Definition bp_GameTSelectionCount : bty :=
  BInt (0) 9.

(** Model of src/versions/protocol87702/mod.rs:17674-17744 [GameSSelectionDeltaSubgroup::parse] and its field parsers. *)
Definition bp_GameSSelectionDeltaSubgroup : bty :=
  BStruct [
    ("m_unit_link", bp_GameTUnitLink);
    ("m_subgroup_priority", bp_GameTSubgroupPriority);
    ("m_intra_subgroup_priority", bp_GameTSubgroupPriority);
    ("m_count", bp_GameTSelectionCount)].

(** Model of src/versions/protocol87702/mod.rs:17842-17923 [GameSSelectionDelta::parse] and its field parsers. *)
Definition bp_GameSSelectionDelta : bty :=
  BStruct [
    ("m_subgroup_index", bp_GameTSubgroupIndex);
    ("m_remove_mask", bp_GameSSelectionMask);
    ("m_add_subgroups", (BArray 9 bp_GameSSelectionDeltaSubgroup));
    ("m_add_unit_tags", (BArray 9 bp_GameTUnitTag))].

(** Model of src/versions/protocol87702/mod.rs:9016-9053 [GameSSelectionDeltaEvent::parse] and its field parsers. *)
Definition bp_GameSSelectionDeltaEvent : bty :=
  BStruct [
    ("m_control_group_id", bp_GameTControlGroupId);
    ("m_delta", bp_GameSSelectionDelta)].

(** Model of src/versions/protocol87702/mod.rs:17643-17648 [GameTControlGroupIndex::parse] and its field parsers. *)
Definition bp_GameTControlGroupIndex : bty :=
  BInt (0) 4.

(** Model of src/versions/protocol87702/mod.rs:17515-17550 [GameEControlGroupUpdate::parse] and its field parsers. *)
Definition bp_GameEControlGroupUpdate : bty :=
  BEnum 3 [(0, "ESet"); (1, "EAppend"); (2, "ERecall"); (3, "EClear"); (4, "ESetAndSteal"); (5, "EAppendAndSteal")].

(** Model of src/versions/protocol87702/mod.rs:9064-9118 [GameSControlGroupUpdateEvent::parse] and its field parsers. *)
Definition bp_GameSControlGroupUpdateEvent : bty :=
  BStruct [
    ("m_control_group_index", bp_GameTControlGroupIndex);
    ("m_control_group_update", bp_GameEControlGroupUpdate);
    ("m_mask", bp_GameSSelectionMask)].

(** Model of src/versions/protocol87702/mod.rs:17601-17606 [GameTSubgroupCount::parse] and its field parsers. *)
Definition bp_GameTSubgroupCount : bty :=
  BInt (0) 9.

(** Model of src/versions/protocol87702/mod.rs:18054-18057 [GameTSyncChecksum::parse] and its field parsers. *)
Definition bp_GameTSyncChecksum : bty :=
  bp_Uint32.

(** Model of src/versions/protocol87702/mod.rs:17937-18045 [GameSSelectionSyncData::parse] and its field parsers. *)
Definition bp_GameSSelectionSyncData : bty :=
  BStruct [
    ("m_count", bp_GameTSelectionCount);
    ("m_subgroup_count", bp_GameTSubgroupCount);
    ("m_active_subgroup_index", bp_GameTSubgroupIndex);
    ("m_unit_tags_checksum", bp_GameTSyncChecksum);
    ("m_subgroup_indices_checksum", bp_GameTSyncChecksum);
    ("m_subgroups_checksum", bp_GameTSyncChecksum)].

(** Model of src/versions/protocol87702/mod.rs:9128-9166 [GameSSelectionSyncCheckEvent::parse] and its field parsers. *)
Definition bp_GameSSelectionSyncCheckEvent : bty :=
  BStruct [
    ("m_control_group_id", bp_GameTControlGroupId);
    ("m_selection_sync_data", bp_GameSSelectionSyncData)].

(** Model of src/versions/protocol87702/mod.rs:9176-9220 [GameSResourceTradeEvent::parse] and its field parsers. *)
Definition bp_GameSResourceTradeEvent : bty :=
  BStruct [
    ("m_recipient_id", bp_GameTPlayerId);
    ("m_resources", (BArray 3 bp_Int32))].

(** Model of src/versions/protocol87702/mod.rs:13073-13079 [GameCTriggerChatMessageString::parse] and its field parsers. *)
Definition bp_GameCTriggerChatMessageString : bty :=
  BBlob 11.

(** Model of src/versions/protocol87702/mod.rs:9229-9251 [GameSTriggerChatMessageEvent::parse] and its field parsers. *)
Definition bp_GameSTriggerChatMessageEvent : bty :=
  BStruct [
    ("m_chat_message", bp_GameCTriggerChatMessageString)].

(** Model of src/versions/protocol87702/mod.rs:13359-13405 [GameSPoint3::parse] and its field parsers. *)
Definition bp_GameSPoint3 : bty :=
  BStruct [
    ("x", bp_GameTFixedBits);
    ("y", bp_GameTFixedBits);
    ("z", bp_GameTFixedBits)].

(** Model of src/versions/protocol87702/mod.rs:9268-9422 [GameSaiCommunicateEvent::parse] and its field parsers. *)
Definition bp_GameSaiCommunicateEvent : bty :=
  BStruct [
    ("m_beacon", bp_Int8);
    ("m_ally", bp_Int8);
    ("m_flags", bp_Int8);
    ("m_build", bp_Int8);
    ("m_target_unit_tag", bp_GameTUnitTag);
    ("m_target_unit_snapshot_unit_link", bp_GameTUnitLink);
    ("m_target_unit_snapshot_upkeep_player_id", bp_Int8);
    ("m_target_unit_snapshot_control_player_id", bp_Int8);
    ("m_target_point", bp_GameSPoint3)].

(** Model of src/versions/protocol87702/mod.rs:9431-9453 [GameSSetAbsoluteGameSpeedEvent::parse] and its field parsers. *)
Definition bp_GameSSetAbsoluteGameSpeedEvent : bty :=
  BStruct [
    ("m_speed", bp_GameEGameSpeed)].

(** Model of src/versions/protocol87702/mod.rs:9462-9482 [GameSAddAbsoluteGameSpeedEvent::parse] and its field parsers. *)
Definition bp_GameSAddAbsoluteGameSpeedEvent : bty :=
  BStruct [
    ("m_delta", bp_Int8)].

(** Model of src/versions/protocol87702/mod.rs:9499-9659 [GameSTriggerPingEvent::parse] and its field parsers. *)
Definition bp_GameSTriggerPingEvent : bty :=
  BStruct [
    ("m_point", bp_GameSPoint);
    ("m_unit", bp_GameTUnitTag);
    ("m_unit_link", bp_GameTUnitLink);
    ("m_unit_control_player_id", (BOpt bp_GameTPlayerId));
    ("m_unit_upkeep_player_id", (BOpt bp_GameTPlayerId));
    ("m_unit_position", bp_GameSMapCoord3D);
    ("m_unit_is_under_construction", BBool);
    ("m_pinged_minimap", BBool);
    ("m_option", bp_Int32)].

(** Model of src/versions/protocol87702/mod.rs:9669-9706 [GameSBroadcastCheatEvent::parse] and its field parsers. *)
Definition bp_GameSBroadcastCheatEvent : bty :=
  BStruct [
    ("m_verb", bp_GameCCheatString);
    ("m_arguments", bp_GameCCheatString)].

(** Model of src/versions/protocol87702/mod.rs:9716-9749 [GameSAllianceEvent::parse] and its field parsers. *)
Definition bp_GameSAllianceEvent : bty :=
  BStruct [
    ("m_alliance", bp_Uint32);
    ("m_control", bp_Uint32)].

(** Model of src/versions/protocol87702/mod.rs:9758-9780 [GameSUnitClickEvent::parse] and its field parsers. *)
Definition bp_GameSUnitClickEvent : bty :=
  BStruct [
    ("m_unit_tag", bp_GameTUnitTag)].

(** Model of src/versions/protocol87702/mod.rs:9790-9825 [GameSUnitHighlightEvent::parse] and its field parsers. *)
Definition bp_GameSUnitHighlightEvent : bty :=
  BStruct [
    ("m_unit_tag", bp_GameTUnitTag);
    ("m_flags", bp_Uint8)].

(** Model of src/versions/protocol87702/mod.rs:9835-9870 [GameSTriggerReplySelectedEvent::parse] and its field parsers. *)
Definition bp_GameSTriggerReplySelectedEvent : bty :=
  BStruct [
    ("m_conversation_id", bp_Int32);
    ("m_reply_id", bp_Int32)].

(** Model of src/versions/protocol87702/mod.rs:9881-9933 [GameSHijackReplaySessionUserInfo::parse] and its field parsers. *)
Definition bp_GameSHijackReplaySessionUserInfo : bty :=
  BStruct [
    ("m_session_user_id", bp_TUserId);
    ("m_add_new_game_user", BBool);
    ("m_game_user_id", bp_TUserId)].

(** Model of src/versions/protocol87702/mod.rs:9943-9987 [GameSHijackReplaySessionEvent::parse] and its field parsers. *)
Definition bp_GameSHijackReplaySessionEvent : bty :=
  BStruct [
    ("m_user_infos", (BArray 5 bp_GameSHijackReplaySessionUserInfo));
    ("m_method", bp_GameEHijackMethod)].

(** Model of src/versions/protocol87702/mod.rs:15273-15281 [GameCCacheHandle::parse] and its field parsers. *)
Definition bp_GameCCacheHandle : bty :=
  BFixedBlob 40.

(** Model of src/versions/protocol87702/mod.rs:10001-10112 [GameSHijackReplayGameUserInfo::parse] and its field parsers. *)
Definition bp_GameSHijackReplayGameUserInfo : bty :=
  BStruct [
    ("m_game_user_id", bp_TUserId);
    ("m_observe", bp_EObserve);
    ("m_name", bp_CUserName);
    ("m_toon_handle", (BOpt bp_CToonHandle));
    ("m_clan_tag", (BOpt bp_CClanTag));
    ("m_clan_logo", (BOpt bp_GameCCacheHandle))].

(** Model of src/versions/protocol87702/mod.rs:10122-10166 [GameSHijackReplayGameEvent::parse] and its field parsers. *)
Definition bp_GameSHijackReplayGameEvent : bty :=
  BStruct [
    ("m_user_infos", (BArray 5 bp_GameSHijackReplayGameUserInfo));
    ("m_method", bp_GameEHijackMethod)].

(** Model of src/versions/protocol87702/mod.rs:10383-10386 [GameSTriggerSkippedEvent::parse] and its field parsers. *)
Definition bp_GameSTriggerSkippedEvent : bty :=
  BStruct [].

(** Model of src/versions/protocol87702/mod.rs:10396-10429 [GameSTriggerSoundLengthQueryEvent::parse] and its field parsers. *)
Definition bp_GameSTriggerSoundLengthQueryEvent : bty :=
  BStruct [
    ("m_sound_hash", bp_Uint32);
    ("m_length", bp_Uint32)].

(** Model of src/versions/protocol87702/mod.rs:13160-13163 [GameTTriggerSoundTag::parse] and its field parsers. *)
Definition bp_GameTTriggerSoundTag : bty :=
  bp_Uint32.

(** Model of src/versions/protocol87702/mod.rs:10607-10629 [GameSTriggerSoundOffsetEvent::parse] and its field parsers. *)
Definition bp_GameSTriggerSoundOffsetEvent : bty :=
  BStruct [
    ("m_sound", bp_GameTTriggerSoundTag)].

(** Model of src/versions/protocol87702/mod.rs:13148-13151 [GameTTriggerThreadTag::parse] and its field parsers. *)
Definition bp_GameTTriggerThreadTag : bty :=
  bp_Uint32.

(** Model of src/versions/protocol87702/mod.rs:10639-10676 [GameSTriggerTransmissionOffsetEvent::parse] and its field parsers. *)
Definition bp_GameSTriggerTransmissionOffsetEvent : bty :=
  BStruct [
    ("m_transmission_id", bp_Int32);
    ("m_thread", bp_GameTTriggerThreadTag)].

(** Model of src/versions/protocol87702/mod.rs:10685-10707 [GameSTriggerTransmissionCompleteEvent::parse] and its field parsers. *)
Definition bp_GameSTriggerTransmissionCompleteEvent : bty :=
  BStruct [
    ("m_transmission_id", bp_Int32)].

(** Model of src/versions/protocol87702/mod.rs:10721-10846 [GameSCameraUpdateEvent::parse] and its field parsers. *)
Definition bp_GameSCameraUpdateEvent : bty :=
  BStruct [
    ("m_target", (BOpt bp_GameSPointMini));
    ("m_distance", (BOpt bp_GameTFixedMiniBitsUnsigned));
    ("m_pitch", (BOpt bp_GameTFixedMiniBitsUnsigned));
    ("m_yaw", (BOpt bp_GameTFixedMiniBitsUnsigned));
    ("m_reason", (BOpt bp_Int8));
    ("m_follow", BBool)].

(** Model of src/versions/protocol87702/mod.rs:10173-10176 [GameSTriggerAbortMissionEvent::parse] and its field parsers. *)
Definition bp_GameSTriggerAbortMissionEvent : bty :=
  BStruct [].

(** Model of src/versions/protocol87702/mod.rs:10185-10207 [GameSTriggerPurchaseMadeEvent::parse] and its field parsers. *)
Definition bp_GameSTriggerPurchaseMadeEvent : bty :=
  BStruct [
    ("m_purchase_item_id", bp_Int32)].

(** Model of src/versions/protocol87702/mod.rs:10214-10217 [GameSTriggerPurchaseExitEvent::parse] and its field parsers. *)
Definition bp_GameSTriggerPurchaseExitEvent : bty :=
  BStruct [].

(** Model of src/versions/protocol87702/mod.rs:10226-10248 [GameSTriggerPlanetMissionLaunchedEvent::parse] and its field parsers. *)
Definition bp_GameSTriggerPlanetMissionLaunchedEvent : bty :=
  BStruct [
    ("m_difficulty_level", bp_Int32)].

(** Model of src/versions/protocol87702/mod.rs:10255-10258 [GameSTriggerPlanetPanelCanceledEvent::parse] and its field parsers. *)
Definition bp_GameSTriggerPlanetPanelCanceledEvent : bty :=
  BStruct [].

(** Model of src/versions/protocol87702/mod.rs:17212-17218 [GameCChatString::parse] and its field parsers. *)
Definition bp_GameCChatString : bty :=
  BBlob 11.

(** Model of src/versions/protocol87702/mod.rs:10331-10376 [MEventData::parse] and its field parsers. *)
Definition bp_MEventData : bty :=
  BChoice 3 [
    (0, "None", BNull);
    (1, "Checked", BBool);
    (2, "ValueChanged", bp_Uint32);
    (3, "SelectionChanged", bp_Int32);
    (4, "TextChanged", bp_GameCChatString);
    (5, "MouseButton", bp_Uint32)].

(** Model of src/versions/protocol87702/mod.rs:10269-10317 [GameSTriggerDialogControlEvent::parse] and its field parsers. *)
Definition bp_GameSTriggerDialogControlEvent : bty :=
  BStruct [
    ("m_control_id", bp_Int32);
    ("m_event_type", bp_Int32);
    ("m_event_data", bp_MEventData)].

(** Model of src/versions/protocol87702/mod.rs:13684-13733 [GameSSyncSoundLength::parse] and its field parsers. *)
Definition bp_GameSSyncSoundLength : bty :=
  BStruct [
    ("m_sound_hash", (BArray 7 bp_Uint32));
    ("m_length", (BArray 7 bp_Uint32))].

(** Model of src/versions/protocol87702/mod.rs:10438-10460 [GameSTriggerSoundLengthSyncEvent::parse] and its field parsers. *)
Definition bp_GameSTriggerSoundLengthSyncEvent : bty :=
  BStruct [
    ("m_sync_info", bp_GameSSyncSoundLength)].

(** Model of src/versions/protocol87702/mod.rs:13030-13049 [GameEConversationSkip::parse] and its field parsers. *)
Definition bp_GameEConversationSkip : bty :=
  BEnum 1 [(0, "ESkipOneLine"); (1, "ESkipAllLines")].

(** Model of src/versions/protocol87702/mod.rs:10855-10877 [GameSTriggerConversationSkippedEvent::parse] and its field parsers. *)
Definition bp_GameSTriggerConversationSkippedEvent : bty :=
  BStruct [
    ("m_skip_type", bp_GameEConversationSkip)].

(** Model of src/versions/protocol87702/mod.rs:13274-13279 [GameTuiCoordX::parse] and its field parsers. *)
Definition bp_GameTuiCoordX : bty :=
  BInt (0) 11.

(** Model of src/versions/protocol87702/mod.rs:13288-13293 [GameTuiCoordY::parse] and its field parsers. *)
Definition bp_GameTuiCoordY : bty :=
  BInt (0) 11.

(** Model of src/versions/protocol87702/mod.rs:13570-13603 [GameSuiCoord::parse] and its field parsers. *)
Definition bp_GameSuiCoord : bty :=
  BStruct [
    ("x", bp_GameTuiCoordX);
    ("y", bp_GameTuiCoordY)].

(** Model of src/versions/protocol87702/mod.rs:10890-10966 [GameSTriggerMouseClickedEvent::parse] and its field parsers. *)
Definition bp_GameSTriggerMouseClickedEvent : bty :=
  BStruct [
    ("m_button", bp_Uint32);
    ("m_down", BBool);
    ("m_pos_ui", bp_GameSuiCoord);
    ("m_pos_world", bp_GameSMapCoord3D);
    ("m_flags", bp_Int8)].

(** Model of src/versions/protocol87702/mod.rs:10977-11027 [GameSTriggerMouseMovedEvent::parse] and its field parsers. *)
Definition bp_GameSTriggerMouseMovedEvent : bty :=
  BStruct [
    ("m_pos_ui", bp_GameSuiCoord);
    ("m_pos_world", bp_GameSMapCoord3D);
    ("m_flags", bp_Int8)].

(** Model of src/versions/protocol87702/mod.rs:13088-13091 [GameTAchievementLink::parse] and its field parsers. *)
Definition bp_GameTAchievementLink : bty :=
  bp_Uint16.

(** Model of src/versions/protocol87702/mod.rs:11036-11058 [GameSAchievementAwardedEvent::parse] and its field parsers. *)
Definition bp_GameSAchievementAwardedEvent : bty :=
  BStruct [
    ("m_achievement_link", bp_GameTAchievementLink)].

(** Model of src/versions/protocol87702/mod.rs:11068-11101 [GameSTriggerHotkeyPressedEvent::parse] and its field parsers. *)
Definition bp_GameSTriggerHotkeyPressedEvent : bty :=
  BStruct [
    ("m_hotkey", bp_Uint32);
    ("m_down", BBool)].

(** Model of src/versions/protocol87702/mod.rs:11112-11160 [GameSTriggerTargetModeUpdateEvent::parse] and its field parsers. *)
Definition bp_GameSTriggerTargetModeUpdateEvent : bty :=
  BStruct [
    ("m_abil_link", bp_GameTAbilLink);
    ("m_abil_cmd_index", (BInt 0 5));
    ("m_state", bp_Int8)].

(** Model of src/versions/protocol87702/mod.rs:11167-11170 [GameSTriggerPlanetPanelReplayEvent::parse] and its field parsers. *)
Definition bp_GameSTriggerPlanetPanelReplayEvent : bty :=
  BStruct [].

(** Model of src/versions/protocol87702/mod.rs:11179-11199 [GameSTriggerSoundtrackDoneEvent::parse] and its field parsers. *)
Definition bp_GameSTriggerSoundtrackDoneEvent : bty :=
  BStruct [
    ("m_soundtrack", bp_Uint32)].

(** Model of src/versions/protocol87702/mod.rs:11208-11228 [GameSTriggerPlanetMissionSelectedEvent::parse] and its field parsers. *)
Definition bp_GameSTriggerPlanetMissionSelectedEvent : bty :=
  BStruct [
    ("m_planet_id", bp_Int32)].

(** Model of src/versions/protocol87702/mod.rs:11238-11271 [GameSTriggerKeyPressedEvent::parse] and its field parsers. *)
Definition bp_GameSTriggerKeyPressedEvent : bty :=
  BStruct [
    ("m_key", bp_Int8);
    ("m_flags", bp_Int8)].

(** Model of src/versions/protocol87702/mod.rs:11792-11821 [GameSTriggerMovieFunctionEvent::parse] and its field parsers. *)
Definition bp_GameSTriggerMovieFunctionEvent : bty :=
  BStruct [
    ("m_function_name", (BArray 7 BByte))].

(** Model of src/versions/protocol87702/mod.rs:11278-11281 [GameSTriggerPlanetPanelBirthCompleteEvent::parse] and its field parsers. *)
Definition bp_GameSTriggerPlanetPanelBirthCompleteEvent : bty :=
  BStruct [].

(** Model of src/versions/protocol87702/mod.rs:11288-11291 [GameSTriggerPlanetPanelDeathCompleteEvent::parse] and its field parsers. *)
Definition bp_GameSTriggerPlanetPanelDeathCompleteEvent : bty :=
  BStruct [].

(** Model of src/versions/protocol87702/mod.rs:11300-11329 [GameSResourceRequestEvent::parse] and its field parsers. *)
Definition bp_GameSResourceRequestEvent : bty :=
  BStruct [
    ("m_resources", (BArray 3 bp_Int32))].

(** Model of src/versions/protocol87702/mod.rs:11338-11361 [GameSResourceRequestFulfillEvent::parse] and its field parsers. *)
Definition bp_GameSResourceRequestFulfillEvent : bty :=
  BStruct [
    ("m_fulfill_request_id", bp_Int32)].

(** Model of src/versions/protocol87702/mod.rs:11370-11392 [GameSResourceRequestCancelEvent::parse] and its field parsers. *)
Definition bp_GameSResourceRequestCancelEvent : bty :=
  BStruct [
    ("m_cancel_request_id", bp_Int32)].

(** Model of src/versions/protocol87702/mod.rs:11399-11402 [GameSTriggerResearchPanelExitEvent::parse] and its field parsers. *)
Definition bp_GameSTriggerResearchPanelExitEvent : bty :=
  BStruct [].

(** Model of src/versions/protocol87702/mod.rs:11409-11412 [GameSTriggerResearchPanelPurchaseEvent::parse] and its field parsers. *)
Definition bp_GameSTriggerResearchPanelPurchaseEvent : bty :=
  BStruct [].

(** Model of src/versions/protocol87702/mod.rs:11472-11494 [GameSTriggerResearchPanelSelectionChangedEvent::parse] and its field parsers. *)
Definition bp_GameSTriggerResearchPanelSelectionChangedEvent : bty :=
  BStruct [
    ("m_research_item_id", bp_Int32)].

(** Model of src/versions/protocol87702/mod.rs:11422-11463 [GameSTriggerCommandErrorEvent::parse] and its field parsers. *)
Definition bp_GameSTriggerCommandErrorEvent : bty :=
  BStruct [
    ("m_error", bp_Int32);
    ("m_abil", (BOpt bp_GameSCmdAbil))].

(** Model of src/versions/protocol87702/mod.rs:11501-11504 [GameSTriggerMercenaryPanelExitEvent::parse] and its field parsers. *)
Definition bp_GameSTriggerMercenaryPanelExitEvent : bty :=
  BStruct [].

(** Model of src/versions/protocol87702/mod.rs:11511-11514 [GameSTriggerMercenaryPanelPurchaseEvent::parse] and its field parsers. *)
Definition bp_GameSTriggerMercenaryPanelPurchaseEvent : bty :=
  BStruct [].

(** Model of src/versions/protocol87702/mod.rs:11523-11543 [GameSTriggerMercenaryPanelSelectionChangedEvent::parse] and its field parsers. *)
Definition bp_GameSTriggerMercenaryPanelSelectionChangedEvent : bty :=
  BStruct [
    ("m_mercenary_id", bp_Int32)].

(** Model of src/versions/protocol87702/mod.rs:11550-11553 [GameSTriggerVictoryPanelExitEvent::parse] and its field parsers. *)
Definition bp_GameSTriggerVictoryPanelExitEvent : bty :=
  BStruct [].

(** Model of src/versions/protocol87702/mod.rs:11560-11563 [GameSTriggerBattleReportPanelExitEvent::parse] and its field parsers. *)
Definition bp_GameSTriggerBattleReportPanelExitEvent : bty :=
  BStruct [].

(** Model of src/versions/protocol87702/mod.rs:11573-11610 [GameSTriggerBattleReportPanelPlayMissionEvent::parse] and its field parsers. *)
Definition bp_GameSTriggerBattleReportPanelPlayMissionEvent : bty :=
  BStruct [
    ("m_battle_report_id", bp_Int32);
    ("m_difficulty_level", bp_Int32)].

(** Model of src/versions/protocol87702/mod.rs:11619-11641 [GameSTriggerBattleReportPanelPlaySceneEvent::parse] and its field parsers. *)
Definition bp_GameSTriggerBattleReportPanelPlaySceneEvent : bty :=
  BStruct [
    ("m_battle_report_id", bp_Int32)].

(** Model of src/versions/protocol87702/mod.rs:11650-11672 [GameSTriggerBattleReportPanelSelectionChangedEvent::parse] and its field parsers. *)
Definition bp_GameSTriggerBattleReportPanelSelectionChangedEvent : bty :=
  BStruct [
    ("m_battle_report_id", bp_Int32)].

(** Model of src/versions/protocol87702/mod.rs:11681-11703 [GameSTriggerVictoryPanelPlayMissionAgainEvent::parse] and its field parsers. *)
Definition bp_GameSTriggerVictoryPanelPlayMissionAgainEvent : bty :=
  BStruct [
    ("m_difficulty_level", bp_Int32)].

(** Model of src/versions/protocol87702/mod.rs:11710-11713 [GameSTriggerMovieStartedEvent::parse] and its field parsers. *)
Definition bp_GameSTriggerMovieStartedEvent : bty :=
  BStruct [].

(** Model of src/versions/protocol87702/mod.rs:11720-11723 [GameSTriggerMovieFinishedEvent::parse] and its field parsers. *)
Definition bp_GameSTriggerMovieFinishedEvent : bty :=
  BStruct [].

(** Model of src/versions/protocol87702/mod.rs:11732-11754 [GameSDecrementGameTimeRemainingEvent::parse] and its field parsers. *)
Definition bp_GameSDecrementGameTimeRemainingEvent : bty :=
  BStruct [
    ("m_decrement_seconds", bp_Int32)].

(** Model of src/versions/protocol87702/mod.rs:11763-11783 [GameSTriggerPortraitLoadedEvent::parse] and its field parsers. *)
Definition bp_GameSTriggerPortraitLoadedEvent : bty :=
  BStruct [
    ("m_portrait_id", bp_Int32)].

(** Model of src/versions/protocol87702/mod.rs:11830-11850 [GameSTriggerCustomDialogDismissedEvent::parse] and its field parsers. *)
Definition bp_GameSTriggerCustomDialogDismissedEvent : bty :=
  BStruct [
    ("m_result", bp_Int32)].

(** Model of src/versions/protocol87702/mod.rs:11859-11882 [GameSTriggerGameMenuItemSelectedEvent::parse] and its field parsers. *)
Definition bp_GameSTriggerGameMenuItemSelectedEvent : bty :=
  BStruct [
    ("m_game_menu_item_index", bp_Int32)].

(** Model of src/versions/protocol87702/mod.rs:13208-13211 [GameTFixedMiniBitsSigned::parse] and its field parsers. *)
Definition bp_GameTFixedMiniBitsSigned : bty :=
  bp_Int16.

(** Model of src/versions/protocol87702/mod.rs:11892-11927 [GameSTriggerMouseWheelEvent::parse] and its field parsers. *)
Definition bp_GameSTriggerMouseWheelEvent : bty :=
  BStruct [
    ("m_wheel_spin", bp_GameTFixedMiniBitsSigned);
    ("m_flags", bp_Int8)].

(** Model of src/versions/protocol87702/mod.rs:11936-11958 [GameSTriggerPurchasePanelSelectedPurchaseItemChangedEvent::parse] and its field parsers. *)
Definition bp_GameSTriggerPurchasePanelSelectedPurchaseItemChangedEvent : bty :=
  BStruct [
    ("m_purchase_item_id", bp_Int32)].

(** Model of src/versions/protocol87702/mod.rs:11967-11990 [GameSTriggerPurchasePanelSelectedPurchaseCategoryChangedEvent::parse] and its field parsers. *)
Definition bp_GameSTriggerPurchasePanelSelectedPurchaseCategoryChangedEvent : bty :=
  BStruct [
    ("m_purchase_category_id", bp_Int32)].

(** Model of src/versions/protocol87702/mod.rs:13112-13115 [GameTButtonLink::parse] and its field parsers. *)
Definition bp_GameTButtonLink : bty :=
  bp_Uint16.

(** Model of src/versions/protocol87702/mod.rs:11999-12021 [GameSTriggerButtonPressedEvent::parse] and its field parsers. *)
Definition bp_GameSTriggerButtonPressedEvent : bty :=
  BStruct [
    ("m_button", bp_GameTButtonLink)].

(** Model of src/versions/protocol87702/mod.rs:12028-12031 [GameSTriggerGameCreditsFinishedEvent::parse] and its field parsers. *)
Definition bp_GameSTriggerGameCreditsFinishedEvent : bty :=
  BStruct [].

(** Model of src/versions/protocol87702/mod.rs:12041-12083 [GameSTriggerCutsceneBookmarkFiredEvent::parse] and its field parsers. *)
Definition bp_GameSTriggerCutsceneBookmarkFiredEvent : bty :=
  BStruct [
    ("m_cutscene_id", bp_Int32);
    ("m_bookmark_name", (BArray 7 BByte))].

(** Model of src/versions/protocol87702/mod.rs:12092-12112 [GameSTriggerCutsceneEndSceneFiredEvent::parse] and its field parsers. *)
Definition bp_GameSTriggerCutsceneEndSceneFiredEvent : bty :=
  BStruct [
    ("m_cutscene_id", bp_Int32)].

(** Model of src/versions/protocol87702/mod.rs:12123-12190 [GameSTriggerCutsceneConversationLineEvent::parse] and its field parsers. *)
Definition bp_GameSTriggerCutsceneConversationLineEvent : bty :=
  BStruct [
    ("m_cutscene_id", bp_Int32);
    ("m_conversation_line", (BArray 7 BByte));
    ("m_alt_conversation_line", (BArray 7 BByte))].

(** Model of src/versions/protocol87702/mod.rs:12200-12242 [GameSTriggerCutsceneConversationLineMissingEvent::parse] and its field parsers. *)
Definition bp_GameSTriggerCutsceneConversationLineMissingEvent : bty :=
  BStruct [
    ("m_cutscene_id", bp_Int32);
    ("m_conversation_line", (BArray 7 BByte))].

(** Model of src/versions/protocol87702/mod.rs:12251-12273 [GameSGameUserLeaveEvent::parse] and its field parsers. *)
Definition bp_GameSGameUserLeaveEvent : bty :=
  BStruct [
    ("m_leave_reason", bp_ELeaveReason)].

(** Model of src/versions/protocol87702/mod.rs:12288-12424 [GameSGameUserJoinEvent::parse] and its field parsers. *)
Definition bp_GameSGameUserJoinEvent : bty :=
  BStruct [
    ("m_observe", bp_EObserve);
    ("m_name", bp_CUserName);
    ("m_toon_handle", (BOpt bp_CToonHandle));
    ("m_clan_tag", (BOpt bp_CClanTag));
    ("m_clan_logo", (BOpt bp_GameCCacheHandle));
    ("m_hijack", BBool);
    ("m_hijack_clone_game_user_id", (BOpt bp_TUserId))].

(** Model of src/versions/protocol87702/mod.rs:12435-12458 [GameECommandManagerState::parse] and its field parsers. *)
Definition bp_GameECommandManagerState : bty :=
  BEnum 2 [(0, "EFireDone"); (1, "EFireOnce"); (2, "EFireMany")].

(** Model of src/versions/protocol87702/mod.rs:12468-12511 [GameSCommandManagerStateEvent::parse] and its field parsers. *)
Definition bp_GameSCommandManagerStateEvent : bty :=
  BStruct [
    ("m_state", bp_GameECommandManagerState);
    ("m_sequence", (BOptReread (BInt 1 32)))].

(** Model of src/versions/protocol87702/mod.rs:12520-12542 [GameSCmdUpdateTargetPointEvent::parse] and its field parsers. *)
Definition bp_GameSCmdUpdateTargetPointEvent : bty :=
  BStruct [
    ("m_target", bp_GameSMapCoord3D)].

(** Model of src/versions/protocol87702/mod.rs:12551-12573 [GameSCmdUpdateTargetUnitEvent::parse] and its field parsers. *)
Definition bp_GameSCmdUpdateTargetUnitEvent : bty :=
  BStruct [
    ("m_target", bp_GameSCmdDataTargetUnit)].

(** Model of src/versions/protocol87702/mod.rs:10471-10521 [GameSTriggerAnimLengthQueryByNameEvent::parse] and its field parsers. *)
Definition bp_GameSTriggerAnimLengthQueryByNameEvent : bty :=
  BStruct [
    ("m_query_id", bp_GameTQueryId);
    ("m_length_ms", bp_Uint32);
    ("m_finish_game_loop", bp_Uint32)].

(** Model of src/versions/protocol87702/mod.rs:10531-10566 [GameSTriggerAnimLengthQueryByPropsEvent::parse] and its field parsers. *)
Definition bp_GameSTriggerAnimLengthQueryByPropsEvent : bty :=
  BStruct [
    ("m_query_id", bp_GameTQueryId);
    ("m_length_ms", bp_Uint32)].

(** Model of src/versions/protocol87702/mod.rs:10575-10598 [GameSTriggerAnimOffsetEvent::parse] and its field parsers. *)
Definition bp_GameSTriggerAnimOffsetEvent : bty :=
  BStruct [
    ("m_anim_wait_query_id", bp_GameTQueryId)].

(** Model of src/versions/protocol87702/mod.rs:12585-12658 [GameSCatalogModifyEvent::parse] and its field parsers. *)
Definition bp_GameSCatalogModifyEvent : bty :=
  BStruct [
    ("m_catalog", bp_Uint8);
    ("m_entry", bp_Uint16);
    ("m_field", (BArray 9 BByte));
    ("m_value", (BArray 9 BByte))].

(** Model of src/versions/protocol87702/mod.rs:12667-12687 [GameSHeroTalentTreeSelectedEvent::parse] and its field parsers. *)
Definition bp_GameSHeroTalentTreeSelectedEvent : bty :=
  BStruct [
    ("m_index", bp_Uint32)].

(** Model of src/versions/protocol87702/mod.rs:12694-12697 [GameSTriggerProfilerLoggingFinishedEvent::parse] and its field parsers. *)
Definition bp_GameSTriggerProfilerLoggingFinishedEvent : bty :=
  BStruct [].

(** Model of src/versions/protocol87702/mod.rs:12706-12726 [GameSHeroTalentTreeSelectionPanelToggledEvent::parse] and its field parsers. *)
Definition bp_GameSHeroTalentTreeSelectionPanelToggledEvent : bty :=
  BStruct [
    ("m_shown", BBool)].

(** Model of src/versions/protocol87702/mod.rs:12736-12771 [GameSMuteChatEvent::parse] and its field parsers. *)
Definition bp_GameSMuteChatEvent : bty :=
  BStruct [
    ("m_target_user_id", bp_TUserId);
    ("m_muted", BBool)].

(** Model of src/versions/protocol87702/mod.rs:12780-12811 [GameSConvertToReplaySessionEvent::parse] and its field parsers. *)
Definition bp_GameSConvertToReplaySessionEvent : bty :=
  BStruct [
    ("m_replay_jump_game_loop", (BOpt bp_Int32))].

(** Model of src/versions/protocol87702/mod.rs:12820-12840 [GameSSetSyncLoadingTimeEvent::parse] and its field parsers. *)
Definition bp_GameSSetSyncLoadingTimeEvent : bty :=
  BStruct [
    ("m_sync_time", bp_Uint32)].

(** Model of src/versions/protocol87702/mod.rs:12849-12869 [GameSSetSyncPlayingTimeEvent::parse] and its field parsers. *)
Definition bp_GameSSetSyncPlayingTimeEvent : bty :=
  BStruct [
    ("m_sync_time", bp_Uint32)].

(** Model of src/versions/protocol87702/mod.rs:12878-12898 [GameSPeerSetSyncLoadingTimeEvent::parse] and its field parsers. *)
Definition bp_GameSPeerSetSyncLoadingTimeEvent : bty :=
  BStruct [
    ("m_sync_time", bp_Uint32)].

(** Model of src/versions/protocol87702/mod.rs:12907-12927 [GameSPeerSetSyncPlayingTimeEvent::parse] and its field parsers. *)
Definition bp_GameSPeerSetSyncPlayingTimeEvent : bty :=
  BStruct [
    ("m_sync_time", bp_Uint32)].

(** Model of src/versions/protocol87702/mod.rs:6621-7370 [GameEEventId::parse] and its field parsers. *)
Definition bp_GameEEventId : bty :=
  BChoice 7 [
    (0, "ESetLobbySlot", bp_GameSSetLobbySlotEvent);
    (1, "EDropUser", bp_GameSDropUserEvent);
    (2, "EStartGame", bp_GameSStartGameEvent);
    (3, "EDropOurselves", bp_GameSDropOurselvesEvent);
    (4, "EUserFinishedLoading", bp_GameSUserFinishedLoadingEvent);
    (5, "EUserFinishedLoadingSync", bp_GameSUserFinishedLoadingSyncEvent);
    (6, "ESetGameDuration", bp_GameSSetGameDurationEvent);
    (7, "EUserOptions", bp_GameSUserOptionsEvent);
    (114, "EPickMapTag", bp_GameSPickMapTagEvent);
    (8, "ETurn", bp_GameSTurnEvent);
    (9, "EBankFile", bp_GameSBankFileEvent);
    (10, "EBankSection", bp_GameSBankSectionEvent);
    (11, "EBankKey", bp_GameSBankKeyEvent);
    (12, "EBankValue", bp_GameSBankValueEvent);
    (13, "EBankSignature", bp_GameSBankSignatureEvent);
    (14, "ECameraSave", bp_GameSCameraSaveEvent);
    (15, "EPauseGame", bp_GameSPauseGameEvent);
    (16, "EUnpauseGame", bp_GameSUnpauseGameEvent);
    (17, "ESingleStepGame", bp_GameSSingleStepGameEvent);
    (18, "ESetGameSpeed", bp_GameSSetGameSpeedEvent);
    (19, "EAddGameSpeed", bp_GameSAddGameSpeedEvent);
    (20, "EReplayJump", bp_GameSReplayJumpEvent);
    (21, "ESaveGame", bp_GameSSaveGameEvent);
    (22, "ESaveGameDone", bp_GameSSaveGameDoneEvent);
    (23, "ELoadGameDone", bp_GameSLoadGameDoneEvent);
    (24, "ESessionCheat", bp_GameSSessionCheatEvent);
    (25, "ECommandManagerReset", bp_GameSCommandManagerResetEvent);
    (26, "EGameCheat", bp_GameSGameCheatEvent);
    (27, "ECmd", bp_GameSCmdEvent);
    (28, "ESelectionDelta", bp_GameSSelectionDeltaEvent);
    (29, "EControlGroupUpdate", bp_GameSControlGroupUpdateEvent);
    (30, "ESelectionSyncCheck", bp_GameSSelectionSyncCheckEvent);
    (31, "EResourceTrade", bp_GameSResourceTradeEvent);
    (32, "ETriggerChatMessage", bp_GameSTriggerChatMessageEvent);
    (33, "EAiCommunicate", bp_GameSaiCommunicateEvent);
    (34, "ESetAbsoluteGameSpeed", bp_GameSSetAbsoluteGameSpeedEvent);
    (35, "EAddAbsoluteGameSpeed", bp_GameSAddAbsoluteGameSpeedEvent);
    (36, "ETriggerPing", bp_GameSTriggerPingEvent);
    (37, "EBroadcastCheat", bp_GameSBroadcastCheatEvent);
    (38, "EAlliance", bp_GameSAllianceEvent);
    (39, "EUnitClick", bp_GameSUnitClickEvent);
    (40, "EUnitHighlight", bp_GameSUnitHighlightEvent);
    (41, "ETriggerReplySelected", bp_GameSTriggerReplySelectedEvent);
    (42, "EHijackReplaySession", bp_GameSHijackReplaySessionEvent);
    (43, "EHijackReplayGame", bp_GameSHijackReplayGameEvent);
    (44, "ETriggerSkipped", bp_GameSTriggerSkippedEvent);
    (45, "ETriggerSoundLengthQuery", bp_GameSTriggerSoundLengthQueryEvent);
    (46, "ETriggerSoundOffset", bp_GameSTriggerSoundOffsetEvent);
    (47, "ETriggerTransmissionOffset", bp_GameSTriggerTransmissionOffsetEvent);
    (48, "ETriggerTransmissionComplete", bp_GameSTriggerTransmissionCompleteEvent);
    (49, "ECameraUpdate", bp_GameSCameraUpdateEvent);
    (50, "ETriggerAbortMission", bp_GameSTriggerAbortMissionEvent);
    (51, "ETriggerPurchaseMade", bp_GameSTriggerPurchaseMadeEvent);
    (52, "ETriggerPurchaseExit", bp_GameSTriggerPurchaseExitEvent);
    (53, "ETriggerPlanetMissionLaunched", bp_GameSTriggerPlanetMissionLaunchedEvent);
    (54, "ETriggerPlanetPanelCanceled", bp_GameSTriggerPlanetPanelCanceledEvent);
    (55, "ETriggerDialogControl", bp_GameSTriggerDialogControlEvent);
    (56, "ETriggerSoundLengthSync", bp_GameSTriggerSoundLengthSyncEvent);
    (57, "ETriggerConversationSkipped", bp_GameSTriggerConversationSkippedEvent);
    (58, "ETriggerMouseClicked", bp_GameSTriggerMouseClickedEvent);
    (59, "ETriggerMouseMoved", bp_GameSTriggerMouseMovedEvent);
    (60, "EAchievementAwarded", bp_GameSAchievementAwardedEvent);
    (61, "ETriggerHotkeyPressed", bp_GameSTriggerHotkeyPressedEvent);
    (62, "ETriggerTargetModeUpdate", bp_GameSTriggerTargetModeUpdateEvent);
    (63, "ETriggerPlanetPanelPanelReplay", bp_GameSTriggerPlanetPanelReplayEvent);
    (64, "ETriggerSoundtrackDone", bp_GameSTriggerSoundtrackDoneEvent);
    (65, "ETriggerPlanetMissionSelected", bp_GameSTriggerPlanetMissionSelectedEvent);
    (66, "ETriggerKeyPressed", bp_GameSTriggerKeyPressedEvent);
    (67, "ETriggerMovieFunction", bp_GameSTriggerMovieFunctionEvent);
    (68, "ETriggerPlanetPanelPanelBirthComplete", bp_GameSTriggerPlanetPanelBirthCompleteEvent);
    (69, "ETriggerPlanetPanelPanelDeathComplete", bp_GameSTriggerPlanetPanelDeathCompleteEvent);
    (70, "EResourceRequest", bp_GameSResourceRequestEvent);
    (71, "EResourceRequestFulfill", bp_GameSResourceRequestFulfillEvent);
    (72, "EResourceRequestCancel", bp_GameSResourceRequestCancelEvent);
    (73, "ETriggerResearchPanelExit", bp_GameSTriggerResearchPanelExitEvent);
    (74, "ETriggerResearchPanelPurchase", bp_GameSTriggerResearchPanelPurchaseEvent);
    (75, "ETriggerResearchPanelSelectionChanged", bp_GameSTriggerResearchPanelSelectionChangedEvent);
    (76, "ETriggerCommandError", bp_GameSTriggerCommandErrorEvent);
    (77, "ETriggerMercenaryPanelExit", bp_GameSTriggerMercenaryPanelExitEvent);
    (78, "ETriggerMercenaryPanelPurchase", bp_GameSTriggerMercenaryPanelPurchaseEvent);
    (79, "ETriggerMercenaryPanelSelectionChanged", bp_GameSTriggerMercenaryPanelSelectionChangedEvent);
    (80, "ETriggerVictoryPanelExit", bp_GameSTriggerVictoryPanelExitEvent);
    (81, "ETriggerBattleReportPanelExit", bp_GameSTriggerBattleReportPanelExitEvent);
    (82, "ETriggerBattleReportPanelPlayMission", bp_GameSTriggerBattleReportPanelPlayMissionEvent);
    (83, "ETriggerBattleReportPanelPlayScene", bp_GameSTriggerBattleReportPanelPlaySceneEvent);
    (84, "ETriggerBattleReportSelectionChanged", bp_GameSTriggerBattleReportPanelSelectionChangedEvent);
    (85, "ETriggerVictoryPanelPlayMissionAgain", bp_GameSTriggerVictoryPanelPlayMissionAgainEvent);
    (86, "ETriggerMovieStarted", bp_GameSTriggerMovieStartedEvent);
    (87, "ETriggerMovieFinished", bp_GameSTriggerMovieFinishedEvent);
    (88, "EDecrementGameTimeRemaining", bp_GameSDecrementGameTimeRemainingEvent);
    (89, "ETriggerPortraitLoaded", bp_GameSTriggerPortraitLoadedEvent);
    (90, "ETriggerQueryDialogDismissed", bp_GameSTriggerCustomDialogDismissedEvent);
    (91, "ETriggerGameMenuItemSelected", bp_GameSTriggerGameMenuItemSelectedEvent);
    (92, "ETriggerMouseWheel", bp_GameSTriggerMouseWheelEvent);
    (93, "ETriggerPurchasePanelSelectedPurchaseItemChanged", bp_GameSTriggerPurchasePanelSelectedPurchaseItemChangedEvent);
    (94, "ETriggerPurchasePanelSelectedPurchaseCategoryChanged", bp_GameSTriggerPurchasePanelSelectedPurchaseCategoryChangedEvent);
    (95, "ETriggerButtonPressed", bp_GameSTriggerButtonPressedEvent);
    (96, "ETriggerGameCreditsFinished", bp_GameSTriggerGameCreditsFinishedEvent);
    (97, "ETriggerCutsceneBookmarkFired", bp_GameSTriggerCutsceneBookmarkFiredEvent);
    (98, "ETriggerCutsceneEndSceneFired", bp_GameSTriggerCutsceneEndSceneFiredEvent);
    (99, "ETriggerCutsceneConversationLine", bp_GameSTriggerCutsceneConversationLineEvent);
    (100, "ETriggerCutsceneConversationLineMissing", bp_GameSTriggerCutsceneConversationLineMissingEvent);
    (101, "EGameUserLeave", bp_GameSGameUserLeaveEvent);
    (102, "EGameUserJoin", bp_GameSGameUserJoinEvent);
    (103, "ECommandManagerState", bp_GameSCommandManagerStateEvent);
    (104, "ECmdUpdateTargetPoint", bp_GameSCmdUpdateTargetPointEvent);
    (105, "ECmdUpdateTargetUnit", bp_GameSCmdUpdateTargetUnitEvent);
    (106, "ETriggerAnimLengthQueryByName", bp_GameSTriggerAnimLengthQueryByNameEvent);
    (107, "ETriggerAnimLengthQueryByProps", bp_GameSTriggerAnimLengthQueryByPropsEvent);
    (108, "ETriggerAnimOffset", bp_GameSTriggerAnimOffsetEvent);
    (109, "ECatalogModify", bp_GameSCatalogModifyEvent);
    (110, "EHeroTalentTreeSelected", bp_GameSHeroTalentTreeSelectedEvent);
    (111, "ETriggerProfilerLoggingFinished", bp_GameSTriggerProfilerLoggingFinishedEvent);
    (112, "EHeroTalentTreeSelectionPanelToggled", bp_GameSHeroTalentTreeSelectionPanelToggledEvent);
    (113, "EMuteUserChanged", bp_GameSMuteChatEvent);
    (115, "EConvertToReplaySession", bp_GameSConvertToReplaySessionEvent);
    (116, "ESetSyncLoadingTime", bp_GameSSetSyncLoadingTimeEvent);
    (117, "ESetSyncPlayingTime", bp_GameSSetSyncPlayingTimeEvent);
    (118, "EPeerSetSyncLoadingTime", bp_GameSPeerSetSyncLoadingTimeEvent);
    (119, "EPeerSetSyncPlayingTime", bp_GameSPeerSetSyncPlayingTimeEvent)].

(** Model of src/versions/protocol87702/mod.rs:12985-13020 [GameEPhase::parse] and its field parsers. *)
Definition bp_GameEPhase : bty :=
  BEnum 3 [(0, "EInitializing"); (1, "ELobby"); (2, "EClosed"); (3, "ELoading"); (4, "EPlaying"); (5, "EGameover")].

(** Model of src/versions/protocol87702/mod.rs:13100-13103 [GameTAchievementTermLink::parse] and its field parsers. *)
Definition bp_GameTAchievementTermLink : bty :=
  bp_Uint16.

(** Model of src/versions/protocol87702/mod.rs:13232-13237 [GameTFixedInt::parse] and its field parsers. *)
Definition bp_GameTFixedInt : bty :=
  BInt (-524288) 20.

(** Model of src/versions/protocol87702/mod.rs:13246-13251 [GameTFixedUInt::parse] and its field parsers. *)
Definition bp_GameTFixedUInt : bty :=
  BInt (0) 19.

(** Model of src/versions/protocol87702/mod.rs:13302-13305 [GameTHeroLink::parse] and its field parsers. *)
Definition bp_GameTHeroLink : bty :=
  bp_Uint16.

(** Model of src/versions/protocol87702/mod.rs:13462-13499 [GameSMapCoord::parse] and its field parsers. *)
Definition bp_GameSMapCoord : bty :=
  BStruct [
    ("x", bp_GameTMapCoordFixedBits);
    ("y", bp_GameTMapCoordFixedBits)].

(** Model of src/versions/protocol87702/mod.rs:13639-13645 [GameCAllowedDifficulty::parse] and its field parsers. *)
Definition bp_GameCAllowedDifficulty : bty :=
  BBitInt 6.

(** Model of src/versions/protocol87702/mod.rs:13668-13674 [GameCAllowedAiBuild::parse] and its field parsers. *)
Definition bp_GameCAllowedAiBuild : bty :=
  BBitArray 8.

(** Model of src/versions/protocol87702/mod.rs:13742-13769 [GameSThumbnail::parse] and its field parsers. *)
Definition bp_GameSThumbnail : bty :=
  BStruct [
    ("m_file", (BArray 10 BByte))].

(** Model of src/versions/protocol87702/mod.rs:13781-13840 [GameSColor::parse] and its field parsers. *)
Definition bp_GameSColor : bty :=
  BStruct [
    ("m_a", bp_Uint8);
    ("m_r", bp_Uint8);
    ("m_g", bp_Uint8);
    ("m_b", bp_Uint8)].

(** Model of src/versions/protocol87702/mod.rs:13852-13879 [GameEResultDetails::parse] and its field parsers. *)
Definition bp_GameEResultDetails : bty :=
  BEnum 2 [(0, "EUndecided"); (1, "EWin"); (2, "ELoss"); (3, "ETie")].

(** Model of src/versions/protocol87702/mod.rs:13892-13971 [GameSToonNameDetails::parse] and its field parsers. *)
Definition bp_GameSToonNameDetails : bty :=
  BStruct [
    ("m_region", bp_Uint8);
    ("m_program_id", BFourcc);
    ("m_realm", bp_Uint32);
    ("m_name", (BArray 5 BByte));
    ("m_id", bp_Uint64)].

(** Model of src/versions/protocol87702/mod.rs:13990-14175 [GameSPlayerDetails::parse] and its field parsers. *)
Definition bp_GameSPlayerDetails : bty :=
  BStruct [
    ("m_name", bp_CUserName);
    ("m_toon", bp_GameSToonNameDetails);
    ("m_race", (BArray 7 BByte));
    ("m_color", bp_GameSColor);
    ("m_control", bp_GameTControlId);
    ("m_team_id", bp_GameTTeamId);
    ("m_handicap", bp_GameTHandicap);
    ("m_observe", bp_EObserve);
    ("m_result", bp_GameEResultDetails);
    ("m_working_set_slot_id", (BOpt bp_Uint8));
    ("m_hero", (BArray 7 BByte))].

(** Model of src/versions/protocol87702/mod.rs:14184-14199 [GameCPlayerDetailsArray::parse] and its field parsers. *)
Definition bp_GameCPlayerDetailsArray : bty :=
  BArray 5 bp_GameSPlayerDetails.

(** Model of src/versions/protocol87702/mod.rs:14208-14223 [GameCModPaths::parse] and its field parsers. *)
Definition bp_GameCModPaths : bty :=
  BArray 6 bp_CFilePath.

(** Model of src/versions/protocol87702/mod.rs:15290-15305 [GameCCacheHandles::parse] and its field parsers. *)
Definition bp_GameCCacheHandles : bty :=
  BArray 6 bp_GameCCacheHandle.

(** Model of src/versions/protocol87702/mod.rs:14249-14574 [GameSDetails::parse] and its field parsers. *)
Definition bp_GameSDetails : bty :=
  BStruct [
    ("m_player_list", (BOpt bp_GameCPlayerDetailsArray));
    ("m_title", (BArray 9 BByte));
    ("m_difficulty", (BArray 7 BByte));
    ("m_thumbnail", bp_GameSThumbnail);
    ("m_is_blizzard_map", BBool);
    ("m_time_utc", bp_Int64);
    ("m_time_local_offset", bp_Int64);
    ("m_restart_as_transition_map", (BOpt BBool));
    ("m_disable_recover_game", BBool);
    ("m_description", (BArray 11 BByte));
    ("m_image_file_path", bp_CFilePath);
    ("m_campaign_index", bp_Uint8);
    ("m_map_file_name", bp_CFilePath);
    ("m_cache_handles", (BOpt bp_GameCCacheHandles));
    ("m_mini_save", BBool);
    ("m_game_speed", bp_GameEGameSpeed);
    ("m_default_difficulty", bp_GameTDifficulty);
    ("m_mod_paths", (BOpt bp_GameCModPaths))].

(** Model of src/versions/protocol87702/mod.rs:14586-14613 [GameEOptionFog::parse] and its field parsers. *)
Definition bp_GameEOptionFog : bty :=
  BEnum 2 [(0, "EDefault"); (1, "EHideTerrain"); (2, "EMapExplored"); (3, "EAlwaysVisible")].

(** Model of src/versions/protocol87702/mod.rs:14625-14652 [GameEOptionObservers::parse] and its field parsers. *)
Definition bp_GameEOptionObservers : bty :=
  BEnum 2 [(0, "ENone"); (1, "EOnJoin"); (2, "EOnJoinAndDefeat"); (3, "ERefereesOnJoin")].

(** Model of src/versions/protocol87702/mod.rs:14663-14686 [GameEOptionUserDifficulty::parse] and its field parsers. *)
Definition bp_GameEOptionUserDifficulty : bty :=
  BEnum 2 [(0, "ENone"); (1, "EGlobal"); (2, "EIndividual")].

(** Model of src/versions/protocol87702/mod.rs:14700-14735 [GameEGameLaunch::parse] and its field parsers. *)
Definition bp_GameEGameLaunch : bty :=
  BEnum 3 [(0, "EInvalid"); (1, "EMap"); (2, "EReplay"); (3, "ESave"); (4, "ETransition"); (5, "EServerReplay")].

(** Model of src/versions/protocol87702/mod.rs:14744-14749 [GameEClientDebugFlags::parse] and its field parsers. *)
Definition bp_GameEClientDebugFlags : bty :=
  BInt (0) 64.

(** Model of src/versions/protocol87702/mod.rs:14773-15013 [GameSGameOptions::parse] and its field parsers. *)
Definition bp_GameSGameOptions : bty :=
  BStruct [
    ("m_lock_teams", BBool);
    ("m_teams_together", BBool);
    ("m_advanced_shared_control", BBool);
    ("m_random_races", BBool);
    ("m_battle_net", BBool);
    ("m_amm", BBool);
    ("m_competitive", BBool);
    ("m_practice", BBool);
    ("m_cooperative", BBool);
    ("m_no_victory_or_defeat", BBool);
    ("m_hero_duplicates_allowed", BBool);
    ("m_fog", bp_GameEOptionFog);
    ("m_observers", bp_GameEOptionObservers);
    ("m_user_difficulty", bp_GameEOptionUserDifficulty);
    ("m_client_debug_flags", bp_GameEClientDebugFlags);
    ("m_build_coach_enabled", BBool)].

(** Model of src/versions/protocol87702/mod.rs:15028-15067 [GameEGameType::parse] and its field parsers. *)
Definition bp_GameEGameType : bty :=
  BEnum 3 [(0, "EMelee"); (1, "EFreeForAll"); (2, "EUseSettings"); (3, "EOneOnOne"); (4, "ETwoTeamPlay"); (5, "EThreeTeamPlay"); (6, "EFourTeamPlay")].

(** Model of src/versions/protocol87702/mod.rs:15079-15106 [GameEControl::parse] and its field parsers. *)
Definition bp_GameEControl : bty :=
  BEnum 2 [(0, "EOpen"); (1, "EClosed"); (2, "EUser"); (3, "EComputer")].

(** Model of src/versions/protocol87702/mod.rs:15129-15134 [GameTControlCount::parse] and its field parsers. *)
Definition bp_GameTControlCount : bty :=
  BInt (0) 8.

(** Model of src/versions/protocol87702/mod.rs:15143-15149 [GameCAllowedControls::parse] and its field parsers. *)
Definition bp_GameCAllowedControls : bty :=
  BBitArray 8.

(** Model of src/versions/protocol87702/mod.rs:15163-15264 [GameSSlotDescription::parse] and its field parsers. *)
Definition bp_GameSSlotDescription : bty :=
  BStruct [
    ("m_allowed_colors", bp_GameCAllowedColors);
    ("m_allowed_races", bp_CAllowedRaces);
    ("m_allowed_difficulty", bp_GameCAllowedDifficulty);
    ("m_allowed_controls", bp_GameCAllowedControls);
    ("m_allowed_observe_types", bp_CAllowedObserveTypes);
    ("m_allowed_ai_builds", bp_GameCAllowedAiBuild)].

(** Model of src/versions/protocol87702/mod.rs:15314-15320 [GameCGameCacheName::parse] and its field parsers. *)
Definition bp_GameCGameCacheName : bty :=
  BBlob 11.

(** Model of src/versions/protocol87702/mod.rs:15329-15335 [GameCAuthorName::parse] and its field parsers. *)
Definition bp_GameCAuthorName : bty :=
  BBlob 8.

(** Model of src/versions/protocol87702/mod.rs:15344-15359 [GameSSlotDescriptions::parse] and its field parsers. *)
Definition bp_GameSSlotDescriptions : bty :=
  BArray 5 bp_GameSSlotDescription.

(** Model of src/versions/protocol87702/mod.rs:17457-17462 [GameTPlayerCount::parse] and its field parsers. *)
Definition bp_GameTPlayerCount : bty :=
  BInt (0) 5.

(** Model of src/versions/protocol87702/mod.rs:18168-18173 [GameTTeamCount::parse] and its field parsers. *)
Definition bp_GameTTeamCount : bty :=
  BInt (1) 5.

(** Model of src/versions/protocol87702/mod.rs:15395-15838 [GameSGameDescription::parse] and its field parsers. *)
Definition bp_GameSGameDescription : bty :=
  BStruct [
    ("m_random_value", bp_Uint32);
    ("m_game_cache_name", bp_GameCGameCacheName);
    ("m_game_options", bp_GameSGameOptions);
    ("m_game_speed", bp_GameEGameSpeed);
    ("m_game_type", bp_GameEGameType);
    ("m_max_users", bp_TUserCount);
    ("m_max_observers", bp_TUserCount);
    ("m_max_players", bp_GameTPlayerCount);
    ("m_max_teams", bp_GameTTeamCount);
    ("m_max_colors", bp_GameTColorCount);
    ("m_max_races", bp_TRaceCount);
    ("m_max_controls", bp_GameTControlCount);
    ("m_map_size_x", bp_Uint8);
    ("m_map_size_y", bp_Uint8);
    ("m_map_file_sync_checksum", bp_GameTSyncChecksum);
    ("m_map_file_name", bp_CFilePath);
    ("m_map_author_name", bp_GameCAuthorName);
    ("m_mod_file_sync_checksum", bp_GameTSyncChecksum);
    ("m_slot_descriptions", bp_GameSSlotDescriptions);
    ("m_default_difficulty", bp_GameTDifficulty);
    ("m_default_ai_build", bp_GameTaiBuild);
    ("m_cache_handles", bp_GameCCacheHandles);
    ("m_has_extension_mod", BBool);
    ("m_has_non_blizzard_extension_mod", BBool);
    ("m_is_blizzard_map", BBool);
    ("m_is_premade_ffa", BBool);
    ("m_is_coop_mode", BBool);
    ("m_is_realtime_mode", BBool)].

(** Model of src/versions/protocol87702/mod.rs:15847-15852 [GameTLobbySlotCount::parse] and its field parsers. *)
Definition bp_GameTLobbySlotCount : bty :=
  BInt (0) 5.

(** Model of src/versions/protocol87702/mod.rs:15875-15890 [GameCArtifactArray::parse] and its field parsers. *)
Definition bp_GameCArtifactArray : bty :=
  BArray 4 bp_CArtifactHandle.

(** Model of src/versions/protocol87702/mod.rs:15899-15914 [GameCCommanderMasteryTalentArray::parse] and its field parsers. *)
Definition bp_GameCCommanderMasteryTalentArray : bty :=
  BArray 3 bp_Uint32.

(** Model of src/versions/protocol87702/mod.rs:15947-15950 [GameTReward::parse] and its field parsers. *)
Definition bp_GameTReward : bty :=
  bp_Uint32.

(** Model of src/versions/protocol87702/mod.rs:15959-15974 [GameCRewardArray::parse] and its field parsers. *)
Definition bp_GameCRewardArray : bty :=
  BArray 17 bp_GameTReward.

(** Model of src/versions/protocol87702/mod.rs:15984-16019 [GameCRewardOverride::parse] and its field parsers. *)
Definition bp_GameCRewardOverride : bty :=
  BStruct [
    ("m_key", bp_Uint32);
    ("m_rewards", bp_GameCRewardArray)].

(** Model of src/versions/protocol87702/mod.rs:16028-16043 [GameCRewardOverrideArray::parse] and its field parsers. *)
Definition bp_GameCRewardOverrideArray : bty :=
  BArray 17 bp_GameCRewardOverride.

(** Model of src/versions/protocol87702/mod.rs:16088-16094 [GameTFlexLicenseName::parse] and its field parsers. *)
Definition bp_GameTFlexLicenseName : bty :=
  BBlob 8.

(** Model of src/versions/protocol87702/mod.rs:16103-16109 [GameTFlexLicenseAttributeName::parse] and its field parsers. *)
Definition bp_GameTFlexLicenseAttributeName : bty :=
  BBlob 8.

(** Model of src/versions/protocol87702/mod.rs:16118-16124 [GameTFlexLicenseAttributeValue::parse] and its field parsers. *)
Definition bp_GameTFlexLicenseAttributeValue : bty :=
  BBlob 11.

(** Model of src/versions/protocol87702/mod.rs:16164-16690 [GameSLobbySlot::parse] and its field parsers. *)
Definition bp_GameSLobbySlot : bty :=
  BStruct [
    ("m_control", bp_GameTControlId);
    ("m_user_id", (BOpt bp_TUserId));
    ("m_team_id", bp_GameTTeamId);
    ("m_color_pref", bp_GameTColorPreference);
    ("m_race_pref", bp_TRacePreference);
    ("m_difficulty", bp_GameTDifficulty);
    ("m_ai_build", bp_GameTaiBuild);
    ("m_handicap", bp_GameTHandicap);
    ("m_observe", bp_EObserve);
    ("m_logo_index", bp_GameTPlayerLogoIndex);
    ("m_hero", bp_CHeroHandle);
    ("m_skin", bp_CSkinHandle);
    ("m_mount", bp_CMountHandle);
    ("m_artifacts", bp_GameCArtifactArray);
    ("m_working_set_slot_id", (BOpt bp_Uint8));
    ("m_rewards", bp_GameCRewardArray);
    ("m_toon_handle", bp_CToonHandle);
    ("m_licenses", bp_GameCLicenseArray);
    ("m_tandem_leader_id", (BOpt bp_TUserId));
    ("m_commander", bp_CCommanderHandle);
    ("m_commander_level", bp_Uint32);
    ("m_has_silence_penalty", BBool);
    ("m_tandem_id", (BOpt bp_TUserId));
    ("m_commander_mastery_level", bp_Uint32);
    ("m_commander_mastery_talents", bp_GameCCommanderMasteryTalentArray);
    ("m_trophy_id", bp_Uint32);
    ("m_reward_overrides", bp_GameCRewardOverrideArray);
    ("m_brutal_plus_difficulty", bp_Uint32);
    ("m_retry_mutation_indexes", bp_GameCRetryMutationIndexArray);
    ("m_a_c_enemy_race", bp_Uint32);
    ("m_a_c_enemy_wave_type", bp_Uint32);
    ("m_selected_commander_prestige", bp_Uint32)].

(** Model of src/versions/protocol87702/mod.rs:16699-16714 [GameCLobbySlotArray::parse] and its field parsers. *)
Definition bp_GameCLobbySlotArray : bty :=
  BArray 5 bp_GameSLobbySlot.

(** Model of src/versions/protocol87702/mod.rs:16921-17096 [GameSLobbyState::parse] and its field parsers. *)
Definition bp_GameSLobbyState : bty :=
  BStruct [
    ("m_phase", bp_GameEPhase);
    ("m_max_users", bp_TUserCount);
    ("m_max_observers", bp_TUserCount);
    ("m_slots", bp_GameCLobbySlotArray);
    ("m_random_seed", bp_Uint32);
    ("m_host_user_id", (BOpt bp_TUserId));
    ("m_is_single_player", BBool);
    ("m_picked_map_tag", bp_Uint8);
    ("m_game_duration", bp_Uint32);
    ("m_default_difficulty", bp_GameTDifficulty);
    ("m_default_ai_build", bp_GameTaiBuild)].

(** Model of src/versions/protocol87702/mod.rs:17107-17159 [GameSLobbySyncState::parse] and its field parsers. *)
Definition bp_GameSLobbySyncState : bty :=
  BStruct [
    ("m_user_initial_data", bp_CUserInitialDataArray);
    ("m_game_description", bp_GameSGameDescription);
    ("m_lobby_state", bp_GameSLobbyState)].

(** Model of src/versions/protocol87702/mod.rs:17172-17203 [GameEMessageRecipient::parse] and its field parsers. *)
Definition bp_GameEMessageRecipient : bty :=
  BEnum 3 [(0, "EAll"); (1, "EAllies"); (2, "EIndividual"); (3, "EBattlenet"); (4, "EObservers")].

(** Model of src/versions/protocol87702/mod.rs:17282-17319 [GameSChatMessage::parse] and its field parsers. *)
Definition bp_GameSChatMessage : bty :=
  BStruct [
    ("m_recipient", bp_GameEMessageRecipient);
    ("m_string", bp_GameCChatString)].

(** Model of src/versions/protocol87702/mod.rs:17329-17364 [GameSPingMessage::parse] and its field parsers. *)
Definition bp_GameSPingMessage : bty :=
  BStruct [
    ("m_recipient", bp_GameEMessageRecipient);
    ("m_point", bp_GameSPoint)].

(** Model of src/versions/protocol87702/mod.rs:17373-17393 [GameSLoadingProgressMessage::parse] and its field parsers. *)
Definition bp_GameSLoadingProgressMessage : bty :=
  BStruct [
    ("m_progress", bp_Int32)].

(** Model of src/versions/protocol87702/mod.rs:17400-17403 [GameSServerPingMessage::parse] and its field parsers. *)
Definition bp_GameSServerPingMessage : bty :=
  BStruct [].

(** Model of src/versions/protocol87702/mod.rs:17412-17434 [GameSReconnectNotifyMessage::parse] and its field parsers. *)
Definition bp_GameSReconnectNotifyMessage : bty :=
  BStruct [
    ("m_status", bp_EReconnectStatus)].

(** Model of src/versions/protocol87702/mod.rs:17231-17272 [GameEMessageId::parse] and its field parsers. *)
Definition bp_GameEMessageId : bty :=
  BChoice 4 [
    (0, "EChat", bp_GameSChatMessage);
    (1, "EPing", bp_GameSPingMessage);
    (2, "ELoadingProgress", bp_GameSLoadingProgressMessage);
    (3, "EServerPing", bp_GameSServerPingMessage);
    (4, "EReconnectNotify", bp_GameSReconnectNotifyMessage)].

(** Model of src/versions/protocol87702/mod.rs:17474-17501 [GameEResultCode::parse] and its field parsers. *)
Definition bp_GameEResultCode : bty :=
  BEnum 2 [(0, "EUndecided"); (1, "ELoss"); (2, "ETie"); (3, "EWin")].

(** Model of src/versions/protocol87702/mod.rs:17629-17634 [GameTControlGroupCount::parse] and its field parsers. *)
Definition bp_GameTControlGroupCount : bty :=
  BInt (0) 4.

(** Model of src/versions/protocol87702/mod.rs:18066-18069 [GameTSyncValue::parse] and its field parsers. *)
Definition bp_GameTSyncValue : bty :=
  bp_Uint16.

(** Model of src/versions/protocol87702/mod.rs:18078-18107 [GameSSessionSyncInfo::parse] and its field parsers. *)
Definition bp_GameSSessionSyncInfo : bty :=
  BStruct [
    ("m_checksums", (BArray 6 bp_GameTSyncChecksum))].

(** Model of src/versions/protocol87702/mod.rs:18116-18145 [GameSGameSyncInfo::parse] and its field parsers. *)
Definition bp_GameSGameSyncInfo : bty :=
  BStruct [
    ("m_checksums", (BArray 8 bp_GameTSyncChecksum))].

(** Model of src/versions/protocol87702/mod.rs:18182-18204 [ReplaySInitData::parse] and its field parsers. *)
Definition bp_ReplaySInitData : bty :=
  BStruct [
    ("m_sync_lobby_state", bp_GameSLobbySyncState)].

(** Model of src/versions/protocol87702/mod.rs:18213-18233 [ReplaySGameUserId::parse] and its field parsers. *)
Definition bp_ReplaySGameUserId : bty :=
  BStruct [
    ("m_user_id", (BInt 0 5))].

(** ** Protocol 75689: the types it does not take over from 87702 *)

(** Model of src/versions/protocol75689/mod.rs:1309-1418 [GameSCmdEvent::parse] and its field parsers. *)
Definition bp75_GameSCmdEvent : bty :=
  BStruct [
    ("m_cmd_flags", (BInt 0 26));
    ("m_abil", (BOpt bp_GameSCmdAbil));
    ("m_data", bp_GameSCmdData);
    ("m_sequence", (BInt 1 32));
    ("m_other_unit", (BOpt bp_GameTUnitTag));
    ("m_unit_group", (BOpt bp_Uint32))].

(** Model of src/versions/protocol75689/mod.rs:450-1199 [GameEEventId::parse] and its field parsers. *)
Definition bp75_GameEEventId : bty :=
  BChoice 7 [
    (0, "ESetLobbySlot", bp_GameSSetLobbySlotEvent);
    (1, "EDropUser", bp_GameSDropUserEvent);
    (2, "EStartGame", bp_GameSStartGameEvent);
    (3, "EDropOurselves", bp_GameSDropOurselvesEvent);
    (4, "EUserFinishedLoading", bp_GameSUserFinishedLoadingEvent);
    (5, "EUserFinishedLoadingSync", bp_GameSUserFinishedLoadingSyncEvent);
    (6, "ESetGameDuration", bp_GameSSetGameDurationEvent);
    (7, "EUserOptions", bp_GameSUserOptionsEvent);
    (114, "EPickMapTag", bp_GameSPickMapTagEvent);
    (8, "ETurn", bp_GameSTurnEvent);
    (9, "EBankFile", bp_GameSBankFileEvent);
    (10, "EBankSection", bp_GameSBankSectionEvent);
    (11, "EBankKey", bp_GameSBankKeyEvent);
    (12, "EBankValue", bp_GameSBankValueEvent);
    (13, "EBankSignature", bp_GameSBankSignatureEvent);
    (14, "ECameraSave", bp_GameSCameraSaveEvent);
    (15, "EPauseGame", bp_GameSPauseGameEvent);
    (16, "EUnpauseGame", bp_GameSUnpauseGameEvent);
    (17, "ESingleStepGame", bp_GameSSingleStepGameEvent);
    (18, "ESetGameSpeed", bp_GameSSetGameSpeedEvent);
    (19, "EAddGameSpeed", bp_GameSAddGameSpeedEvent);
    (20, "EReplayJump", bp_GameSReplayJumpEvent);
    (21, "ESaveGame", bp_GameSSaveGameEvent);
    (22, "ESaveGameDone", bp_GameSSaveGameDoneEvent);
    (23, "ELoadGameDone", bp_GameSLoadGameDoneEvent);
    (24, "ESessionCheat", bp_GameSSessionCheatEvent);
    (25, "ECommandManagerReset", bp_GameSCommandManagerResetEvent);
    (26, "EGameCheat", bp_GameSGameCheatEvent);
    (27, "ECmd", bp75_GameSCmdEvent);
    (28, "ESelectionDelta", bp_GameSSelectionDeltaEvent);
    (29, "EControlGroupUpdate", bp_GameSControlGroupUpdateEvent);
    (30, "ESelectionSyncCheck", bp_GameSSelectionSyncCheckEvent);
    (31, "EResourceTrade", bp_GameSResourceTradeEvent);
    (32, "ETriggerChatMessage", bp_GameSTriggerChatMessageEvent);
    (33, "EAiCommunicate", bp_GameSaiCommunicateEvent);
    (34, "ESetAbsoluteGameSpeed", bp_GameSSetAbsoluteGameSpeedEvent);
    (35, "EAddAbsoluteGameSpeed", bp_GameSAddAbsoluteGameSpeedEvent);
    (36, "ETriggerPing", bp_GameSTriggerPingEvent);
    (37, "EBroadcastCheat", bp_GameSBroadcastCheatEvent);
    (38, "EAlliance", bp_GameSAllianceEvent);
    (39, "EUnitClick", bp_GameSUnitClickEvent);
    (40, "EUnitHighlight", bp_GameSUnitHighlightEvent);
    (41, "ETriggerReplySelected", bp_GameSTriggerReplySelectedEvent);
    (42, "EHijackReplaySession", bp_GameSHijackReplaySessionEvent);
    (43, "EHijackReplayGame", bp_GameSHijackReplayGameEvent);
    (44, "ETriggerSkipped", bp_GameSTriggerSkippedEvent);
    (45, "ETriggerSoundLengthQuery", bp_GameSTriggerSoundLengthQueryEvent);
    (46, "ETriggerSoundOffset", bp_GameSTriggerSoundOffsetEvent);
    (47, "ETriggerTransmissionOffset", bp_GameSTriggerTransmissionOffsetEvent);
    (48, "ETriggerTransmissionComplete", bp_GameSTriggerTransmissionCompleteEvent);
    (49, "ECameraUpdate", bp_GameSCameraUpdateEvent);
    (50, "ETriggerAbortMission", bp_GameSTriggerAbortMissionEvent);
    (51, "ETriggerPurchaseMade", bp_GameSTriggerPurchaseMadeEvent);
    (52, "ETriggerPurchaseExit", bp_GameSTriggerPurchaseExitEvent);
    (53, "ETriggerPlanetMissionLaunched", bp_GameSTriggerPlanetMissionLaunchedEvent);
    (54, "ETriggerPlanetPanelCanceled", bp_GameSTriggerPlanetPanelCanceledEvent);
    (55, "ETriggerDialogControl", bp_GameSTriggerDialogControlEvent);
    (56, "ETriggerSoundLengthSync", bp_GameSTriggerSoundLengthSyncEvent);
    (57, "ETriggerConversationSkipped", bp_GameSTriggerConversationSkippedEvent);
    (58, "ETriggerMouseClicked", bp_GameSTriggerMouseClickedEvent);
    (59, "ETriggerMouseMoved", bp_GameSTriggerMouseMovedEvent);
    (60, "EAchievementAwarded", bp_GameSAchievementAwardedEvent);
    (61, "ETriggerHotkeyPressed", bp_GameSTriggerHotkeyPressedEvent);
    (62, "ETriggerTargetModeUpdate", bp_GameSTriggerTargetModeUpdateEvent);
    (63, "ETriggerPlanetPanelPanelReplay", bp_GameSTriggerPlanetPanelReplayEvent);
    (64, "ETriggerSoundtrackDone", bp_GameSTriggerSoundtrackDoneEvent);
    (65, "ETriggerPlanetMissionSelected", bp_GameSTriggerPlanetMissionSelectedEvent);
    (66, "ETriggerKeyPressed", bp_GameSTriggerKeyPressedEvent);
    (67, "ETriggerMovieFunction", bp_GameSTriggerMovieFunctionEvent);
    (68, "ETriggerPlanetPanelPanelBirthComplete", bp_GameSTriggerPlanetPanelBirthCompleteEvent);
    (69, "ETriggerPlanetPanelPanelDeathComplete", bp_GameSTriggerPlanetPanelDeathCompleteEvent);
    (70, "EResourceRequest", bp_GameSResourceRequestEvent);
    (71, "EResourceRequestFulfill", bp_GameSResourceRequestFulfillEvent);
    (72, "EResourceRequestCancel", bp_GameSResourceRequestCancelEvent);
    (73, "ETriggerResearchPanelExit", bp_GameSTriggerResearchPanelExitEvent);
    (74, "ETriggerResearchPanelPurchase", bp_GameSTriggerResearchPanelPurchaseEvent);
    (75, "ETriggerResearchPanelSelectionChanged", bp_GameSTriggerResearchPanelSelectionChangedEvent);
    (76, "ETriggerCommandError", bp_GameSTriggerCommandErrorEvent);
    (77, "ETriggerMercenaryPanelExit", bp_GameSTriggerMercenaryPanelExitEvent);
    (78, "ETriggerMercenaryPanelPurchase", bp_GameSTriggerMercenaryPanelPurchaseEvent);
    (79, "ETriggerMercenaryPanelSelectionChanged", bp_GameSTriggerMercenaryPanelSelectionChangedEvent);
    (80, "ETriggerVictoryPanelExit", bp_GameSTriggerVictoryPanelExitEvent);
    (81, "ETriggerBattleReportPanelExit", bp_GameSTriggerBattleReportPanelExitEvent);
    (82, "ETriggerBattleReportPanelPlayMission", bp_GameSTriggerBattleReportPanelPlayMissionEvent);
    (83, "ETriggerBattleReportPanelPlayScene", bp_GameSTriggerBattleReportPanelPlaySceneEvent);
    (84, "ETriggerBattleReportSelectionChanged", bp_GameSTriggerBattleReportPanelSelectionChangedEvent);
    (85, "ETriggerVictoryPanelPlayMissionAgain", bp_GameSTriggerVictoryPanelPlayMissionAgainEvent);
    (86, "ETriggerMovieStarted", bp_GameSTriggerMovieStartedEvent);
    (87, "ETriggerMovieFinished", bp_GameSTriggerMovieFinishedEvent);
    (88, "EDecrementGameTimeRemaining", bp_GameSDecrementGameTimeRemainingEvent);
    (89, "ETriggerPortraitLoaded", bp_GameSTriggerPortraitLoadedEvent);
    (90, "ETriggerQueryDialogDismissed", bp_GameSTriggerCustomDialogDismissedEvent);
    (91, "ETriggerGameMenuItemSelected", bp_GameSTriggerGameMenuItemSelectedEvent);
    (92, "ETriggerMouseWheel", bp_GameSTriggerMouseWheelEvent);
    (93, "ETriggerPurchasePanelSelectedPurchaseItemChanged", bp_GameSTriggerPurchasePanelSelectedPurchaseItemChangedEvent);
    (94, "ETriggerPurchasePanelSelectedPurchaseCategoryChanged", bp_GameSTriggerPurchasePanelSelectedPurchaseCategoryChangedEvent);
    (95, "ETriggerButtonPressed", bp_GameSTriggerButtonPressedEvent);
    (96, "ETriggerGameCreditsFinished", bp_GameSTriggerGameCreditsFinishedEvent);
    (97, "ETriggerCutsceneBookmarkFired", bp_GameSTriggerCutsceneBookmarkFiredEvent);
    (98, "ETriggerCutsceneEndSceneFired", bp_GameSTriggerCutsceneEndSceneFiredEvent);
    (99, "ETriggerCutsceneConversationLine", bp_GameSTriggerCutsceneConversationLineEvent);
    (100, "ETriggerCutsceneConversationLineMissing", bp_GameSTriggerCutsceneConversationLineMissingEvent);
    (101, "EGameUserLeave", bp_GameSGameUserLeaveEvent);
    (102, "EGameUserJoin", bp_GameSGameUserJoinEvent);
    (103, "ECommandManagerState", bp_GameSCommandManagerStateEvent);
    (104, "ECmdUpdateTargetPoint", bp_GameSCmdUpdateTargetPointEvent);
    (105, "ECmdUpdateTargetUnit", bp_GameSCmdUpdateTargetUnitEvent);
    (106, "ETriggerAnimLengthQueryByName", bp_GameSTriggerAnimLengthQueryByNameEvent);
    (107, "ETriggerAnimLengthQueryByProps", bp_GameSTriggerAnimLengthQueryByPropsEvent);
    (108, "ETriggerAnimOffset", bp_GameSTriggerAnimOffsetEvent);
    (109, "ECatalogModify", bp_GameSCatalogModifyEvent);
    (110, "EHeroTalentTreeSelected", bp_GameSHeroTalentTreeSelectedEvent);
    (111, "ETriggerProfilerLoggingFinished", bp_GameSTriggerProfilerLoggingFinishedEvent);
    (112, "EHeroTalentTreeSelectionPanelToggled", bp_GameSHeroTalentTreeSelectionPanelToggledEvent);
    (113, "EMuteUserChanged", bp_GameSMuteChatEvent);
    (115, "EConvertToReplaySession", bp_GameSConvertToReplaySessionEvent);
    (116, "ESetSyncLoadingTime", bp_GameSSetSyncLoadingTimeEvent);
    (117, "ESetSyncPlayingTime", bp_GameSSetSyncPlayingTimeEvent);
    (118, "EPeerSetSyncLoadingTime", bp_GameSPeerSetSyncLoadingTimeEvent);
    (119, "EPeerSetSyncPlayingTime", bp_GameSPeerSetSyncPlayingTimeEvent)].

(** Model of src/versions/protocol75689/mod.rs:1427-1432 [GameTHandicap::parse] and its field parsers. *)
Definition bp75_GameTHandicap : bty :=
  BInt (0) 7.

(** Model of src/versions/protocol75689/mod.rs:1441-1455 [GameCLicenseArray::parse] and its field parsers. *)
Definition bp75_GameCLicenseArray : bty :=
  BArray 13 bp_GameTLicense.

(** Model of src/versions/protocol75689/mod.rs:1490-1928 [GameSLobbySlot::parse] and its field parsers. *)
Definition bp75_GameSLobbySlot : bty :=
  BStruct [
    ("m_control", bp_GameTControlId);
    ("m_user_id", (BOpt bp_TUserId));
    ("m_team_id", bp_GameTTeamId);
    ("m_color_pref", bp_GameTColorPreference);
    ("m_race_pref", bp_TRacePreference);
    ("m_difficulty", bp_GameTDifficulty);
    ("m_ai_build", bp_GameTaiBuild);
    ("m_handicap", bp75_GameTHandicap);
    ("m_observe", bp_EObserve);
    ("m_logo_index", bp_GameTPlayerLogoIndex);
    ("m_hero", bp_CHeroHandle);
    ("m_skin", bp_CSkinHandle);
    ("m_mount", bp_CMountHandle);
    ("m_artifacts", bp_GameCArtifactArray);
    ("m_working_set_slot_id", (BOpt bp_Uint8));
    ("m_rewards", bp_GameCRewardArray);
    ("m_toon_handle", bp_CToonHandle);
    ("m_licenses", bp75_GameCLicenseArray);
    ("m_tandem_leader_id", (BOpt bp_TUserId));
    ("m_commander", bp_CCommanderHandle);
    ("m_commander_level", bp_Uint32);
    ("m_has_silence_penalty", BBool);
    ("m_tandem_id", (BOpt bp_TUserId));
    ("m_commander_mastery_level", bp_Uint32);
    ("m_commander_mastery_talents", bp_GameCCommanderMasteryTalentArray);
    ("m_trophy_id", bp_Uint32);
    ("m_reward_overrides", bp_GameCRewardOverrideArray)].

(** Model of src/versions/protocol75689/mod.rs:1956-2106 [GameSLobbySlotChange::parse] and its field parsers. *)
Definition bp75_GameSLobbySlotChange : bty :=
  BChoice 5 [
    (0, "MControl", bp_GameTControlId);
    (1, "MUserId", BOpt bp_TUserId);
    (2, "MTeamId", bp_GameTTeamId);
    (3, "MColorPref", bp_GameTColorPreference);
    (4, "MRacePref", bp_TRacePreference);
    (5, "MDifficulty", bp_GameTDifficulty);
    (6, "MAiBuild", bp_GameTaiBuild);
    (7, "MHandicap", bp75_GameTHandicap);
    (8, "MObserve", bp_EObserve);
    (9, "MLogoIndex", bp_GameTPlayerLogoIndex);
    (10, "MHero", bp_CHeroHandle);
    (11, "MSkin", bp_CSkinHandle);
    (12, "MMount", bp_CMountHandle);
    (13, "MLicenses", bp75_GameCLicenseArray);
    (14, "MTandemLeaderId", BOpt bp_TUserId);
    (15, "MCommander", bp_CCommanderHandle);
    (16, "MCommanderLevel", bp_Uint32);
    (17, "MHasSilencePenalty", BBool);
    (18, "MTandemId", BOpt bp_TUserId);
    (19, "MCommanderMasteryLevel", bp_Uint32)].

(** All types of protocol 87702, with their names. *)
Definition bp_all : list (string * bty) := [
  ("CFilePath", bp_CFilePath);
  ("TRaceId", bp_TRaceId);
  ("TRaceCount", bp_TRaceCount);
  ("TRacePreference", bp_TRacePreference);
  ("CAllowedRaces", bp_CAllowedRaces);
  ("Int8", bp_Int8);
  ("Int16", bp_Int16);
  ("Int32", bp_Int32);
  ("Int64", bp_Int64);
  ("Uint8", bp_Uint8);
  ("Uint16", bp_Uint16);
  ("Uint32", bp_Uint32);
  ("Uint64", bp_Uint64);
  ("Uint6", bp_Uint6);
  ("Uint14", bp_Uint14);
  ("Uint22", bp_Uint22);
  ("SVarUint32", bp_SVarUint32);
  ("TUserId", bp_TUserId);
  ("TUserCount", bp_TUserCount);
  ("CCacheHandle", bp_CCacheHandle);
  ("CUserName", bp_CUserName);
  ("CClanTag", bp_CClanTag);
  ("CHeroHandle", bp_CHeroHandle);
  ("CSkinHandle", bp_CSkinHandle);
  ("CMountHandle", bp_CMountHandle);
  ("CArtifactHandle", bp_CArtifactHandle);
  ("CToonHandle", bp_CToonHandle);
  ("CCommanderHandle", bp_CCommanderHandle);
  ("EObserve", bp_EObserve);
  ("CAllowedObserveTypes", bp_CAllowedObserveTypes);
  ("TTeamPreference", bp_TTeamPreference);
  ("SUserInitialData", bp_SUserInitialData);
  ("CUserInitialDataArray", bp_CUserInitialDataArray);
  ("ELeaveReason", bp_ELeaveReason);
  ("EReconnectStatus", bp_EReconnectStatus);
  ("SVersion", bp_SVersion);
  ("Smd5", bp_Smd5);
  ("GameTColorId", bp_GameTColorId);
  ("GameTColorCount", bp_GameTColorCount);
  ("GameTColorPreference", bp_GameTColorPreference);
  ("GameCAllowedColors", bp_GameCAllowedColors);
  ("GameTLobbySlotId", bp_GameTLobbySlotId);
  ("GameTControlId", bp_GameTControlId);
  ("GameTTeamId", bp_GameTTeamId);
  ("GameTDifficulty", bp_GameTDifficulty);
  ("GameTaiBuild", bp_GameTaiBuild);
  ("GameTHandicap", bp_GameTHandicap);
  ("GameTPlayerLogoIndex", bp_GameTPlayerLogoIndex);
  ("GameTLicense", bp_GameTLicense);
  ("GameCLicenseArray", bp_GameCLicenseArray);
  ("GameCRetryMutationIndexArray", bp_GameCRetryMutationIndexArray);
  ("GameSLobbySlotChange", bp_GameSLobbySlotChange);
  ("GameSSetLobbySlotEvent", bp_GameSSetLobbySlotEvent);
  ("GameSBankFileEvent", bp_GameSBankFileEvent);
  ("GameESynchronous", bp_GameESynchronous);
  ("GameSDropOurselvesEvent", bp_GameSDropOurselvesEvent);
  ("GameESynthesized", bp_GameESynthesized);
  ("GameSPickMapTagEvent", bp_GameSPickMapTagEvent);
  ("GameEDebug", bp_GameEDebug);
  ("GameEHijackMethod", bp_GameEHijackMethod);
  ("GameTQueryId", bp_GameTQueryId);
  ("GameSDropUserEvent", bp_GameSDropUserEvent);
  ("GameSStartGameEvent", bp_GameSStartGameEvent);
  ("GameSUserFinishedLoadingEvent", bp_GameSUserFinishedLoadingEvent);
  ("GameSUserFinishedLoadingSyncEvent", bp_GameSUserFinishedLoadingSyncEvent);
  ("GameSSetGameDurationEvent", bp_GameSSetGameDurationEvent);
  ("GameSUserOptionsEvent", bp_GameSUserOptionsEvent);
  ("GameSTurnEvent", bp_GameSTurnEvent);
  ("GameSBankSectionEvent", bp_GameSBankSectionEvent);
  ("GameSBankKeyEvent", bp_GameSBankKeyEvent);
  ("GameSBankValueEvent", bp_GameSBankValueEvent);
  ("GameSBankSignatureEvent", bp_GameSBankSignatureEvent);
  ("GameTFixedMiniBitsUnsigned", bp_GameTFixedMiniBitsUnsigned);
  ("GameSPointMini", bp_GameSPointMini);
  ("GameSCameraSaveEvent", bp_GameSCameraSaveEvent);
  ("GameSPauseGameEvent", bp_GameSPauseGameEvent);
  ("GameSUnpauseGameEvent", bp_GameSUnpauseGameEvent);
  ("GameSSingleStepGameEvent", bp_GameSSingleStepGameEvent);
  ("GameEGameSpeed", bp_GameEGameSpeed);
  ("GameSSetGameSpeedEvent", bp_GameSSetGameSpeedEvent);
  ("GameSAddGameSpeedEvent", bp_GameSAddGameSpeedEvent);
  ("GameSReplayJumpEvent", bp_GameSReplayJumpEvent);
  ("GameSSaveGameEvent", bp_GameSSaveGameEvent);
  ("GameSSaveGameDoneEvent", bp_GameSSaveGameDoneEvent);
  ("GameSLoadGameDoneEvent", bp_GameSLoadGameDoneEvent);
  ("GameTFixedBits", bp_GameTFixedBits);
  ("GameSPoint", bp_GameSPoint);
  ("GameCCheatString", bp_GameCCheatString);
  ("GameSCheatEventData", bp_GameSCheatEventData);
  ("GameSSessionCheatEvent", bp_GameSSessionCheatEvent);
  ("GameSCommandManagerResetEvent", bp_GameSCommandManagerResetEvent);
  ("GameSGameCheatEvent", bp_GameSGameCheatEvent);
  ("GameTAbilLink", bp_GameTAbilLink);
  ("GameSCmdAbil", bp_GameSCmdAbil);
  ("GameTMapCoordFixedBits", bp_GameTMapCoordFixedBits);
  ("GameSMapCoord3D", bp_GameSMapCoord3D);
  ("GameTUnitTag", bp_GameTUnitTag);
  ("GameTUnitLink", bp_GameTUnitLink);
  ("GameTPlayerId", bp_GameTPlayerId);
  ("GameSCmdDataTargetUnit", bp_GameSCmdDataTargetUnit);
  ("GameSCmdData", bp_GameSCmdData);
  ("GameSCmdEvent", bp_GameSCmdEvent);
  ("GameTControlGroupId", bp_GameTControlGroupId);
  ("GameTSubgroupIndex", bp_GameTSubgroupIndex);
  ("GameSelectionMaskType", bp_GameSelectionMaskType);
  ("GameTSelectionIndex", bp_GameTSelectionIndex);
  ("GameSelectionIndexArrayType", bp_GameSelectionIndexArrayType);
  ("GameSSelectionMask", bp_GameSSelectionMask);
  ("GameTSubgroupPriority", bp_GameTSubgroupPriority);
  ("GameTSelectionCount", bp_GameTSelectionCount);
  ("GameSSelectionDeltaSubgroup", bp_GameSSelectionDeltaSubgroup);
  ("GameSSelectionDelta", bp_GameSSelectionDelta);
  ("GameSSelectionDeltaEvent", bp_GameSSelectionDeltaEvent);
  ("GameTControlGroupIndex", bp_GameTControlGroupIndex);
  ("GameEControlGroupUpdate", bp_GameEControlGroupUpdate);
  ("GameSControlGroupUpdateEvent", bp_GameSControlGroupUpdateEvent);
  ("GameTSubgroupCount", bp_GameTSubgroupCount);
  ("GameTSyncChecksum", bp_GameTSyncChecksum);
  ("GameSSelectionSyncData", bp_GameSSelectionSyncData);
  ("GameSSelectionSyncCheckEvent", bp_GameSSelectionSyncCheckEvent);
  ("GameSResourceTradeEvent", bp_GameSResourceTradeEvent);
  ("GameCTriggerChatMessageString", bp_GameCTriggerChatMessageString);
  ("GameSTriggerChatMessageEvent", bp_GameSTriggerChatMessageEvent);
  ("GameSPoint3", bp_GameSPoint3);
  ("GameSaiCommunicateEvent", bp_GameSaiCommunicateEvent);
  ("GameSSetAbsoluteGameSpeedEvent", bp_GameSSetAbsoluteGameSpeedEvent);
  ("GameSAddAbsoluteGameSpeedEvent", bp_GameSAddAbsoluteGameSpeedEvent);
  ("GameSTriggerPingEvent", bp_GameSTriggerPingEvent);
  ("GameSBroadcastCheatEvent", bp_GameSBroadcastCheatEvent);
  ("GameSAllianceEvent", bp_GameSAllianceEvent);
  ("GameSUnitClickEvent", bp_GameSUnitClickEvent);
  ("GameSUnitHighlightEvent", bp_GameSUnitHighlightEvent);
  ("GameSTriggerReplySelectedEvent", bp_GameSTriggerReplySelectedEvent);
  ("GameSHijackReplaySessionUserInfo", bp_GameSHijackReplaySessionUserInfo);
  ("GameSHijackReplaySessionEvent", bp_GameSHijackReplaySessionEvent);
  ("GameCCacheHandle", bp_GameCCacheHandle);
  ("GameSHijackReplayGameUserInfo", bp_GameSHijackReplayGameUserInfo);
  ("GameSHijackReplayGameEvent", bp_GameSHijackReplayGameEvent);
  ("GameSTriggerSkippedEvent", bp_GameSTriggerSkippedEvent);
  ("GameSTriggerSoundLengthQueryEvent", bp_GameSTriggerSoundLengthQueryEvent);
  ("GameTTriggerSoundTag", bp_GameTTriggerSoundTag);
  ("GameSTriggerSoundOffsetEvent", bp_GameSTriggerSoundOffsetEvent);
  ("GameTTriggerThreadTag", bp_GameTTriggerThreadTag);
  ("GameSTriggerTransmissionOffsetEvent", bp_GameSTriggerTransmissionOffsetEvent);
  ("GameSTriggerTransmissionCompleteEvent", bp_GameSTriggerTransmissionCompleteEvent);
  ("GameSCameraUpdateEvent", bp_GameSCameraUpdateEvent);
  ("GameSTriggerAbortMissionEvent", bp_GameSTriggerAbortMissionEvent);
  ("GameSTriggerPurchaseMadeEvent", bp_GameSTriggerPurchaseMadeEvent);
  ("GameSTriggerPurchaseExitEvent", bp_GameSTriggerPurchaseExitEvent);
  ("GameSTriggerPlanetMissionLaunchedEvent", bp_GameSTriggerPlanetMissionLaunchedEvent);
  ("GameSTriggerPlanetPanelCanceledEvent", bp_GameSTriggerPlanetPanelCanceledEvent);
  ("GameCChatString", bp_GameCChatString);
  ("MEventData", bp_MEventData);
  ("GameSTriggerDialogControlEvent", bp_GameSTriggerDialogControlEvent);
  ("GameSSyncSoundLength", bp_GameSSyncSoundLength);
  ("GameSTriggerSoundLengthSyncEvent", bp_GameSTriggerSoundLengthSyncEvent);
  ("GameEConversationSkip", bp_GameEConversationSkip);
  ("GameSTriggerConversationSkippedEvent", bp_GameSTriggerConversationSkippedEvent);
  ("GameTuiCoordX", bp_GameTuiCoordX);
  ("GameTuiCoordY", bp_GameTuiCoordY);
  ("GameSuiCoord", bp_GameSuiCoord);
  ("GameSTriggerMouseClickedEvent", bp_GameSTriggerMouseClickedEvent);
  ("GameSTriggerMouseMovedEvent", bp_GameSTriggerMouseMovedEvent);
  ("GameTAchievementLink", bp_GameTAchievementLink);
  ("GameSAchievementAwardedEvent", bp_GameSAchievementAwardedEvent);
  ("GameSTriggerHotkeyPressedEvent", bp_GameSTriggerHotkeyPressedEvent);
  ("GameSTriggerTargetModeUpdateEvent", bp_GameSTriggerTargetModeUpdateEvent);
  ("GameSTriggerPlanetPanelReplayEvent", bp_GameSTriggerPlanetPanelReplayEvent);
  ("GameSTriggerSoundtrackDoneEvent", bp_GameSTriggerSoundtrackDoneEvent);
  ("GameSTriggerPlanetMissionSelectedEvent", bp_GameSTriggerPlanetMissionSelectedEvent);
  ("GameSTriggerKeyPressedEvent", bp_GameSTriggerKeyPressedEvent);
  ("GameSTriggerMovieFunctionEvent", bp_GameSTriggerMovieFunctionEvent);
  ("GameSTriggerPlanetPanelBirthCompleteEvent", bp_GameSTriggerPlanetPanelBirthCompleteEvent);
  ("GameSTriggerPlanetPanelDeathCompleteEvent", bp_GameSTriggerPlanetPanelDeathCompleteEvent);
  ("GameSResourceRequestEvent", bp_GameSResourceRequestEvent);
  ("GameSResourceRequestFulfillEvent", bp_GameSResourceRequestFulfillEvent);
  ("GameSResourceRequestCancelEvent", bp_GameSResourceRequestCancelEvent);
  ("GameSTriggerResearchPanelExitEvent", bp_GameSTriggerResearchPanelExitEvent);
  ("GameSTriggerResearchPanelPurchaseEvent", bp_GameSTriggerResearchPanelPurchaseEvent);
  ("GameSTriggerResearchPanelSelectionChangedEvent", bp_GameSTriggerResearchPanelSelectionChangedEvent);
  ("GameSTriggerCommandErrorEvent", bp_GameSTriggerCommandErrorEvent);
  ("GameSTriggerMercenaryPanelExitEvent", bp_GameSTriggerMercenaryPanelExitEvent);
  ("GameSTriggerMercenaryPanelPurchaseEvent", bp_GameSTriggerMercenaryPanelPurchaseEvent);
  ("GameSTriggerMercenaryPanelSelectionChangedEvent", bp_GameSTriggerMercenaryPanelSelectionChangedEvent);
  ("GameSTriggerVictoryPanelExitEvent", bp_GameSTriggerVictoryPanelExitEvent);
  ("GameSTriggerBattleReportPanelExitEvent", bp_GameSTriggerBattleReportPanelExitEvent);
  ("GameSTriggerBattleReportPanelPlayMissionEvent", bp_GameSTriggerBattleReportPanelPlayMissionEvent);
  ("GameSTriggerBattleReportPanelPlaySceneEvent", bp_GameSTriggerBattleReportPanelPlaySceneEvent);
  ("GameSTriggerBattleReportPanelSelectionChangedEvent", bp_GameSTriggerBattleReportPanelSelectionChangedEvent);
  ("GameSTriggerVictoryPanelPlayMissionAgainEvent", bp_GameSTriggerVictoryPanelPlayMissionAgainEvent);
  ("GameSTriggerMovieStartedEvent", bp_GameSTriggerMovieStartedEvent);
  ("GameSTriggerMovieFinishedEvent", bp_GameSTriggerMovieFinishedEvent);
  ("GameSDecrementGameTimeRemainingEvent", bp_GameSDecrementGameTimeRemainingEvent);
  ("GameSTriggerPortraitLoadedEvent", bp_GameSTriggerPortraitLoadedEvent);
  ("GameSTriggerCustomDialogDismissedEvent", bp_GameSTriggerCustomDialogDismissedEvent);
  ("GameSTriggerGameMenuItemSelectedEvent", bp_GameSTriggerGameMenuItemSelectedEvent);
  ("GameTFixedMiniBitsSigned", bp_GameTFixedMiniBitsSigned);
  ("GameSTriggerMouseWheelEvent", bp_GameSTriggerMouseWheelEvent);
  ("GameSTriggerPurchasePanelSelectedPurchaseItemChangedEvent", bp_GameSTriggerPurchasePanelSelectedPurchaseItemChangedEvent);
  ("GameSTriggerPurchasePanelSelectedPurchaseCategoryChangedEvent", bp_GameSTriggerPurchasePanelSelectedPurchaseCategoryChangedEvent);
  ("GameTButtonLink", bp_GameTButtonLink);
  ("GameSTriggerButtonPressedEvent", bp_GameSTriggerButtonPressedEvent);
  ("GameSTriggerGameCreditsFinishedEvent", bp_GameSTriggerGameCreditsFinishedEvent);
  ("GameSTriggerCutsceneBookmarkFiredEvent", bp_GameSTriggerCutsceneBookmarkFiredEvent);
  ("GameSTriggerCutsceneEndSceneFiredEvent", bp_GameSTriggerCutsceneEndSceneFiredEvent);
  ("GameSTriggerCutsceneConversationLineEvent", bp_GameSTriggerCutsceneConversationLineEvent);
  ("GameSTriggerCutsceneConversationLineMissingEvent", bp_GameSTriggerCutsceneConversationLineMissingEvent);
  ("GameSGameUserLeaveEvent", bp_GameSGameUserLeaveEvent);
  ("GameSGameUserJoinEvent", bp_GameSGameUserJoinEvent);
  ("GameECommandManagerState", bp_GameECommandManagerState);
  ("GameSCommandManagerStateEvent", bp_GameSCommandManagerStateEvent);
  ("GameSCmdUpdateTargetPointEvent", bp_GameSCmdUpdateTargetPointEvent);
  ("GameSCmdUpdateTargetUnitEvent", bp_GameSCmdUpdateTargetUnitEvent);
  ("GameSTriggerAnimLengthQueryByNameEvent", bp_GameSTriggerAnimLengthQueryByNameEvent);
  ("GameSTriggerAnimLengthQueryByPropsEvent", bp_GameSTriggerAnimLengthQueryByPropsEvent);
  ("GameSTriggerAnimOffsetEvent", bp_GameSTriggerAnimOffsetEvent);
  ("GameSCatalogModifyEvent", bp_GameSCatalogModifyEvent);
  ("GameSHeroTalentTreeSelectedEvent", bp_GameSHeroTalentTreeSelectedEvent);
  ("GameSTriggerProfilerLoggingFinishedEvent", bp_GameSTriggerProfilerLoggingFinishedEvent);
  ("GameSHeroTalentTreeSelectionPanelToggledEvent", bp_GameSHeroTalentTreeSelectionPanelToggledEvent);
  ("GameSMuteChatEvent", bp_GameSMuteChatEvent);
  ("GameSConvertToReplaySessionEvent", bp_GameSConvertToReplaySessionEvent);
  ("GameSSetSyncLoadingTimeEvent", bp_GameSSetSyncLoadingTimeEvent);
  ("GameSSetSyncPlayingTimeEvent", bp_GameSSetSyncPlayingTimeEvent);
  ("GameSPeerSetSyncLoadingTimeEvent", bp_GameSPeerSetSyncLoadingTimeEvent);
  ("GameSPeerSetSyncPlayingTimeEvent", bp_GameSPeerSetSyncPlayingTimeEvent);
  ("GameEEventId", bp_GameEEventId);
  ("GameEPhase", bp_GameEPhase);
  ("GameTAchievementTermLink", bp_GameTAchievementTermLink);
  ("GameTFixedInt", bp_GameTFixedInt);
  ("GameTFixedUInt", bp_GameTFixedUInt);
  ("GameTHeroLink", bp_GameTHeroLink);
  ("GameSMapCoord", bp_GameSMapCoord);
  ("GameCAllowedDifficulty", bp_GameCAllowedDifficulty);
  ("GameCAllowedAiBuild", bp_GameCAllowedAiBuild);
  ("GameSThumbnail", bp_GameSThumbnail);
  ("GameSColor", bp_GameSColor);
  ("GameEResultDetails", bp_GameEResultDetails);
  ("GameSToonNameDetails", bp_GameSToonNameDetails);
  ("GameSPlayerDetails", bp_GameSPlayerDetails);
  ("GameCPlayerDetailsArray", bp_GameCPlayerDetailsArray);
  ("GameCModPaths", bp_GameCModPaths);
  ("GameCCacheHandles", bp_GameCCacheHandles);
  ("GameSDetails", bp_GameSDetails);
  ("GameEOptionFog", bp_GameEOptionFog);
  ("GameEOptionObservers", bp_GameEOptionObservers);
  ("GameEOptionUserDifficulty", bp_GameEOptionUserDifficulty);
  ("GameEGameLaunch", bp_GameEGameLaunch);
  ("GameEClientDebugFlags", bp_GameEClientDebugFlags);
  ("GameSGameOptions", bp_GameSGameOptions);
  ("GameEGameType", bp_GameEGameType);
  ("GameEControl", bp_GameEControl);
  ("GameTControlCount", bp_GameTControlCount);
  ("GameCAllowedControls", bp_GameCAllowedControls);
  ("GameSSlotDescription", bp_GameSSlotDescription);
  ("GameCGameCacheName", bp_GameCGameCacheName);
  ("GameCAuthorName", bp_GameCAuthorName);
  ("GameSSlotDescriptions", bp_GameSSlotDescriptions);
  ("GameTPlayerCount", bp_GameTPlayerCount);
  ("GameTTeamCount", bp_GameTTeamCount);
  ("GameSGameDescription", bp_GameSGameDescription);
  ("GameTLobbySlotCount", bp_GameTLobbySlotCount);
  ("GameCArtifactArray", bp_GameCArtifactArray);
  ("GameCCommanderMasteryTalentArray", bp_GameCCommanderMasteryTalentArray);
  ("GameTReward", bp_GameTReward);
  ("GameCRewardArray", bp_GameCRewardArray);
  ("GameCRewardOverride", bp_GameCRewardOverride);
  ("GameCRewardOverrideArray", bp_GameCRewardOverrideArray);
  ("GameTFlexLicenseName", bp_GameTFlexLicenseName);
  ("GameTFlexLicenseAttributeName", bp_GameTFlexLicenseAttributeName);
  ("GameTFlexLicenseAttributeValue", bp_GameTFlexLicenseAttributeValue);
  ("GameSLobbySlot", bp_GameSLobbySlot);
  ("GameCLobbySlotArray", bp_GameCLobbySlotArray);
  ("GameSLobbyState", bp_GameSLobbyState);
  ("GameSLobbySyncState", bp_GameSLobbySyncState);
  ("GameEMessageRecipient", bp_GameEMessageRecipient);
  ("GameSChatMessage", bp_GameSChatMessage);
  ("GameSPingMessage", bp_GameSPingMessage);
  ("GameSLoadingProgressMessage", bp_GameSLoadingProgressMessage);
  ("GameSServerPingMessage", bp_GameSServerPingMessage);
  ("GameSReconnectNotifyMessage", bp_GameSReconnectNotifyMessage);
  ("GameEMessageId", bp_GameEMessageId);
  ("GameEResultCode", bp_GameEResultCode);
  ("GameTControlGroupCount", bp_GameTControlGroupCount);
  ("GameTSyncValue", bp_GameTSyncValue);
  ("GameSSessionSyncInfo", bp_GameSSessionSyncInfo);
  ("GameSGameSyncInfo", bp_GameSGameSyncInfo);
  ("ReplaySInitData", bp_ReplaySInitData);
  ("ReplaySGameUserId", bp_ReplaySGameUserId)].

(** The types protocol 75689 defines itself. *)
Definition bp75_all : list (string * bty) := [
  ("GameSCmdEvent", bp75_GameSCmdEvent);
  ("GameEEventId", bp75_GameEEventId);
  ("GameTHandicap", bp75_GameTHandicap);
  ("GameCLicenseArray", bp75_GameCLicenseArray);
  ("GameSLobbySlot", bp75_GameSLobbySlot);
  ("GameSLobbySlotChange", bp75_GameSLobbySlotChange)].
