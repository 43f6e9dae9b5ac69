(** * C74, C75: details and init data are what the file says *)
From Coq Require Import Ascii.
From Verif Require Import Base Types Utf8 Events ConvertSpec VersionedEncode Versioned ByteTypes BitInterp BitTypes BitSpec BitEncode BitFacts Lobby Times DetailsData DetailsSpec DetailsFacts.
#[local] Open Scope string_scope.
#[local] Open Scope Z_scope.
#[local] Open Scope list_scope.

(** C74.  Whatever a details sector decodes to: either the details show every
    field of it, with the requested file id and the time of the recorded ticks
    (to two microseconds, see C56), and all shown texts were UTF-8; or it is the
    UTF-8 error and some shown text was not.  A sector that does not decode is
    reported as such. *)
Theorem C74_details : forall m fs l, bytes_ok l ->
  match vparse m ba_GameSDetails l with
  | Ok (_, v) =>
      (exists d, details_new m fs l = Ok d /\ details_shown v d /\ Forall is_utf8 (shown_texts details_skip v) /\ xd_fs_id d = fs /\
         Z.abs (nanos (xd_datetime d) - (xd_time_utc d - epoch_ticks - xd_time_local_offset d) * 100) < 2000) \/
      (details_new m fs l = Err EUtf8 /\ ~ Forall is_utf8 (shown_texts details_skip v))
  | Err e => details_new m fs l = Err e
  | Panic => details_new m fs l = Panic
  end.
Proof. exact details_new_cases. Qed.
Print Assumptions C74_details.
(** Hexadecimal handles determine their bytes. *)
Theorem C74_hex : forall l, bytes_ok l -> read_hex (hex l) = Some l.
Proof. exact read_hex_hex. Qed.
Print Assumptions C74_hex.
Definition bytes (s : string) : val := VBytes (bytes_of_str s).
Definition example_player (name : list Z) (observe result : string) (slot : option val) : val := VStruct [
  ("m_name", VBytes name);
  ("m_toon", VStruct [("m_region", VInt 2); ("m_program_id", VInt 21298); ("m_realm", VInt 1); ("m_name", VBytes [255]); ("m_id", VInt 3141592)]);
  ("m_race", bytes "Zerg");
  ("m_color", VStruct [("m_a", VInt 255); ("m_r", VInt 180); ("m_g", VInt 20); ("m_b", VInt 30)]);
  ("m_control", VInt 2); ("m_team_id", VInt 1); ("m_handicap", VInt 100); ("m_observe", VEnum observe); ("m_result", VEnum result);
  ("m_working_set_slot_id", VOpt slot); ("m_hero", bytes "")].
Definition example_raw (players : option val) (title : list Z) : val := VStruct [
  ("m_player_list", VOpt players); ("m_title", VBytes title); ("m_difficulty", bytes ""); ("m_thumbnail", VStruct [("m_file", bytes "Minimap.tga")]);
  ("m_is_blizzard_map", VBool true); ("m_time_utc", VInt 133400449171234567); ("m_time_local_offset", VInt 72000000000);
  ("m_restart_as_transition_map", VOpt None); ("m_disable_recover_game", VBool false); ("m_description", bytes ""); ("m_image_file_path", bytes "");
  ("m_campaign_index", VInt 0); ("m_map_file_name", bytes ""); ("m_cache_handles", VOpt (Some (VList [VBytes [115; 50; 109; 97; 0; 0; 69; 85; 222]])));
  ("m_mini_save", VBool false); ("m_game_speed", VEnum "EFaster"); ("m_default_difficulty", VInt 7); ("m_mod_paths", VOpt None)].
(** Two players, one of them an observer; a name in a battle.net handle that is
    not UTF-8 does no harm, a title that is not UTF-8 is an error. *)
Example C74_example :
  exists l, vencode ba_GameSDetails (example_raw (Some (VList [example_player [195; 169] "ENone" "EWin" (Some (VInt 4)); example_player [65] "EReferee" "EUndecided" None])) [84; 79]) = Some l /\
  forallb in_u8 l = true /\
  details_new Checked 7 l = Ok (mk_full_details 7 (1695564117, 123456000) [
    mk_player (str_of_bytes [195; 169]) (mk_toon 2 21298 1 3141592) "Zerg" (255, 180, 20, 30) 2 1 100 0 "Win" (Some 4) "";
    mk_player "A" (mk_toon 2 21298 1 3141592) "Zerg" (255, 180, 20, 30) 2 1 100 2 "Undecided" None ""]
    "TO" "" "Minimap.tga" true 133400449171234567 72000000000 None false "" "" 0 "" ["73326d6100004555de"] false "Faster" 7 []).
Proof. eexists. split; [vm_compute; reflexivity|]. split; [vm_compute; reflexivity|]. vm_compute. reflexivity. Qed.
Example C74_example_not_utf8 :
  exists l, vencode ba_GameSDetails (example_raw None [84; 255]) = Some l /\ details_new Checked 7 l = Err EUtf8.
Proof. eexists. split; [vm_compute; reflexivity|]. vm_compute. reflexivity. Qed.

(** C75.  The same for the init data, with the requested file id, name and
    digest; and no init data buffer makes the decoder panic. *)
Theorem C75_init_data : forall m file fs sha l, bytes_ok l ->
  match bparse m bp_ReplaySInitData (l, 0%nat) with
  | Ok (_, v) =>
      (exists d, init_new m file fs sha l = Ok d /\ init_shown v d /\ Forall is_utf8 (shown_texts init_skip v) /\
         xi_fs_id d = fs /\ xi_sha256 d = sha /\ xi_file_name d = file) \/
      (init_new m file fs sha l = Err EUtf8 /\ ~ Forall is_utf8 (shown_texts init_skip v))
  | Err e => init_new m file fs sha l = Err e
  | Panic => False
  end.
Proof. exact init_new_cases. Qed.
Print Assumptions C75_init_data.

Definition example_user (name : string) (clan : option val) : val := VStruct [
  ("m_name", bytes name); ("m_clan_tag", VOpt clan); ("m_clan_logo", VOpt None); ("m_highest_league", VOpt (Some (VInt 6))); ("m_combined_race_levels", VOpt (Some (VInt 4000000000)));
  ("m_random_seed", VInt 4294967295); ("m_race_preference", VStruct [("m_race", VOpt (Some (VInt 2)))]); ("m_team_preference", VStruct [("m_team", VOpt None)]);
  ("m_test_map", VBool false); ("m_test_auto", VBool false); ("m_examine", VBool true); ("m_custom_interface", VBool false); ("m_test_type", VInt 0); ("m_observe", VEnum "ESpectator");
  ("m_hero", bytes "h"); ("m_skin", bytes "s"); ("m_mount", bytes "m"); ("m_toon_handle", bytes "2-S2-1-1"); ("m_scaled_rating", VOpt (Some (VInt (-5))))].
Definition example_options : val := VStruct [
  ("m_lock_teams", VBool true); ("m_teams_together", VBool false); ("m_advanced_shared_control", VBool true); ("m_random_races", VBool false); ("m_battle_net", VBool true); ("m_amm", VBool true);
  ("m_competitive", VBool false); ("m_practice", VBool false); ("m_cooperative", VBool true); ("m_no_victory_or_defeat", VBool false); ("m_hero_duplicates_allowed", VBool true);
  ("m_fog", VEnum "EMapExplored"); ("m_observers", VEnum "EOnJoin"); ("m_user_difficulty", VEnum "EIndividual"); ("m_client_debug_flags", VInt 265); ("m_build_coach_enabled", VBool false)].
Definition example_description : val := VStruct [
  ("m_random_value", VInt 99); ("m_game_cache_name", bytes "c"); ("m_game_options", example_options); ("m_game_speed", VEnum "EFaster"); ("m_game_type", VEnum "EOneOnOne");
  ("m_max_users", VInt 16); ("m_max_observers", VInt 14); ("m_max_players", VInt 2); ("m_max_teams", VInt 3); ("m_max_colors", VInt 15); ("m_max_races", VInt 256); ("m_max_controls", VInt 9);
  ("m_map_size_x", VInt 200); ("m_map_size_y", VInt 176); ("m_map_file_sync_checksum", VInt 4123456789); ("m_map_file_name", bytes "f"); ("m_map_author_name", bytes "a"); ("m_mod_file_sync_checksum", VInt 5);
  ("m_slot_descriptions", VList []); ("m_default_difficulty", VInt 3); ("m_default_ai_build", VInt 1); ("m_cache_handles", VList []);
  ("m_has_extension_mod", VBool false); ("m_has_non_blizzard_extension_mod", VBool true); ("m_is_blizzard_map", VBool true); ("m_is_premade_ffa", VBool false); ("m_is_coop_mode", VBool false); ("m_is_realtime_mode", VBool true)].
Definition example_slot : val := VStruct [
  ("m_control", VInt 2); ("m_user_id", VOpt (Some (VInt 0))); ("m_team_id", VInt 1); ("m_color_pref", VStruct [("m_color", VOpt (Some (VInt 3)))]); ("m_race_pref", VStruct [("m_race", VOpt None)]);
  ("m_difficulty", VInt 3); ("m_ai_build", VInt 0); ("m_handicap", VInt 100); ("m_observe", VEnum "ENone"); ("m_logo_index", VInt 8); ("m_hero", bytes "h"); ("m_skin", bytes "s"); ("m_mount", bytes "m");
  ("m_artifacts", VList [bytes "x"]); ("m_working_set_slot_id", VOpt (Some (VInt 4))); ("m_rewards", VList [VInt 17; VInt 4000000000]); ("m_toon_handle", bytes "t"); ("m_licenses", VList [VInt 9]);
  ("m_tandem_leader_id", VOpt None); ("m_commander", bytes "c"); ("m_commander_level", VInt 1); ("m_has_silence_penalty", VBool true); ("m_tandem_id", VOpt (Some (VInt 2))); ("m_commander_mastery_level", VInt 2);
  ("m_commander_mastery_talents", VList [VInt 3]); ("m_trophy_id", VInt 4); ("m_reward_overrides", VList [VStruct [("m_key", VInt 1); ("m_rewards", VList [VInt 2])]]); ("m_brutal_plus_difficulty", VInt 5);
  ("m_retry_mutation_indexes", VList [VInt 6]); ("m_a_c_enemy_race", VInt 7); ("m_a_c_enemy_wave_type", VInt 8); ("m_selected_commander_prestige", VInt 9)].
Definition example_init (clan : option val) : val := VStruct [("m_sync_lobby_state", VStruct [
  ("m_user_initial_data", VList [example_user "Seb" clan]); ("m_game_description", example_description);
  ("m_lobby_state", VStruct [("m_phase", VEnum "EInitializing"); ("m_max_users", VInt 16); ("m_max_observers", VInt 14); ("m_slots", VList [example_slot]); ("m_random_seed", VInt 77);
    ("m_host_user_id", VOpt (Some (VInt 1))); ("m_is_single_player", VBool false); ("m_picked_map_tag", VInt 200); ("m_game_duration", VInt 4294967295); ("m_default_difficulty", VInt 6); ("m_default_ai_build", VInt 0)])])].
(** The bits as bytes. *)
Definition example_sector (v : val) : list Z := match bencode bp_ReplaySInitData 0 v with Some bits => BitFacts.to_bytes bits | None => [] end.
Example C75_example : exists d, forallb in_u8 (example_sector (example_init (Some (bytes "CLAN")))) = true /\
  init_new Checked "a.SC2Replay" 3 "00ff" (example_sector (example_init (Some (bytes "CLAN")))) = Ok d /\
  joined_init d = mk_init 3 "00ff" "a.SC2Replay" 0 [mk_initial "Seb" (Some "CLAN")] (mk_description true 200 176) [mk_slot 2 (Some 0) 1 0 "h" (Some 4) "t"].
Proof. eexists. split; [vm_compute; reflexivity|]. split; [vm_compute; reflexivity|]. vm_compute. reflexivity. Qed.
Example C75_example_not_utf8 : init_new Checked "a" 3 "00ff" (example_sector (example_init (Some (VBytes [192; 128])))) = Err EUtf8.
Proof. vm_compute. reflexivity. Qed.
