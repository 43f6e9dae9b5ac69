(** * Details and init data: the protocol-agnostic records and their conversion

    Like Convert.v: the Rust conversions are total functions on structs; here
    they run on [val], and a field that is not there is the error ["shape"],
    which DetailsFacts.v proves unreachable for decoded values.  All fields of
    the records are kept (Lobby.v keeps those the join reads). *)
From Coq Require Import Ascii.
From Verif Require Import Base Types Utf8 Events Versioned ByteTypes BitInterp BitTypes Convert Lobby Times.
#[local] Open Scope string_scope.
#[local] Open Scope Z_scope.
#[local] Open Scope list_scope.

(** [format!("{b:02x}")] of a [u8]. *)
Definition hex_digit (d : Z) : ascii := ascii_of_Z (if d <? 10 then 48 + d else 87 + d).
Definition hex2 (b : Z) : string := String (hex_digit (b / 16)) (String (hex_digit (b mod 16)) EmptyString).
(** The loops of src/versions/protocol87702/events/details.rs:32-40 and
    events/init_data.rs:151-163. *)
Definition hex (l : list Z) : string := fold_left (fun acc b => append acc (hex2 b)) l EmptyString.
Definition to_hex (v : val) : outcome string := do l <- to_bytes v; Ok (hex l).
(** An enum mapped variant by variant. *)
Fixpoint assoc {A} (n : string) (l : list (string * A)) : outcome A :=
  match l with [] => shape | (k, a) :: l' => if String.eqb k n then Ok a else assoc n l' end.
Definition enum_from {A} (table : list (string * A)) (v : val) : outcome A := do s <- to_enum v; assoc s table.
(** Model of src/versions/protocol87702/events/common.rs:3-21 with the constants
    of src/common.rs. *)
Definition observe_from : val -> outcome Z := enum_from [("ENone", 0); ("ESpectator", 1); ("EReferee", 2)].
(** Model of src/versions/protocol87702/events/init_data.rs:297-307 with the
    constants of src/common.rs:13-17. *)
Definition speed_from : val -> outcome Z := enum_from [("ESlower", 0); ("ESlow", 1); ("ENormal", 2); ("EFast", 3); ("EFaster", 4)].
(** Model of src/versions/protocol87702/events/init_data.rs:111-123. *)
Definition game_type_table : list (string * string) := [("EMelee", "EMelee"); ("EFreeForAll", "EFreeForAll"); ("EUseSettings", "EUseSettings");
  ("EOneOnOne", "EOneOnOne"); ("ETwoTeamPlay", "ETwoTeamPlay"); ("EThreeTeamPlay", "EThreeTeamPlay"); ("EFourTeamPlay", "EFourTeamPlay")].
(** Model of src/versions/protocol87702/events/init_data.rs:226-235. *)
Definition fog_table : list (string * string) := [("EDefault", "EDefault"); ("EHideTerrain", "EHideTerrain"); ("EMapExplored", "EMapExplored"); ("EAlwaysVisible", "EAlwaysVisible")].
(** Model of src/versions/protocol87702/events/init_data.rs:237-246. *)
Definition observers_table : list (string * string) := [("ENone", "ENone"); ("EOnJoin", "EOnJoin"); ("EOnJoinAndDefeat", "EOnJoinAndDefeat"); ("ERefereesOnJoin", "ERefereesOnJoin")].
(** Model of src/versions/protocol87702/events/init_data.rs:248-256. *)
Definition user_difficulty_table : list (string * string) := [("ENone", "ENone"); ("EGlobal", "EGlobal"); ("EIndividual", "EIndividual")].
(** Model of src/versions/protocol87702/events/init_data.rs:344-355. *)
Definition phase_table : list (string * string) := [("EInitializing", "EInitializing"); ("ELobby", "ELobby"); ("EClosed", "EClosed");
  ("ELoading", "ELoading"); ("EPlaying", "EPlaying"); ("EGameover", "EGameover")].

(** ** Details *)
(** Model of src/versions/protocol87702/events/details.rs:102-111. *)
Definition result_table : list (string * string) := [("EUndecided", "Undecided"); ("EWin", "Win"); ("ELoss", "Loss"); ("ETie", "Tie")].
(** Model of src/versions/protocol87702/events/details.rs:122-132. *)
Definition speed_table : list (string * string) := [("ESlower", "Slower"); ("ESlow", "Slow"); ("ENormal", "Normal"); ("EFast", "Fast"); ("EFaster", "Faster")].
(** Model of src/details.rs:240-261 [Details], in the order of the source; the
    thumbnail is its file.  [ext_datetime] is seconds and nanoseconds since 1970. *)
Record full_details := mk_full_details {
  xd_fs_id : Z;
  xd_datetime : Z * Z;
  xd_player_list : list player_details;
  xd_title : string;
  xd_difficulty : string;
  xd_thumbnail : string;
  xd_is_blizzard_map : bool;
  xd_time_utc : Z;
  xd_time_local_offset : Z;
  xd_restart_as_transition_map : option bool;
  xd_disable_recover_game : bool;
  xd_description : string;
  xd_image_file_path : string;
  xd_campaign_index : Z;
  xd_map_file_name : string;
  xd_cache_handles : list string;
  xd_mini_save : bool;
  xd_game_speed : string;
  xd_default_difficulty : Z;
  xd_mod_paths : list string }.
(** Model of src/versions/protocol87702/events/details.rs:134-144.  The name is
    dropped. *)
Definition toon_from (v : val) : outcome toon :=
  do region <- get to_int "m_region" v;
  do program <- get to_int "m_program_id" v;
  do realm <- get to_int "m_realm" v;
  do id <- get to_int "m_id" v;
  Ok (mk_toon region program realm id).
(** Model of src/versions/protocol87702/events/details.rs:91-100. *)
Definition color_from (v : val) : outcome (Z * Z * Z * Z) :=
  do a <- get to_int "m_a" v; do r <- get to_int "m_r" v; do g <- get to_int "m_g" v; do b <- get to_int "m_b" v; Ok (a, r, g, b).
(** Model of src/versions/protocol87702/events/details.rs:72-89. *)
Definition player_from (v : val) : outcome player_details :=
  do name <- get to_name "m_name" v;
  do toon <- get toon_from "m_toon" v;
  do race <- get to_name "m_race" v;
  do color <- get color_from "m_color" v;
  do control <- get to_int "m_control" v;
  do team <- get to_int "m_team_id" v;
  do handicap <- get to_int "m_handicap" v;
  do observe <- get observe_from "m_observe" v;
  do result <- get (enum_from result_table) "m_result" v;
  do slot <- get (to_opt to_int) "m_working_set_slot_id" v;
  do hero <- get to_name "m_hero" v;
  Ok (mk_player name toon race color control team handicap observe result slot hero).
(** An absent array is an empty list. *)
Definition opt_list {A} (f : val -> outcome A) (v : val) : outcome (list A) :=
  do o <- to_opt (to_list f) v; Ok (match o with Some l => l | None => [] end).
(** Model of src/versions/protocol87702/events/details.rs:20-69. *)
Definition details_from (v : val) : outcome full_details :=
  do player_list <- get (opt_list player_from) "m_player_list" v;
  do cache_handles <- get (opt_list to_hex) "m_cache_handles" v;
  do mod_paths <- get (opt_list to_name) "m_mod_paths" v;
  do title <- get to_name "m_title" v;
  do difficulty <- get to_name "m_difficulty" v;
  do thumbnail <- get (get to_name "m_file") "m_thumbnail" v;
  do is_blizzard_map <- get to_bool "m_is_blizzard_map" v;
  do time_utc <- get to_int "m_time_utc" v;
  do time_local_offset <- get to_int "m_time_local_offset" v;
  do restart <- get (to_opt to_bool) "m_restart_as_transition_map" v;
  do recover <- get to_bool "m_disable_recover_game" v;
  do description <- get to_name "m_description" v;
  do image <- get to_name "m_image_file_path" v;
  do campaign <- get to_int "m_campaign_index" v;
  do map_file_name <- get to_name "m_map_file_name" v;
  do mini_save <- get to_bool "m_mini_save" v;
  do game_speed <- get (enum_from speed_table) "m_game_speed" v;
  do default_difficulty <- get to_int "m_default_difficulty" v;
  Ok (mk_full_details 0 (0, 0) player_list title difficulty thumbnail is_blizzard_map time_utc time_local_offset
    restart recover description image campaign map_file_name cache_handles mini_save game_speed default_difficulty mod_paths).
(** Model of src/details.rs:282-288 [set_metadata].  The time comes from
    Times.v; [unwrap_or_default] is 1970-01-01. *)
Definition set_details_metadata (bd : build) (fs_id : Z) (d : full_details) : outcome full_details :=
  do t <- transform_to_naivetime bd (xd_time_utc d) (xd_time_local_offset d);
  Ok (mk_full_details fs_id match t with Some t => t | None => (0, 0) end
    (xd_player_list d) (xd_title d) (xd_difficulty d) (xd_thumbnail d) (xd_is_blizzard_map d) (xd_time_utc d) (xd_time_local_offset d)
    (xd_restart_as_transition_map d) (xd_disable_recover_game d) (xd_description d) (xd_image_file_path d) (xd_campaign_index d) (xd_map_file_name d)
    (xd_cache_handles d) (xd_mini_save d) (xd_game_speed d) (xd_default_difficulty d) (xd_mod_paths d)).

(** ** Init data *)
(** Model of src/init_data/mod.rs:103-123 [UserInitialData]. *)
Record user_data := mk_user_data {
  ud_name : string;
  ud_clan_tag : option string;
  ud_clan_logo : option (list Z);
  ud_highest_league : option Z;
  ud_combined_race_levels : option Z;
  ud_random_seed : Z;
  ud_race_preference : option Z;
  ud_team_preference : option Z;
  ud_test_map : bool;
  ud_test_auto : bool;
  ud_examine : bool;
  ud_custom_interface : bool;
  ud_test_type : Z;
  ud_observe : Z;
  ud_hero : string;
  ud_skin : string;
  ud_mount : string;
  ud_toon_handle : string;
  ud_scaled_rating : option Z }.
(** Model of src/init_data/mod.rs:166-183 [GameOptions]. *)
Record game_options := mk_game_options {
  go_lock_teams : bool;
  go_teams_together : bool;
  go_advanced_shared_control : bool;
  go_random_races : bool;
  go_battle_net : bool;
  go_amm : bool;
  go_competitive : bool;
  go_practice : bool;
  go_cooperative : bool;
  go_no_victory_or_defeat : bool;
  go_hero_duplicates_allowed : bool;
  go_fog : string;
  go_observers : string;
  go_user_difficulty : string;
  go_client_debug_flags : Z;
  go_build_coach_enabled : bool }.
(** Model of src/init_data/mod.rs:208-215 [SlotDescription]. *)
Record slot_description := mk_slot_description {
  sd_allowed_colors : Z;
  sd_allowed_races : Z;
  sd_allowed_difficulty : Z;
  sd_allowed_controls : list Z;
  sd_allowed_observe_types : Z;
  sd_allowed_ai_builds : list Z }.
(** Model of src/init_data/mod.rs:130-159 [GameDescription]. *)
Record full_description := mk_full_description {
  fd_random_value : Z;
  fd_game_cache_name : string;
  fd_game_options : game_options;
  fd_game_speed : Z;
  fd_game_type : string;
  fd_max_users : Z;
  fd_max_observers : Z;
  fd_max_players : Z;
  fd_max_teams : Z;
  fd_max_colors : Z;
  fd_max_races : Z;
  fd_max_controls : Z;
  fd_map_size_x : Z;
  fd_map_size_y : Z;
  fd_map_file_sync_checksum : Z;
  fd_map_file_name : string;
  fd_map_author_name : string;
  fd_mod_file_sync_checksum : Z;
  fd_slot_descriptions : list slot_description;
  fd_default_difficulty : Z;
  fd_default_ai_build : Z;
  fd_cache_handles : list string;
  fd_has_extension_mod : bool;
  fd_has_non_blizzard_extension_mod : bool;
  fd_is_blizzard_map : bool;
  fd_is_premade_ffa : bool;
  fd_is_coop_mode : bool;
  fd_is_realtime_mode : bool }.
(** Model of src/init_data/mod.rs:341-344 [RewardOverride]. *)
Record reward_override := mk_reward_override {
  ro_key : Z;
  ro_rewards : list Z }.
(** Model of src/init_data/mod.rs:300-333 [LobbySlot]. *)
Record full_slot := mk_full_slot {
  fs_control : Z;
  fs_user_id : option Z;
  fs_team_id : Z;
  fs_color_pref : option Z;
  fs_race_pref : option Z;
  fs_difficulty : Z;
  fs_ai_build : Z;
  fs_handicap : Z;
  fs_observe : Z;
  fs_logo_index : Z;
  fs_hero : string;
  fs_skin : string;
  fs_mount : string;
  fs_artifacts : list string;
  fs_working_set_slot_id : option Z;
  fs_rewards : list Z;
  fs_toon_handle : string;
  fs_licenses : list Z;
  fs_tandem_leader_id : option Z;
  fs_commander : string;
  fs_commander_level : Z;
  fs_has_silence_penalty : bool;
  fs_tandem_id : option Z;
  fs_commander_mastery_level : Z;
  fs_commander_mastery_talents : list Z;
  fs_trophy_id : Z;
  fs_reward_overrides : list reward_override;
  fs_brutal_plus_difficulty : Z;
  fs_retry_mutation_indexes : list Z;
  fs_a_c_enemy_race : Z;
  fs_a_c_enemy_wave_type : Z;
  fs_selected_commander_prestige : Z }.
(** Model of src/init_data/mod.rs:264-276 [LobbyState]. *)
Record lobby_state := mk_lobby_state {
  lb_phase : string;
  lb_max_users : Z;
  lb_max_observers : Z;
  lb_slots : list full_slot;
  lb_random_seed : Z;
  lb_host_user_id : option Z;
  lb_is_single_player : bool;
  lb_picked_map_tag : Z;
  lb_game_duration : Z;
  lb_default_difficulty : Z;
  lb_default_ai_build : Z }.
(** Model of src/init_data/mod.rs:92-96 [LobbySyncState]. *)
Record sync_state := mk_sync_state {
  sy_user_initial_data : list user_data;
  sy_game_description : full_description;
  sy_lobby_state : lobby_state }.
(** Model of src/versions/protocol87702/events/init_data.rs:50-103. *)
Definition user_data_from (v : val) : outcome user_data :=
  do name_ <- get to_name "m_name" v;
  do clan_tag_ <- get (to_opt to_name) "m_clan_tag" v;
  do clan_logo_ <- get (to_opt to_bytes) "m_clan_logo" v;
  do highest_league_ <- get (to_opt (cast as_u8)) "m_highest_league" v;
  do combined_race_levels_ <- get (to_opt (cast as_u32)) "m_combined_race_levels" v;
  do random_seed_ <- get (cast as_u32) "m_random_seed" v;
  do race_preference_ <- get (get (to_opt to_int) "m_race") "m_race_preference" v;
  do team_preference_ <- get (get (to_opt (cast as_u8)) "m_team") "m_team_preference" v;
  do test_map_ <- get to_bool "m_test_map" v;
  do test_auto_ <- get to_bool "m_test_auto" v;
  do examine_ <- get to_bool "m_examine" v;
  do custom_interface_ <- get to_bool "m_custom_interface" v;
  do test_type_ <- get (cast as_u32) "m_test_type" v;
  do observe_ <- get observe_from "m_observe" v;
  do hero_ <- get to_name "m_hero" v;
  do skin_ <- get to_name "m_skin" v;
  do mount_ <- get to_name "m_mount" v;
  do toon_handle_ <- get to_name "m_toon_handle" v;
  do scaled_rating_ <- get (to_opt (cast as_i32)) "m_scaled_rating" v;
  Ok (mk_user_data name_ clan_tag_ clan_logo_ highest_league_ combined_race_levels_ random_seed_ race_preference_ team_preference_ test_map_ test_auto_ examine_ custom_interface_ test_type_ observe_ hero_ skin_ mount_ toon_handle_ scaled_rating_).
(** Model of src/versions/protocol87702/events/init_data.rs:258-295. *)
Definition game_options_from (v : val) : outcome game_options :=
  do lock_teams_ <- get to_bool "m_lock_teams" v;
  do teams_together_ <- get to_bool "m_teams_together" v;
  do advanced_shared_control_ <- get to_bool "m_advanced_shared_control" v;
  do random_races_ <- get to_bool "m_random_races" v;
  do battle_net_ <- get to_bool "m_battle_net" v;
  do amm_ <- get to_bool "m_amm" v;
  do competitive_ <- get to_bool "m_competitive" v;
  do practice_ <- get to_bool "m_practice" v;
  do cooperative_ <- get to_bool "m_cooperative" v;
  do no_victory_or_defeat_ <- get to_bool "m_no_victory_or_defeat" v;
  do hero_duplicates_allowed_ <- get to_bool "m_hero_duplicates_allowed" v;
  do fog_ <- get (enum_from fog_table) "m_fog" v;
  do observers_ <- get (enum_from observers_table) "m_observers" v;
  do user_difficulty_ <- get (enum_from user_difficulty_table) "m_user_difficulty" v;
  do client_debug_flags_ <- get to_int "m_client_debug_flags" v;
  do build_coach_enabled_ <- get to_bool "m_build_coach_enabled" v;
  Ok (mk_game_options lock_teams_ teams_together_ advanced_shared_control_ random_races_ battle_net_ amm_ competitive_ practice_ cooperative_ no_victory_or_defeat_ hero_duplicates_allowed_ fog_ observers_ user_difficulty_ client_debug_flags_ build_coach_enabled_).
(** Model of src/versions/protocol87702/events/init_data.rs:207-224. *)
Definition slot_description_from (v : val) : outcome slot_description :=
  do allowed_colors_ <- get to_int "m_allowed_colors" v;
  do allowed_races_ <- get to_int "m_allowed_races" v;
  do allowed_difficulty_ <- get to_int "m_allowed_difficulty" v;
  do allowed_controls_ <- get to_bytes "m_allowed_controls" v;
  do allowed_observe_types_ <- get to_int "m_allowed_observe_types" v;
  do allowed_ai_builds_ <- get to_bytes "m_allowed_ai_builds" v;
  Ok (mk_slot_description allowed_colors_ allowed_races_ allowed_difficulty_ allowed_controls_ allowed_observe_types_ allowed_ai_builds_).
(** Model of src/versions/protocol87702/events/init_data.rs:125-205. *)
Definition game_description_from (v : val) : outcome full_description :=
  do random_value_ <- get (cast as_u32) "m_random_value" v;
  do game_cache_name_ <- get to_name "m_game_cache_name" v;
  do game_options_ <- get game_options_from "m_game_options" v;
  do game_speed_ <- get speed_from "m_game_speed" v;
  do game_type_ <- get (enum_from game_type_table) "m_game_type" v;
  do max_users_ <- get to_int "m_max_users" v;
  do max_observers_ <- get to_int "m_max_observers" v;
  do max_players_ <- get to_int "m_max_players" v;
  do max_teams_ <- get to_int "m_max_teams" v;
  do max_colors_ <- get to_int "m_max_colors" v;
  do max_races_ <- get to_int "m_max_races" v;
  do max_controls_ <- get to_int "m_max_controls" v;
  do map_size_x_ <- get (cast as_u8) "m_map_size_x" v;
  do map_size_y_ <- get (cast as_u8) "m_map_size_y" v;
  do map_file_sync_checksum_ <- get (cast as_u32) "m_map_file_sync_checksum" v;
  do map_file_name_ <- get to_name "m_map_file_name" v;
  do map_author_name_ <- get to_name "m_map_author_name" v;
  do mod_file_sync_checksum_ <- get (cast as_u32) "m_mod_file_sync_checksum" v;
  do slot_descriptions_ <- get (to_list slot_description_from) "m_slot_descriptions" v;
  do default_difficulty_ <- get to_int "m_default_difficulty" v;
  do default_ai_build_ <- get to_int "m_default_ai_build" v;
  do cache_handles_ <- get (to_list to_hex) "m_cache_handles" v;
  do has_extension_mod_ <- get to_bool "m_has_extension_mod" v;
  do has_non_blizzard_extension_mod_ <- get to_bool "m_has_non_blizzard_extension_mod" v;
  do is_blizzard_map_ <- get to_bool "m_is_blizzard_map" v;
  do is_premade_ffa_ <- get to_bool "m_is_premade_ffa" v;
  do is_coop_mode_ <- get to_bool "m_is_coop_mode" v;
  do is_realtime_mode_ <- get to_bool "m_is_realtime_mode" v;
  Ok (mk_full_description random_value_ game_cache_name_ game_options_ game_speed_ game_type_ max_users_ max_observers_ max_players_ max_teams_ max_colors_ max_races_ max_controls_ map_size_x_ map_size_y_ map_file_sync_checksum_ map_file_name_ map_author_name_ mod_file_sync_checksum_ slot_descriptions_ default_difficulty_ default_ai_build_ cache_handles_ has_extension_mod_ has_non_blizzard_extension_mod_ is_blizzard_map_ is_premade_ffa_ is_coop_mode_ is_realtime_mode_).
(** Model of src/versions/protocol87702/events/init_data.rs:461-472. *)
Definition reward_override_from (v : val) : outcome reward_override :=
  do key_ <- get (cast as_u32) "m_key" v;
  do rewards_ <- get (to_list (cast as_u32)) "m_rewards" v;
  Ok (mk_reward_override key_ rewards_).
(** Model of src/versions/protocol87702/events/init_data.rs:357-459. *)
Definition lobby_slot_from (v : val) : outcome full_slot :=
  do control_ <- get to_int "m_control" v;
  do user_id_ <- get (to_opt to_int) "m_user_id" v;
  do team_id_ <- get to_int "m_team_id" v;
  do color_pref_ <- get (get (to_opt to_int) "m_color") "m_color_pref" v;
  do race_pref_ <- get (get (to_opt to_int) "m_race") "m_race_pref" v;
  do difficulty_ <- get to_int "m_difficulty" v;
  do ai_build_ <- get to_int "m_ai_build" v;
  do handicap_ <- get (cast as_u32) "m_handicap" v;
  do observe_ <- get observe_from "m_observe" v;
  do logo_index_ <- get (cast as_u32) "m_logo_index" v;
  do hero_ <- get to_name "m_hero" v;
  do skin_ <- get to_name "m_skin" v;
  do mount_ <- get to_name "m_mount" v;
  do artifacts_ <- get (to_list to_name) "m_artifacts" v;
  do working_set_slot_id_ <- get (to_opt (cast as_u8)) "m_working_set_slot_id" v;
  do rewards_ <- get (to_list (cast as_u32)) "m_rewards" v;
  do toon_handle_ <- get to_name "m_toon_handle" v;
  do licenses_ <- get (to_list (cast as_u32)) "m_licenses" v;
  do tandem_leader_id_ <- get (to_opt to_int) "m_tandem_leader_id" v;
  do commander_ <- get to_name "m_commander" v;
  do commander_level_ <- get (cast as_u32) "m_commander_level" v;
  do has_silence_penalty_ <- get to_bool "m_has_silence_penalty" v;
  do tandem_id_ <- get (to_opt to_int) "m_tandem_id" v;
  do commander_mastery_level_ <- get (cast as_u32) "m_commander_mastery_level" v;
  do commander_mastery_talents_ <- get (to_list (cast as_u32)) "m_commander_mastery_talents" v;
  do trophy_id_ <- get (cast as_u32) "m_trophy_id" v;
  do reward_overrides_ <- get (to_list reward_override_from) "m_reward_overrides" v;
  do brutal_plus_difficulty_ <- get (cast as_u32) "m_brutal_plus_difficulty" v;
  do retry_mutation_indexes_ <- get (to_list (cast as_u32)) "m_retry_mutation_indexes" v;
  do a_c_enemy_race_ <- get (cast as_u32) "m_a_c_enemy_race" v;
  do a_c_enemy_wave_type_ <- get (cast as_u32) "m_a_c_enemy_wave_type" v;
  do selected_commander_prestige_ <- get (cast as_u32) "m_selected_commander_prestige" v;
  Ok (mk_full_slot control_ user_id_ team_id_ color_pref_ race_pref_ difficulty_ ai_build_ handicap_ observe_ logo_index_ hero_ skin_ mount_ artifacts_ working_set_slot_id_ rewards_ toon_handle_ licenses_ tandem_leader_id_ commander_ commander_level_ has_silence_penalty_ tandem_id_ commander_mastery_level_ commander_mastery_talents_ trophy_id_ reward_overrides_ brutal_plus_difficulty_ retry_mutation_indexes_ a_c_enemy_race_ a_c_enemy_wave_type_ selected_commander_prestige_).
(** Model of src/versions/protocol87702/events/init_data.rs:309-342. *)
Definition lobby_state_from (v : val) : outcome lobby_state :=
  do phase_ <- get (enum_from phase_table) "m_phase" v;
  do max_users_ <- get to_int "m_max_users" v;
  do max_observers_ <- get to_int "m_max_observers" v;
  do slots_ <- get (to_list lobby_slot_from) "m_slots" v;
  do random_seed_ <- get (cast as_u32) "m_random_seed" v;
  do host_user_id_ <- get (to_opt to_int) "m_host_user_id" v;
  do is_single_player_ <- get to_bool "m_is_single_player" v;
  do picked_map_tag_ <- get (cast as_u8) "m_picked_map_tag" v;
  do game_duration_ <- get (cast as_u32) "m_game_duration" v;
  do default_difficulty_ <- get to_int "m_default_difficulty" v;
  do default_ai_build_ <- get to_int "m_default_ai_build" v;
  Ok (mk_lobby_state phase_ max_users_ max_observers_ slots_ random_seed_ host_user_id_ is_single_player_ picked_map_tag_ game_duration_ default_difficulty_ default_ai_build_).
(** Model of src/versions/protocol87702/events/init_data.rs:33-48. *)
Definition sync_state_from (v : val) : outcome sync_state :=
  do user_initial_data_ <- get (to_list user_data_from) "m_user_initial_data" v;
  do game_description_ <- get game_description_from "m_game_description" v;
  do lobby_state_ <- get lobby_state_from "m_lobby_state" v;
  Ok (mk_sync_state user_initial_data_ game_description_ lobby_state_).
(** Model of src/init_data/mod.rs:26-37 [InitData]. *)
Record full_init := mk_full_init { xi_fs_id : Z; xi_sha256 : string; xi_file_name : string; xi_version : Z; xi_sync : sync_state }.
(** Model of src/versions/protocol87702/events/init_data.rs:19-31. *)
Definition init_from (v : val) : outcome full_init :=
  do s <- get sync_state_from "m_sync_lobby_state" v; Ok (mk_full_init 0 "" "" 0 s).
(** Model of src/init_data/mod.rs:53-58 [set_metadata]; the digest (external) is
    an argument. *)
Definition set_init_metadata (file_name : string) (fs_id : Z) (sha : string) (d : full_init) : full_init :=
  mk_full_init fs_id sha file_name (xi_version d) (xi_sync d).

(** ** From the sectors
    The MPQ archive is external: the extracted sector is an argument. *)
(** Model of src/versions/protocol87702/events/details.rs:10-18 [read_details]
    (the only one: protocol 75689 re-exports it) and src/details.rs:263-280
    [Details::new]. *)
Definition details_new (m : build) (fs_id : Z) (sector : list Z) : outcome full_details :=
  do (r, v) <- vparse m ba_GameSDetails sector;
  do d <- details_from v;
  set_details_metadata m fs_id d.
(** Model of src/versions/protocol87702/events/init_data.rs:8-17
    [read_init_data] and src/init_data/mod.rs:41-50 [InitData::new]. *)
Definition init_new (m : build) (file_name : string) (fs_id : Z) (sha : string) (sector : list Z) : outcome full_init :=
  do (c, v) <- bparse m bp_ReplaySInitData (sector, 0%nat);
  do d <- init_from v;
  Ok (set_init_metadata file_name fs_id sha d).
(** The fields the join of Lobby.v reads. *)
Definition joined_details (d : full_details) : details :=
  mk_details (xd_player_list d) (xd_title d) (xd_time_utc d) (xd_time_local_offset d) (xd_cache_handles d) (xd_fs_id d) (nanos (xd_datetime d)).
Definition joined_slot (s : full_slot) : lobby_slot :=
  mk_slot (fs_control s) (fs_user_id s) (fs_team_id s) (fs_observe s) (fs_hero s) (fs_working_set_slot_id s) (fs_toon_handle s).
Definition joined_init (d : full_init) : init_data :=
  let y := xi_sync d in
  mk_init (xi_fs_id d) (xi_sha256 d) (xi_file_name d) (xi_version d)
    (map (fun u => mk_initial (ud_name u) (ud_clan_tag u)) (sy_user_initial_data y))
    (mk_description (fd_is_blizzard_map (sy_game_description y)) (fd_map_size_x (sy_game_description y)) (fd_map_size_y (sy_game_description y)))
    (map joined_slot (lb_slots (sy_lobby_state y))).
