(** * What the converted details and init data say

    A converted record shows the raw one: every field shows the raw field of the
    same name.  Independent of the conversions of DetailsData.v. *)
From Coq Require Import Ascii.
From Verif Require Import Base Types Utf8 Events ConvertSpec Lobby DetailsData.
#[local] Open Scope string_scope.
#[local] Open Scope Z_scope.
#[local] Open Scope list_scope.

(** ** Shown values *)
Definition is_int (v : val) (z : Z) : Prop := v = VInt z.
Definition is_bool (v : val) (b : bool) : Prop := v = VBool b.
Definition is_bytes (v : val) (l : list Z) : Prop := v = VBytes l.
(** The text's bytes are the raw bytes. *)
Definition is_text (v : val) (s : string) : Prop := v = VBytes (bytes_of_str s).
(** An enum shown by the name of its variant. *)
Definition is_name (v : val) (s : string) : Prop := v = VEnum s.
(** ... by that name without its leading "E" ... *)
Definition is_short_name (v : val) (s : string) : Prop := v = VEnum (String "E" s).
(** ... or by a number. *)
Definition is_code (names : list string) (v : val) (z : Z) : Prop := exists n, nth_error names n = Some match v with VEnum s => s | _ => "" end /\ z = Z.of_nat n.
Definition is_observe : val -> Z -> Prop := is_code ["ENone"; "ESpectator"; "EReferee"].
Definition is_speed : val -> Z -> Prop := is_code ["ESlower"; "ESlow"; "ENormal"; "EFast"; "EFaster"].
Definition is_opt {A} (R : val -> A -> Prop) (v : val) (o : option A) : Prop :=
  match o with None => v = VOpt None | Some a => exists w, v = VOpt (Some w) /\ R w a end.
(** Element by element, in order. *)
Definition is_list {A} (R : val -> A -> Prop) (v : val) (l : list A) : Prop := exists ws, v = VList ws /\ Forall2 R ws l.
(** An absent list is shown as an empty one. *)
Definition is_opt_list {A} (R : val -> A -> Prop) (v : val) (l : list A) : Prop :=
  v = VOpt None /\ l = [] \/ exists w, v = VOpt (Some w) /\ is_list R w l.
(** The raw field [n] of [v] is shown as [a]. *)
Definition shows {A} (n : string) (R : val -> A -> Prop) (v : val) (a : A) : Prop :=
  exists fs w, v = VStruct fs /\ In (n, w) fs /\ R w a.

(** Reading lower-case hexadecimal: two digits a byte. *)
Definition digit_value (a : ascii) : option Z :=
  let z := Z_of_ascii a in
  if (48 <=? z) && (z <=? 57) then Some (z - 48) else if (97 <=? z) && (z <=? 102) then Some (z - 87) else None.
Fixpoint read_hex (s : string) : option (list Z) :=
  match s with
  | EmptyString => Some []
  | String a (String b s') =>
      match digit_value a, digit_value b, read_hex s' with Some x, Some y, Some l => Some (16 * x + y :: l) | _, _, _ => None end
  | _ => None
  end.
(** The text spells the raw bytes in hexadecimal. *)
Definition is_hex (v : val) (s : string) : Prop := exists l, v = VBytes l /\ read_hex s = Some l.

(** ** Texts *)
Definition is_utf8 (l : list Z) : Prop := exists cs, Forall scalar cs /\ l = utf8_text cs.
(** All texts in a value, those under the fields [skip] left out. *)
Fixpoint shown_texts (skip : list string) (v : val) : list (list Z) :=
  match v with
  | VBytes l => [l]
  | VOpt (Some w) => shown_texts skip w
  | VList l => flat_map (shown_texts skip) l
  | VChoice _ w => shown_texts skip w
  | VStruct fs => flat_map (fun x => if existsb (String.eqb (fst x)) skip then [] else shown_texts skip (snd x)) fs
  | _ => []
  end.
(** The hash-like handles are shown in hexadecimal or as bytes, and the name in
    a battle.net handle is not shown. *)
Definition details_skip : list string := ["m_cache_handles"; "m_toon"].
Definition init_skip : list string := ["m_cache_handles"; "m_clan_logo"; "m_allowed_controls"; "m_allowed_ai_builds"].

(** ** Details *)
Definition toon_shown (v : val) (t : toon) : Prop :=
  shows "m_region" is_int v (to_region t) /\ shows "m_program_id" is_int v (to_program t) /\
  shows "m_realm" is_int v (to_realm t) /\ shows "m_id" is_int v (to_id t).
Definition color_shown (v : val) (c : Z * Z * Z * Z) : Prop :=
  let '(a, r, g, b) := c in
  shows "m_a" is_int v a /\ shows "m_r" is_int v r /\ shows "m_g" is_int v g /\ shows "m_b" is_int v b.
Definition player_shown (v : val) (p : player_details) : Prop :=
  shows "m_name" is_text v (pd_name p) /\
  shows "m_toon" toon_shown v (pd_toon p) /\
  shows "m_race" is_text v (pd_race p) /\
  shows "m_color" color_shown v (pd_color p) /\
  shows "m_control" is_int v (pd_control p) /\
  shows "m_team_id" is_int v (pd_team p) /\
  shows "m_handicap" is_int v (pd_handicap p) /\
  shows "m_observe" is_observe v (pd_observe p) /\
  shows "m_result" is_short_name v (pd_result p) /\
  shows "m_working_set_slot_id" (is_opt is_int) v (pd_slot p) /\
  shows "m_hero" is_text v (pd_hero p).
Definition details_shown (v : val) (d : full_details) : Prop :=
  shows "m_player_list" (is_opt_list player_shown) v (xd_player_list d) /\
  shows "m_title" is_text v (xd_title d) /\
  shows "m_difficulty" is_text v (xd_difficulty d) /\
  shows "m_thumbnail" (shows "m_file" is_text) v (xd_thumbnail d) /\
  shows "m_is_blizzard_map" is_bool v (xd_is_blizzard_map d) /\
  shows "m_time_utc" is_int v (xd_time_utc d) /\
  shows "m_time_local_offset" is_int v (xd_time_local_offset d) /\
  shows "m_restart_as_transition_map" (is_opt is_bool) v (xd_restart_as_transition_map d) /\
  shows "m_disable_recover_game" is_bool v (xd_disable_recover_game d) /\
  shows "m_description" is_text v (xd_description d) /\
  shows "m_image_file_path" is_text v (xd_image_file_path d) /\
  shows "m_campaign_index" is_int v (xd_campaign_index d) /\
  shows "m_map_file_name" is_text v (xd_map_file_name d) /\
  shows "m_cache_handles" (is_opt_list is_hex) v (xd_cache_handles d) /\
  shows "m_mini_save" is_bool v (xd_mini_save d) /\
  shows "m_game_speed" is_short_name v (xd_game_speed d) /\
  shows "m_default_difficulty" is_int v (xd_default_difficulty d) /\
  shows "m_mod_paths" (is_opt_list is_text) v (xd_mod_paths d).

(** ** Init data *)
Definition user_shown (v : val) (x : user_data) : Prop :=
  shows "m_name" is_text v (ud_name x) /\
  shows "m_clan_tag" (is_opt is_text) v (ud_clan_tag x) /\
  shows "m_clan_logo" (is_opt is_bytes) v (ud_clan_logo x) /\
  shows "m_highest_league" (is_opt is_int) v (ud_highest_league x) /\
  shows "m_combined_race_levels" (is_opt is_int) v (ud_combined_race_levels x) /\
  shows "m_random_seed" is_int v (ud_random_seed x) /\
  shows "m_race_preference" (shows "m_race" (is_opt is_int)) v (ud_race_preference x) /\
  shows "m_team_preference" (shows "m_team" (is_opt is_int)) v (ud_team_preference x) /\
  shows "m_test_map" is_bool v (ud_test_map x) /\
  shows "m_test_auto" is_bool v (ud_test_auto x) /\
  shows "m_examine" is_bool v (ud_examine x) /\
  shows "m_custom_interface" is_bool v (ud_custom_interface x) /\
  shows "m_test_type" is_int v (ud_test_type x) /\
  shows "m_observe" is_observe v (ud_observe x) /\
  shows "m_hero" is_text v (ud_hero x) /\
  shows "m_skin" is_text v (ud_skin x) /\
  shows "m_mount" is_text v (ud_mount x) /\
  shows "m_toon_handle" is_text v (ud_toon_handle x) /\
  shows "m_scaled_rating" (is_opt is_int) v (ud_scaled_rating x).
Definition options_shown (v : val) (x : game_options) : Prop :=
  shows "m_lock_teams" is_bool v (go_lock_teams x) /\
  shows "m_teams_together" is_bool v (go_teams_together x) /\
  shows "m_advanced_shared_control" is_bool v (go_advanced_shared_control x) /\
  shows "m_random_races" is_bool v (go_random_races x) /\
  shows "m_battle_net" is_bool v (go_battle_net x) /\
  shows "m_amm" is_bool v (go_amm x) /\
  shows "m_competitive" is_bool v (go_competitive x) /\
  shows "m_practice" is_bool v (go_practice x) /\
  shows "m_cooperative" is_bool v (go_cooperative x) /\
  shows "m_no_victory_or_defeat" is_bool v (go_no_victory_or_defeat x) /\
  shows "m_hero_duplicates_allowed" is_bool v (go_hero_duplicates_allowed x) /\
  shows "m_fog" is_name v (go_fog x) /\
  shows "m_observers" is_name v (go_observers x) /\
  shows "m_user_difficulty" is_name v (go_user_difficulty x) /\
  shows "m_client_debug_flags" is_int v (go_client_debug_flags x) /\
  shows "m_build_coach_enabled" is_bool v (go_build_coach_enabled x).
Definition slot_description_shown (v : val) (x : slot_description) : Prop :=
  shows "m_allowed_colors" is_int v (sd_allowed_colors x) /\
  shows "m_allowed_races" is_int v (sd_allowed_races x) /\
  shows "m_allowed_difficulty" is_int v (sd_allowed_difficulty x) /\
  shows "m_allowed_controls" is_bytes v (sd_allowed_controls x) /\
  shows "m_allowed_observe_types" is_int v (sd_allowed_observe_types x) /\
  shows "m_allowed_ai_builds" is_bytes v (sd_allowed_ai_builds x).
Definition description_shown (v : val) (x : full_description) : Prop :=
  shows "m_random_value" is_int v (fd_random_value x) /\
  shows "m_game_cache_name" is_text v (fd_game_cache_name x) /\
  shows "m_game_options" options_shown v (fd_game_options x) /\
  shows "m_game_speed" is_speed v (fd_game_speed x) /\
  shows "m_game_type" is_name v (fd_game_type x) /\
  shows "m_max_users" is_int v (fd_max_users x) /\
  shows "m_max_observers" is_int v (fd_max_observers x) /\
  shows "m_max_players" is_int v (fd_max_players x) /\
  shows "m_max_teams" is_int v (fd_max_teams x) /\
  shows "m_max_colors" is_int v (fd_max_colors x) /\
  shows "m_max_races" is_int v (fd_max_races x) /\
  shows "m_max_controls" is_int v (fd_max_controls x) /\
  shows "m_map_size_x" is_int v (fd_map_size_x x) /\
  shows "m_map_size_y" is_int v (fd_map_size_y x) /\
  shows "m_map_file_sync_checksum" is_int v (fd_map_file_sync_checksum x) /\
  shows "m_map_file_name" is_text v (fd_map_file_name x) /\
  shows "m_map_author_name" is_text v (fd_map_author_name x) /\
  shows "m_mod_file_sync_checksum" is_int v (fd_mod_file_sync_checksum x) /\
  shows "m_slot_descriptions" (is_list slot_description_shown) v (fd_slot_descriptions x) /\
  shows "m_default_difficulty" is_int v (fd_default_difficulty x) /\
  shows "m_default_ai_build" is_int v (fd_default_ai_build x) /\
  shows "m_cache_handles" (is_list is_hex) v (fd_cache_handles x) /\
  shows "m_has_extension_mod" is_bool v (fd_has_extension_mod x) /\
  shows "m_has_non_blizzard_extension_mod" is_bool v (fd_has_non_blizzard_extension_mod x) /\
  shows "m_is_blizzard_map" is_bool v (fd_is_blizzard_map x) /\
  shows "m_is_premade_ffa" is_bool v (fd_is_premade_ffa x) /\
  shows "m_is_coop_mode" is_bool v (fd_is_coop_mode x) /\
  shows "m_is_realtime_mode" is_bool v (fd_is_realtime_mode x).
Definition override_shown (v : val) (x : reward_override) : Prop :=
  shows "m_key" is_int v (ro_key x) /\
  shows "m_rewards" (is_list is_int) v (ro_rewards x).
Definition slot_shown (v : val) (x : full_slot) : Prop :=
  shows "m_control" is_int v (fs_control x) /\
  shows "m_user_id" (is_opt is_int) v (fs_user_id x) /\
  shows "m_team_id" is_int v (fs_team_id x) /\
  shows "m_color_pref" (shows "m_color" (is_opt is_int)) v (fs_color_pref x) /\
  shows "m_race_pref" (shows "m_race" (is_opt is_int)) v (fs_race_pref x) /\
  shows "m_difficulty" is_int v (fs_difficulty x) /\
  shows "m_ai_build" is_int v (fs_ai_build x) /\
  shows "m_handicap" is_int v (fs_handicap x) /\
  shows "m_observe" is_observe v (fs_observe x) /\
  shows "m_logo_index" is_int v (fs_logo_index x) /\
  shows "m_hero" is_text v (fs_hero x) /\
  shows "m_skin" is_text v (fs_skin x) /\
  shows "m_mount" is_text v (fs_mount x) /\
  shows "m_artifacts" (is_list is_text) v (fs_artifacts x) /\
  shows "m_working_set_slot_id" (is_opt is_int) v (fs_working_set_slot_id x) /\
  shows "m_rewards" (is_list is_int) v (fs_rewards x) /\
  shows "m_toon_handle" is_text v (fs_toon_handle x) /\
  shows "m_licenses" (is_list is_int) v (fs_licenses x) /\
  shows "m_tandem_leader_id" (is_opt is_int) v (fs_tandem_leader_id x) /\
  shows "m_commander" is_text v (fs_commander x) /\
  shows "m_commander_level" is_int v (fs_commander_level x) /\
  shows "m_has_silence_penalty" is_bool v (fs_has_silence_penalty x) /\
  shows "m_tandem_id" (is_opt is_int) v (fs_tandem_id x) /\
  shows "m_commander_mastery_level" is_int v (fs_commander_mastery_level x) /\
  shows "m_commander_mastery_talents" (is_list is_int) v (fs_commander_mastery_talents x) /\
  shows "m_trophy_id" is_int v (fs_trophy_id x) /\
  shows "m_reward_overrides" (is_list override_shown) v (fs_reward_overrides x) /\
  shows "m_brutal_plus_difficulty" is_int v (fs_brutal_plus_difficulty x) /\
  shows "m_retry_mutation_indexes" (is_list is_int) v (fs_retry_mutation_indexes x) /\
  shows "m_a_c_enemy_race" is_int v (fs_a_c_enemy_race x) /\
  shows "m_a_c_enemy_wave_type" is_int v (fs_a_c_enemy_wave_type x) /\
  shows "m_selected_commander_prestige" is_int v (fs_selected_commander_prestige x).
Definition lobby_shown (v : val) (x : lobby_state) : Prop :=
  shows "m_phase" is_name v (lb_phase x) /\
  shows "m_max_users" is_int v (lb_max_users x) /\
  shows "m_max_observers" is_int v (lb_max_observers x) /\
  shows "m_slots" (is_list slot_shown) v (lb_slots x) /\
  shows "m_random_seed" is_int v (lb_random_seed x) /\
  shows "m_host_user_id" (is_opt is_int) v (lb_host_user_id x) /\
  shows "m_is_single_player" is_bool v (lb_is_single_player x) /\
  shows "m_picked_map_tag" is_int v (lb_picked_map_tag x) /\
  shows "m_game_duration" is_int v (lb_game_duration x) /\
  shows "m_default_difficulty" is_int v (lb_default_difficulty x) /\
  shows "m_default_ai_build" is_int v (lb_default_ai_build x).
Definition sync_shown (v : val) (x : sync_state) : Prop :=
  shows "m_user_initial_data" (is_list user_shown) v (sy_user_initial_data x) /\
  shows "m_game_description" description_shown v (sy_game_description x) /\
  shows "m_lobby_state" lobby_shown v (sy_lobby_state x).
Definition init_shown (v : val) (d : full_init) : Prop := shows "m_sync_lobby_state" sync_shown v (xi_sync d).
