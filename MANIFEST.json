{
 "claims": [
  {
   "property": "C01",
   "status": "proved",
   "theorems": [
    "C01_vlq_value",
    "C01_vlq_consumes",
    "C01_vlq_truncated",
    "C01_vlq_split_unique"
   ],
   "note": "Value, consumed bytes, truncation error and uniqueness of the split; numbers of eleven bytes or more are C03."
  },
  {
   "property": "C02",
   "status": "proved",
   "theorems": [
    "C02_vlq_round_trip",
    "C02_vlq_encode_valid"
   ],
   "note": ""
  },
  {
   "property": "C03",
   "status": "partial",
   "theorems": [
    "C03_vlq_overlong_refuted",
    "C03_vlq_wrapping_no_panic_partial",
    "C03_vlq_checked_exact_partial",
    "C03_vlq_no_run_no_panic_partial",
    "C03_vlq_builds_agree_partial",
    "C03_vlq_wrapping_exact_partial",
    "C03_vlq_wrapping_ten_partial",
    "C03_vlq_panics_partial",
    "C03_vlq_errors_partial"
   ],
   "note": "False of the code: an eleven-byte number panics when overflow checks are on and wraps when they are off. Proved: exactly which inputs are accepted, panic or wrap, and, for a build without checks, the value every over-long integer is read as."
  },
  {
   "property": "C04",
   "status": "proved",
   "theorems": [
    "C04_bits_value",
    "C04_bits_unsigned",
    "C04_bits_round_trip"
   ],
   "note": ""
  },
  {
   "property": "C05",
   "status": "proved",
   "theorems": [
    "C05_advances",
    "C05_fails_iff",
    "C05_array",
    "C05_bool",
    "C05_cursor_ok"
   ],
   "note": ""
  },
  {
   "property": "C06",
   "status": "partial",
   "theorems": [
    "C06_packed_int_partial",
    "C06_packed_64_wrapping_partial",
    "C06_packed_64_refuted"
   ],
   "note": "Value and range proved for all widths below 64; the claim for the 64-bit field biased by -2^63 is false: half of its values panic in a checked build (refuted with a witness), and the remaining half are right."
  },
  {
   "property": "C07",
   "status": "partial",
   "theorems": [
    "C07_bit_array_partial",
    "C07_bit_array_refuted",
    "C07_unaligned_byte",
    "C07_fourcc"
   ],
   "note": "For n = 0 the code returns one zero byte instead of none (stated in the theorem for n > 0 and separately for 0)."
  },
  {
   "property": "C08",
   "status": "proved",
   "theorems": [
    "C08_byte_align"
   ],
   "note": ""
  },
  {
   "property": "C09",
   "status": "proved",
   "theorems": [
    "C09_wrong_tag",
    "C09_blob",
    "C09_bitarray",
    "C09_int",
    "C09_bool",
    "C09_fourcc"
   ],
   "note": ""
  },
  {
   "property": "C10",
   "status": "proved",
   "theorems": [
    "C10_progress"
   ],
   "note": ""
  },
  {
   "property": "C11",
   "status": "proved",
   "theorems": [
    "C11_round_trip",
    "C11_round_trip_any",
    "C11_encoder",
    "C11_unambiguous",
    "C11_types"
   ],
   "note": ""
  },
  {
   "property": "C12",
   "status": "partial",
   "theorems": [
    "C12_unknown_tag",
    "C12_missing_field",
    "C12_duplicate_partial",
    "C12_no_panic_partial",
    "C12_no_panic_checked_partial",
    "C12_malformed_refuted"
   ],
   "note": "False in full: an optional field repeated after a None is accepted, and a padded integer panics in a checked build. Proved: unknown tags, missing fields, all other duplicates, and when no panic occurs."
  },
  {
   "property": "C13",
   "status": "partial",
   "theorems": [
    "C13_duplicate_names_tag_partial",
    "C13_duplicate_error_partial",
    "C13_duplicate_names_tag_refuted"
   ],
   "note": "False for UnitBorn, UnitDied and UnitOwnerChange (another tag is reported); proved for all other types."
  },
  {
   "property": "C14",
   "status": "partial",
   "theorems": [
    "C14_round_trip_partial",
    "C14_encoder_partial",
    "C14_round_trip_refuted",
    "C14_empty_blob_refuted"
   ],
   "note": "False in full: empty blobs decode to [0], two optional fields are re-read from the presence bit, Int64 wraps or panics. Proved: round trip for every value free of these three."
  },
  {
   "property": "C15",
   "status": "partial",
   "theorems": [
    "C15_optional_partial",
    "C15_reread_types_partial",
    "C15_optional_refuted"
   ],
   "note": "False for Smd5.m_data_deprecated and GameSCommandManagerStateEvent.m_sequence; proved for every other optional field."
  },
  {
   "property": "C16",
   "status": "proved",
   "theorems": [
    "C16_tracker_progress",
    "C16_user_event_progress",
    "C16_game_next_returns",
    "C16_tracker_next_returns"
   ],
   "note": "Both builds for game and message events; the tracker iterator in a wrapping build, and in a checked one over bytes without nine continuation bytes in a row (it may panic on a longer padded integer, C12)."
  },
  {
   "property": "C17",
   "status": "proved",
   "theorems": [
    "C17_tag_split",
    "C17_tag_join",
    "C17_tag_injective"
   ],
   "note": ""
  },
  {
   "property": "C18",
   "status": "partial",
   "theorems": [
    "C18_positions_modular",
    "C18_positions_partial",
    "C18_wrapping_total",
    "C18_positions_refuted"
   ],
   "note": "False when a coordinate or index leaves the i32 range (checked builds panic, wrapping builds report another position). Proved: the modular value always, the exact value when nothing overflows."
  },
  {
   "property": "C19",
   "status": "proved",
   "theorems": [
    "C19_tracker_iterator"
   ],
   "note": ""
  },
  {
   "property": "C20",
   "status": "partial",
   "theorems": [
    "C20_conversion_error_refuted",
    "C20_every_sector_partial"
   ],
   "note": "False: an event whose name is not UTF-8 makes the iterator answer None and then go on. Proved: the exact answers for every sector, well-formed or not (in a checked build, without nine continuation bytes in a row)."
  },
  {
   "property": "C21",
   "status": "partial",
   "theorems": [
    "C21_agree_refuted",
    "C21_agree_partial"
   ],
   "note": "False of the empty sector (the batch reader fails). Proved for every other well-formed sector."
  },
  {
   "property": "C22",
   "status": "proved",
   "theorems": [
    "C22_game_iterator",
    "C22_game_iterator_blizzard",
    "C22_every_sector"
   ],
   "note": ""
  },
  {
   "property": "C23",
   "status": "partial",
   "theorems": [
    "C23_unreadable_refuted",
    "C23_rounding_refuted",
    "C23_order_partial",
    "C23_any_loop_partial"
   ],
   "note": "False in two ways: an unreadable tracker name hides the event behind it for one call, and game loops above 2^24 are rounded to f32 before they are compared. Proved for readable sectors with game loops up to 2^24, under any filter; above that no item exceeds a later one by more than one part in 2^23 (C23_any_loop_partial)."
  },
  {
   "property": "C24",
   "status": "partial",
   "theorems": [
    "C24_tie_refuted",
    "C24_choice_partial",
    "C24_far_partial"
   ],
   "note": "False: on equal loops the game event comes first, against the module documentation. Proved: exactly which event is delivered (C24_choice_partial, game loops up to 2^24) and, at any loop, that the earlier one is if they are further apart than the rounding (C24_far_partial)."
  },
  {
   "property": "C25",
   "status": "proved",
   "theorems": [
    "C25_interleaved",
    "C25_every_sector"
   ],
   "note": "Proved for well-formed sectors, and for any two byte strings (a wrapping build, or no nine continuation bytes in a row in the tracker sector) relative to the two single iterators."
  },
  {
   "property": "C26",
   "status": "partial",
   "theorems": [
    "C26_none_pending",
    "C26_stays_refuted",
    "C26_stays_partial"
   ],
   "note": "False for 'keeps returning None' after an unreadable tracker name. Proved: None only if both streams have nothing pending, and permanence for readable sectors."
  },
  {
   "property": "C27",
   "status": "proved",
   "theorems": [
    "C27_filters_hide",
    "C27_hidden"
   ],
   "note": ""
  },
  {
   "property": "C28",
   "status": "partial",
   "theorems": [
    "C28_count_refuted",
    "C28_count_partial"
   ],
   "note": "False: max_events = N yields N - 1 items. Proved: the exact answers for every N."
  },
  {
   "property": "C29",
   "status": "partial",
   "theorems": [
    "C29_bounds_refuted",
    "C29_bounds_partial"
   ],
   "note": "False of game events, which are never tested against the bounds. Proved of tracker events."
  },
  {
   "property": "C30",
   "status": "proved",
   "theorems": [
    "C30_player"
   ],
   "note": ""
  },
  {
   "property": "C31",
   "status": "proved",
   "theorems": [
    "C31_units_indexed"
   ],
   "note": ""
  },
  {
   "property": "C32",
   "status": "proved",
   "theorems": [
    "C32_registered",
    "C32_game_events"
   ],
   "note": ""
  },
  {
   "property": "C33",
   "status": "proved",
   "theorems": [
    "C33_died"
   ],
   "note": ""
  },
  {
   "property": "C34",
   "status": "partial",
   "theorems": [
    "C34_groups_refuted",
    "C34_groups_partial"
   ],
   "note": "False: control groups hold unit tags and the handler removes the unit index, so the tag of the dead unit stays. Proved: exactly what is removed, and that a dead unit is listed in no selection."
  },
  {
   "property": "C35",
   "status": "partial",
   "theorems": [
    "C35_hint_refuted",
    "C35_init_partial",
    "C35_born",
    "C35_type_change",
    "C35_done"
   ],
   "note": "False for the hint of a UnitInit that names a registered unit (a fresh unit is returned). Everything else is proved."
  },
  {
   "property": "C36",
   "status": "partial",
   "theorems": [
    "C36_ability_refuted",
    "C36_ability_partial"
   ],
   "note": "False for a unit born without a previous UnitInit (the ability is dropped). Proved: the ability exactly as stored, for every event."
  },
  {
   "property": "C37",
   "status": "proved",
   "theorems": [
    "C37_eleven_groups",
    "C37_same_users"
   ],
   "note": ""
  },
  {
   "property": "C38",
   "status": "partial",
   "theorems": [
    "C38_no_panic_refuted",
    "C38_control_partial",
    "C38_selection_partial"
   ],
   "note": "False for group indices 11 to 15, which the wire format can carry. Proved: exactly when a panic occurs."
  },
  {
   "property": "C39",
   "status": "proved",
   "theorems": [
    "C39_copy"
   ],
   "note": ""
  },
  {
   "property": "C40",
   "status": "proved",
   "theorems": [
    "C40_append"
   ],
   "note": ""
  },
  {
   "property": "C41",
   "status": "partial",
   "theorems": [
    "C41_steal_refuted",
    "C41_steal_partial"
   ],
   "note": "False for group 9 (the loop runs over 0..9). Proved for the groups 0 to 8, with the exact content of every group."
  },
  {
   "property": "C42",
   "status": "proved",
   "theorems": [
    "C42_selection",
    "C42_round_trip",
    "C42_other_groups"
   ],
   "note": ""
  },
  {
   "property": "C43",
   "status": "partial",
   "theorems": [
    "C43_hint_refuted",
    "C43_hint_partial"
   ],
   "note": "False for a unit in the old and in the new selection: the hint lists its intermediate copy. Proved for every sorting order: order, uniqueness, which units are listed, and that all others are as stored."
  },
  {
   "property": "C44",
   "status": "partial",
   "theorems": [
    "C44_commands_refuted",
    "C44_commands_partial",
    "C44_other_commands"
   ],
   "note": "False for a Cmd without ability and for an unknown target, which reach no unit. Proved for all others, with the exact order each unit gets."
  },
  {
   "property": "C45",
   "status": "partial",
   "theorems": [
    "C45_target_refuted",
    "C45_target_partial",
    "C45_update_target"
   ],
   "note": "False: Cmd looks the target up by its whole tag. Proved: exactly which unit is reported, and that CmdUpdateTargetUnit falls back to the index."
  },
  {
   "property": "C46",
   "status": "proved",
   "theorems": [
    "C46_game_isolation",
    "C46_own_lobby",
    "C46_tracker"
   ],
   "note": ""
  },
  {
   "property": "C47",
   "status": "proved",
   "theorems": [
    "C47_camera"
   ],
   "note": ""
  },
  {
   "property": "C48",
   "status": "proved",
   "theorems": [
    "C48_names",
    "C48_names_unique",
    "C48_order",
    "C48_setup"
   ],
   "note": ""
  },
  {
   "property": "C49",
   "status": "proved",
   "theorems": [
    "C49_ability_name",
    "C49_cases"
   ],
   "note": ""
  },
  {
   "property": "C50",
   "status": "proved",
   "theorems": [
    "C50_dispatch"
   ],
   "note": ""
  },
  {
   "property": "C51",
   "status": "proved",
   "theorems": [
    "C51_limits",
    "C51_complete",
    "C51_names"
   ],
   "note": "The directory tree is a function of the path, so link cycles are covered; a tree that changes during the search is not."
  },
  {
   "property": "C52",
   "status": "proved",
   "theorems": [
    "C52_lobby",
    "C52_common",
    "C52_player_names"
   ],
   "note": ""
  },
  {
   "property": "C53",
   "status": "partial",
   "theorems": [
    "C53_bounds",
    "C53_fits_refuted",
    "C53_overflow_refuted",
    "C53_sane_partial"
   ],
   "note": "False: left and bottom may be negative, so the playable area may exceed the map or overflow i32. Proved: the bounds that are checked, and all dimensions when left and bottom are at least 0."
  },
  {
   "property": "C54",
   "status": "partial",
   "theorems": [
    "C54_count_refuted",
    "C54_count_partial",
    "C54_lookup_partial"
   ],
   "note": "False in wrapping builds for maps of negative size (accepted by MapInfo::parse). Proved for checked builds and any map info, and for all builds when the map size is not negative."
  },
  {
   "property": "C55",
   "status": "partial",
   "theorems": [
    "C55_rest_refuted",
    "C55_reads_partial",
    "C55_mod",
    "C55_text"
   ],
   "note": "False: the remainder is the input before the fields. Proved: the exact result for every well-formed header."
  },
  {
   "property": "C56",
   "status": "partial",
   "theorems": [
    "C56_floor_refuted",
    "C56_offset_refuted",
    "C56_exact_partial",
    "C56_near_partial",
    "C56_monotone",
    "C56_offset",
    "C56_subsecond"
   ],
   "note": "False to the microsecond for times before 1601 and for offsets that are no whole microseconds. Proved: exact otherwise, less than 2 microseconds in every case, monotone, never None."
  },
  {
   "property": "C57",
   "status": "partial",
   "theorems": [
    "C57_own_layout_refuted",
    "C57_game_layout_partial"
   ],
   "note": "False: protocol75689::GameSLobbySlot exists but the init data reader reaches the 87702 slot. Proved: game events use the module's own layout."
  },
  {
   "property": "C58",
   "status": "proved",
   "theorems": [
    "C58_builds_agree"
   ],
   "note": ""
  },
  {
   "property": "C59",
   "status": "proved",
   "theorems": [
    "C59_accepts_only_encodings",
    "C59_both_builds",
    "C59_without_checks"
   ],
   "note": ""
  },
  {
   "property": "C60",
   "status": "partial",
   "theorems": [
    "C60_no_panic_wrapping_partial",
    "C60_no_panic_checked_partial",
    "C60_no_panic_refuted"
   ],
   "note": "False for Int64 (and GameSDetails, which contains one) in a checked build; proved for all other types in both builds and for all types in a wrapping build."
  },
  {
   "property": "C61",
   "status": "proved",
   "theorems": [
    "C61_accepts_exactly",
    "C61_unambiguous"
   ],
   "note": ""
  },
  {
   "property": "C62",
   "status": "proved",
   "theorems": [
    "C62_truncated_bits",
    "C62_truncated_bytes",
    "C62_truncated_bytes_any_build",
    "C62_truncated_bytes_without_checks"
   ],
   "note": ""
  },
  {
   "property": "C63",
   "status": "proved",
   "theorems": [
    "C63_utf8_exact",
    "C63_injective",
    "C63_scalar_injective"
   ],
   "note": ""
  },
  {
   "property": "C64",
   "status": "proved",
   "theorems": [
    "C64_game_conversion"
   ],
   "note": ""
  },
  {
   "property": "C65",
   "status": "proved",
   "theorems": [
    "C65_tracker_conversion"
   ],
   "note": ""
  },
  {
   "property": "C66",
   "status": "proved",
   "theorems": [
    "C66_player_stats",
    "C66_stats_by_path"
   ],
   "note": ""
  },
  {
   "property": "C67",
   "status": "proved",
   "theorems": [
    "C67_tracker_loops_fit",
    "C67_game_loops_fit",
    "C67_tracker_loops_shown",
    "C67_game_loops_shown"
   ],
   "note": ""
  },
  {
   "property": "C68",
   "status": "partial",
   "theorems": [
    "C68_batch_deltas_refuted",
    "C68_batch_game_partial",
    "C68_batch_any_partial"
   ],
   "note": "False as soon as an unsupported event is dropped: its delta is lost. Proved when every event is supported, and in general that each returned event keeps its own delta and user."
  },
  {
   "property": "C69",
   "status": "proved",
   "theorems": [
    "C69_messages"
   ],
   "note": ""
  },
  {
   "property": "C70",
   "status": "proved",
   "theorems": [
    "C70_positions",
    "C70_quarter"
   ],
   "note": ""
  },
  {
   "property": "C71",
   "status": "partial",
   "theorems": [
    "C71_user_id_refuted",
    "C71_should_skip_partial"
   ],
   "note": "False for user ids outside 0..255, compared modulo 256. Proved for all others and all tracker events."
  },
  {
   "property": "C72",
   "status": "partial",
   "theorems": [
    "C72_names_refuted",
    "C72_names_partial",
    "C72_user_names_partial"
   ],
   "note": "False: initial data are looked up by slot position instead of user id. Proved: which entry is taken, and that it is right if each user sits in the slot of his number."
  },
  {
   "property": "C73",
   "status": "partial",
   "theorems": [
    "C73_reads_partial",
    "C73_empty_refuted"
   ],
   "note": "False for an empty first text. Proved for all others."
  },
  {
   "property": "C74",
   "status": "proved",
   "theorems": [
    "C74_details",
    "C74_hex"
   ],
   "note": "The name inside a battle.net handle is not shown and is not required to be UTF-8. Times to 2 microseconds (C56)."
  },
  {
   "property": "C75",
   "status": "proved",
   "theorems": [
    "C75_init_data"
   ],
   "note": "Protocol 87702 layout; the 75689 layout differs (C57)."
  },
  {
   "property": "C76",
   "status": "proved",
   "theorems": [
    "C76_collected",
    "C76_stats"
   ],
   "note": "Rows, not the Arrow file they are written to. Seconds are the crate's own conversion of the loop."
  },
  {
   "property": "C77",
   "status": "proved",
   "theorems": [
    "C77_upgrades"
   ],
   "note": "Rows, not the Arrow file."
  },
  {
   "property": "C78",
   "status": "proved",
   "theorems": [
    "C78_deaths"
   ],
   "note": "Rows, not the Arrow file. A unit reported as its own killer has an empty killer name."
  },
  {
   "property": "C79",
   "status": "partial",
   "theorems": [
    "C79_owner_refuted",
    "C79_births_partial"
   ],
   "note": "False: a change of owner is not followed, so later rows show the player of the unit's birth. Proved: the complete table."
  },
  {
   "property": "C80",
   "status": "partial",
   "theorems": [
    "C80_ability_refuted",
    "C80_points_partial"
   ],
   "note": "False: the ability is named as the last selected unit knows it, for all rows; commands without ability give no row. Proved: the complete table."
  },
  {
   "property": "C81",
   "status": "partial",
   "theorems": [
    "C81_target_refuted",
    "C81_targets_partial"
   ],
   "note": "False: the target is looked up under its whole tag instead of its index, so a known target usually has no name. Proved: the complete table."
  },
  {
   "property": "C82",
   "status": "partial",
   "theorems": [
    "C82_short_refuted",
    "C82_lobby_row_partial",
    "C82_short_handles_partial"
   ],
   "note": "False: a details sector with a cache handle of less than 8 bytes is accepted and its rows panic. Proved: the row for handles of 8 bytes or more, and that every shorter handle panics."
  },
  {
   "property": "C83",
   "status": "proved",
   "theorems": [
    "C83_user_rows"
   ],
   "note": "For at most 2^32 users (the index is a u32)."
  },
  {
   "property": "C84",
   "status": "partial",
   "theorems": [
    "C84_monotone",
    "C84_same_for_tracker",
    "C84_range",
    "C84_exact_refuted",
    "C84_exact_partial",
    "C84_one_second_partial",
    "C84_relative_partial"
   ],
   "note": "False from loop 69127 (79 minutes) on: the rounding of the float product gives one second too much. Proved: monotone, same for both, exact before, off by at most 1 up to loop 2^25, within one part in 2^22 before the u32 saturates."
  },
  {
   "property": "C85",
   "status": "partial",
   "theorems": [
    "C85_negative_refuted",
    "C85_large_refuted",
    "C85_cell_round_trip_partial",
    "C85_terrain_round_trip_partial",
    "C85_negative_partial",
    "C85_cell_contains_partial",
    "C85_nearest_refuted",
    "C85_nearest_partial"
   ],
   "note": "False for negative coordinates (all move by one), for coordinates above 2^23, and just below one half (0.49999997 goes to 1). Proved: round trips from 0 to 2^23, the exact answer for negatives, the containing cell, and the distance to the terrain point."
  },
  {
   "property": "C86",
   "status": "proved",
   "theorems": [
    "C86_position",
    "C86_from_file"
   ],
   "note": "Axiom-free float arithmetic (F32Round.v)."
  },
  {
   "property": "C87",
   "status": "partial",
   "theorems": [
    "C87_init",
    "C87_header",
    "C87_balance",
    "C87_error_refuted",
    "C87_panics_partial",
    "C87_readers_partial",
    "C87_path"
   ],
   "note": "An archive without user data, with a header that panics, or with another signature panics in every reader instead of giving an error. Proved: what the init data says, and exactly when reading panics."
  },
  {
   "property": "C88",
   "status": "partial",
   "theorems": [
    "C88_chosen",
    "C88_skipped_refuted",
    "C88_panics_partial"
   ],
   "note": "One file that panics (C87) ends the whole export, as does an empty selection; files that give errors are skipped. Proved: the selection, and exactly when it panics."
  },
  {
   "property": "C89",
   "status": "partial",
   "theorems": [
    "C89_serial",
    "C89_parallel",
    "C89_outcome",
    "C89_statistics",
    "C89_events",
    "C89_unfinished_refuted",
    "C89_interrupted_partial",
    "C89_succeeds",
    "C89_no_directory",
    "C89_not_created"
   ],
   "note": "C89_statistics and C89_events go from the bytes of the event sectors to the rows in the files, for every event table. A panic of one replay (selection in a group above ten, short cache handle) ends the export; it leaves at most one unfinished file, the last. Arrow encoding and file writing are external and do not fail; creating a file may: C89_succeeds says exactly when an export succeeds, C89_not_created and C89_no_directory how it fails."
  },
  {
   "property": "C90",
   "status": "partial",
   "theorems": [
    "C90_scan",
    "C90_same_refuted",
    "C90_panics_partial"
   ],
   "note": "The order of equally frequent names, and which of them make the first ten, depends on the hash map; a file that panics (C87, or a path that is not text) ends the scan. Proved: all numbers and rankings, and exactly when it panics."
  },
  {
   "property": "C91",
   "status": "proved",
   "theorems": [
    "C91_file",
    "C91_batches",
    "C91_interrupted",
    "C91_no_deadlock",
    "C91_ends",
    "C91_every_order"
   ],
   "note": "Threads as an interleaving transition system: one step is the computation of the rows of a source, taking the lock, one byte, releasing the lock. The end of the file written by closing is not part of the bytes considered."
  },
  {
   "property": "C92",
   "status": "partial",
   "theorems": [
    "C92_failures_refuted",
    "C92_failures_partial",
    "C92_counted_partial"
   ],
   "note": "Refuted: failures to write are logged and ignored. The partial theorems say what is in the file and that the number of records logged tells."
  },
  {
   "property": "C93",
   "status": "proved",
   "theorems": [
    "C93_agree",
    "C93_written"
   ],
   "note": "They do not accept the same inputs: the short reader stops after the version, the full reader takes the fields in any order; the example shows the former."
  },
  {
   "property": "C94",
   "status": "partial",
   "theorems": [
    "C94_units_read_back_partial",
    "C94_exact_map_refuted",
    "C94_every_name_refuted",
    "C94_any_name",
    "C94_which_names_partial"
   ],
   "note": "False as stated: units written by an earlier call stay (C94_exact_map_refuted), and a name that ends in .json or has a slash does not come back (C94_every_name_refuted). Proved: for maps with plain names both readers give, for every key, what was last written for it; for one unit of any name, where its file is and what is read of it (C94_any_name), so that exactly the plain names come back (C94_which_names_partial); a part .. of a name is not modelled."
  },
  {
   "property": "C95",
   "status": "partial",
   "theorems": [
    "C95_readers_agree_partial",
    "C95_fail_together",
    "C95_from_the_files",
    "C95_order_refuted"
   ],
   "note": "False when two files are the same unit, such as 5/Marine.json and 05/Marine.json or Marine and Marine.json (C95_order_refuted). Proved: agreement and independence of the order without such files; failure and origin of every unit without that hypothesis."
  },
  {
   "property": "C96",
   "status": "partial",
   "theorems": [
    "C96_xml_units_partial",
    "C96_not_text_fails",
    "C96_through_json",
    "C96_order_refuted"
   ],
   "note": "False when two XML files of one version have the same identifier (C96_order_refuted). Proved without them; the way through JSON needs plain identifiers only."
  },
  {
   "property": "C97",
   "status": "proved",
   "theorems": [
    "C97_printed",
    "C97_tracker",
    "C97_game"
   ],
   "note": "The sections of messages are those of C68's batch reader."
  },
  {
   "property": "C98",
   "status": "partial",
   "theorems": [
    "C98_listings_refuted",
    "C98_hidden_refuted",
    "C98_type_refuted",
    "C98_transist_partial"
   ],
   "note": "False as stated: the two listings ignore every option (C98_listings_refuted, C98_hidden_refuted) and --event-type has no effect at all (C98_type_refuted). Proved: transist-events prints exactly the events that are not hidden, one less than --max-events."
  },
  {
   "property": "C99",
   "status": "partial",
   "theorems": [
    "C99_json_refuted",
    "C99_section_partial"
   ],
   "note": "False: listings put no commas between events, transist-events puts one after the last (C99_json_refuted). Proved: when exactly the section of a replay is JSON."
  },
  {
   "property": "C100",
   "status": "partial",
   "theorems": [
    "C100_recursive_refuted",
    "C100_extension_refuted",
    "C100_bad_refuted",
    "C100_missing_refuted",
    "C100_stops_partial"
   ],
   "note": "False: directories are not searched recursively, other files are opened, a replay whose initial data cannot be read ends the run, a missing source is a success (C100_*_refuted). Proved: which files are read, and for every run that does not end well where and why it stopped and what had been printed."
  },
  {
   "property": "C101",
   "status": "partial",
   "theorems": [
    "C101_date_refuted",
    "C101_details_partial"
   ],
   "note": "False: versions::read_details does not set the metadata, the date is 1970-01-01 (C101_date_refuted). Proved: every other field."
  },
  {
   "property": "C102",
   "status": "partial",
   "theorems": [
    "C102_renamed_refuted",
    "C102_halved_refuted",
    "C102_looks_partial",
    "C102_determined"
   ],
   "note": "False: a UnitInit that names a registered unit keeps the colour and radius of the old type (C102_renamed_refuted); a type change of a selected unit leaves it at half its radius once deselected (C102_halved_refuted). Proved for all histories without these two."
  },
  {
   "property": "C103",
   "status": "partial",
   "theorems": [
    "C103_group_refuted",
    "C103_shared_refuted",
    "C103_reused_refuted",
    "C103_unknown_refuted",
    "C103_marked_partial",
    "C103_selected_partial"
   ],
   "note": "False in both directions: setting a control group unmarks the selection (C103_group_refuted), one of two selecting users unmarks for both (C103_shared_refuted), a unit with a reused index is selected unmarked (C103_reused_refuted), a user outside the lobby marks without selecting (C103_unknown_refuted). Proved: each direction for the histories without its exceptions."
  },
  {
   "property": "C104",
   "status": "proved",
   "theorems": [
    "C104_stepping",
    "C104_turns",
    "C104_program"
   ],
   "note": ""
  },
  {
   "property": "C105",
   "status": "partial",
   "theorems": [
    "C105_limit_refuted",
    "C105_unreadable_refuted",
    "C105_end_partial"
   ],
   "note": "False: with a limit on events the pane empties while the map goes on (C105_limit_refuted), and an unreadable name in the tracker sector ends the pane though events follow (C105_unreadable_refuted). Proved for readable sectors and filters without a limit."
  },
  {
   "property": "C106",
   "status": "proved",
   "theorems": [
    "C106_map"
   ],
   "note": ""
  },
  {
   "property": "C107",
   "status": "partial",
   "theorems": [
    "C107_third_refuted",
    "C107_order_refuted",
    "C107_panels_partial"
   ],
   "note": "False: only two users have a panel (C107_third_refuted), and which two depends on the walk of a hash map (C107_order_refuted). Proved: the panels show, completely and in order, the selections of two users."
  },
  {
   "property": "C108",
   "status": "partial",
   "theorems": [
    "C108_swapped_refuted",
    "C108_colors_partial"
   ],
   "note": "False: the user number is compared with the slot number, as u8 (C108_swapped_refuted). Proved for the players whose two numbers agree."
  },
  {
   "property": "C109",
   "status": "partial",
   "theorems": [
    "C109_slotless_refuted",
    "C109_shared_refuted",
    "C109_pane_partial"
   ],
   "note": "False: a player without a slot is not listed (C109_slotless_refuted), and of two players with the same slot the second has the first one's colour (C109_shared_refuted). Proved: all others are listed, in order and complete, each with a slot of his own in his own colour."
  },
  {
   "property": "C110",
   "status": "partial",
   "theorems": [
    "C110_generated_partial",
    "C110_generated_refuted"
   ],
   "note": "False for fixed blobs, integers with another least value than 0 or minus a power of two, strings and arrays whose greatest length is a power of two less one, optional integers in place, blobs inside a struct, enums with gaps; a bit array or an InumType inside a struct stops the generator, an optional DynArrayType gives text that is no Rust (C110_generated_refuted). Proved for all other declarations, of any nesting."
  },
  {
   "property": "C111",
   "status": "partial",
   "theorems": [
    "C111_array_lengths_partial",
    "C111_array_lengths_refuted"
   ],
   "note": "False exactly when the greatest length is one less than a power of two: the theorem is an equivalence."
  },
  {
   "property": "C112",
   "status": "partial",
   "theorems": [
    "C112_enum_tags_partial",
    "C112_enum_tags_refuted"
   ],
   "note": "False exactly when a value does not fit the number of bits that count the values: the theorem is an equivalence."
  },
  {
   "property": "C113",
   "status": "partial",
   "theorems": [
    "C113_int_bounds_partial",
    "C113_literals_partial",
    "C113_int_bounds_refuted"
   ],
   "note": "False: the width is that of the greatest value, not of the distance. The theorem is an equivalence: right iff the least value is inclusive and the two widths agree."
  },
  {
   "property": "C114",
   "status": "proved",
   "theorems": [
    "C114_tracker",
    "C114_game",
    "C114_messages",
    "C114_iterators",
    "C114_missing"
   ],
   "note": "Events as converted by C65 and C66; the empty sector is C21."
  },
  {
   "property": "C115",
   "status": "partial",
   "theorems": [
    "C115_round_trip_partial",
    "C115_exact_partial",
    "C115_reads_units",
    "C115_fields",
    "C115_absent",
    "C115_ranges",
    "C115_directory_partial",
    "C115_not_finite_refuted"
   ],
   "note": "Proved for units whose floats are numbers (C115_round_trip_partial, C115_exact_partial), through directories and included assets (C115_directory_partial); the typing of what is read and the treatment of fields hold in full (C115_reads_units, C115_fields). C115_not_finite_refuted: NaN and infinities do not survive. JSON text is external: print and parse are quantified over, with the accuracy they need as a hypothesis on the values written."
  },
  {
   "property": "C116",
   "status": "partial",
   "theorems": [
    "C116_history_partial",
    "C116_built_in",
    "C116_balance_first",
    "C116_options",
    "C116_missing",
    "C116_tag",
    "C116_new_directory_refuted"
   ],
   "note": "Proved for a directory that exists and was empty before the first conversion (C116_history_partial), for every history and order of listings; what precedes the commands, the options and missing arguments hold in full (C116_balance_first, C116_options, C116_missing, C116_tag). C116_new_directory_refuted: a new directory is never created. Argument parsing and the generator as a whole are not modelled."
  },
  {
   "property": "C117",
   "status": "proved",
   "theorems": [
    "C117_repaired",
    "C117_map_info"
   ],
   "note": "For MapInfo the well-formed files are those of C73 (non-empty first text); the texts of a DocumentHeader are from_utf8_lossy of its fields by C55_reads_partial."
  },
  {
   "property": "C118",
   "status": "partial",
   "theorems": [
    "C118_corner_refuted",
    "C118_corner_partial",
    "C118_playable_partial",
    "C118_inside"
   ],
   "note": "C118_corner_refuted: terrain_right_top is the corner of the map. Proved: exactly when it is the playable one (C118_corner_partial), playable coordinates (C118_playable_partial, for left and bottom at least 0 and no overflow) and membership (C118_inside); the cells' corners are C53_sane_partial."
  },
  {
   "property": "C119",
   "status": "partial",
   "theorems": [
    "C119_units_refuted",
    "C119_commands_refuted",
    "C119_unknown",
    "C119_choice",
    "C119_other_filters",
    "C119_commands_partial",
    "C119_names"
   ],
   "note": "C119_units_refuted (units of the other player shown, in an ordinary two-player lobby) and C119_commands_refuted (game events of the other player, seats and users numbered differently). Proved: which seat is chosen (C119_choice, C119_unknown, C119_other_filters), game events are right where users are numbered as their seats (C119_commands_partial), and the name on every game event is its user's (C119_names)."
  },
  {
   "property": "C120",
   "status": "partial",
   "theorems": [
    "C120_generated_partial",
    "C120_events_partial",
    "C120_constant_partial",
    "C120_generated_refuted"
   ],
   "note": "C120_generated_refuted (four misread declarations, twelve that stop the generator, three without Rust). Proved for all declarations built of the names in the generator's table within the ranges of their Rust types (C120_generated_partial; the header, version, hash and colour decoders of the crate are exactly the generated ones, C120_example), and for event numbers of which some carry nothing (C120_events_partial)."
  },
  {
   "property": "C121",
   "status": "partial",
   "theorems": [
    "C121_ranges_partial",
    "C121_ranges_refuted"
   ],
   "note": "C121_ranges_refuted (TPlayerId declared up to 511). Proved: for each name the field is read exactly when its bounds lie within the Rust type (C121_ranges_partial)."
  },
  {
   "property": "C122",
   "status": "partial",
   "theorems": [
    "C122_empty_variants_partial",
    "C122_empty_variants_refuted"
   ],
   "note": "C122_empty_variants_refuted. Proved: such a choice is read exactly when it has no empty variant (C122_empty_variants_partial)."
  },
  {
   "property": "C123",
   "status": "proved",
   "theorems": [
    "C123_bytes",
    "C123_bits",
    "C123_events",
    "C123_calls",
    "C123_merged"
   ],
   "note": "C123_bytes, C123_bits: the sizes; C123_events, C123_calls: the numbers of events; C123_merged: of items of the merged iterator, with any filters. The constants are upper bounds, not tight ones. Capacity reserved ahead of reading (Vec::with_capacity) is not modelled; the code caps it at 64 KiB per array."
  },
  {
   "property": "C124",
   "status": "proved",
   "theorems": [
    "C124_bytes",
    "C124_bits",
    "C124_cut",
    "C124_stay",
    "C124_batch"
   ],
   "note": "C124_bytes, C124_bits: the decoders; C124_cut, C124_stay: the iterators; C124_batch: the batch readers. In a checked build the whole sector is assumed not to panic (C03) in C124_cut and C124_batch."
  },
  {
   "property": "C125",
   "status": "proved",
   "theorems": [
    "C125_groups",
    "C125_units",
    "C125_hints"
   ],
   "note": "C125_groups, C125_units, C125_hints; the number of users and of groups per user is fixed by C37."
  },
  {
   "property": "C126",
   "status": "partial",
   "theorems": [
    "C126_run_refuted",
    "C126_run_partial",
    "C126_merged_partial"
   ],
   "note": "False when the tracker announces one player id for two users (C126_run_refuted: the name attached to an upgrade is then the one of the user the map meets first). C126_run_partial and C126_merged_partial: everything is independent of the order when each player id is announced for one user only, as the game does."
  },
  {
   "property": "C127",
   "status": "partial",
   "theorems": [
    "C127_owner_refuted",
    "C127_story_partial",
    "C127_times"
   ],
   "note": "False for the owner: UnitOwnerChange is not recorded (C127_owner_refuted). C127_story_partial gives every field except radius, color, selection and command as a function of the history (these are in C35, C42-C44); C127_times is full. creator_tag_index is never filled."
  },
  {
   "property": "C128",
   "status": "partial",
   "theorems": [
    "C128_damage_refuted",
    "C128_tracker_whole",
    "C128_tracker_rows_partial",
    "C128_same_partial",
    "C128_any_sectors",
    "C128_commands",
    "C128_commands_any_build"
   ],
   "note": "False as stated: a damaged game sector whose events name a control group above 10 stops the program and no table is written (C128_damage_refuted). If the program ends, the tables are the same and complete (C128_tracker_rows_partial, C128_same_partial, for both builds); the half about commands is proved for release builds and for tracker sectors without nine continuation bytes in a row (C128_commands, C128_any_sectors), and for builds with overflow checks if the program ends (C128_commands_any_build): there the loops of a rubbish tracker sector can overflow."
  },
  {
   "property": "C129",
   "status": "partial",
   "theorems": [
    "C129_order_refuted",
    "C129_order_partial"
   ],
   "note": "False as stated: a command without ability (a right click) leaves no trace in the units it is given to, which still carry the order before (C129_order_refuted). For commands with an ability and for target updates the record carries what the last one that reached the unit left in it, or no order (C129_order_partial)."
  },
  {
   "property": "C130",
   "status": "partial",
   "theorems": [
    "C130_no_crash_refuted",
    "C130_no_crash_partial",
    "C130_panics_partial",
    "C130_cut_map_info",
    "C130_cut_heights",
    "C130_cut_document"
   ],
   "note": "False as stated: MapInfo accepts a map of negative size, and in a build with overflow checks a height map of that size then stops the program (C130_no_crash_refuted). For map sizes of at least 0, and in release builds for all, nothing does (C130_no_crash_partial); C130_panics_partial says exactly which height maps do; the half about files that break off holds (C130_cut_map_info, C130_cut_heights, C130_cut_document)."
  },
  {
   "property": "C131",
   "status": "proved",
   "theorems": [
    "C131_decoders",
    "C131_readers",
    "C131_files",
    "C131_history",
    "C131_merged",
    "C131_maps",
    "C131_viewer",
    "C131_program"
   ],
   "note": "Proved for every function of the model that takes a build mode. C131_differ shows that the builds do differ where the checked one panics."
  },
  {
   "property": "C132",
   "status": "partial",
   "theorems": [
    "C132_partial",
    "C132_order_partial",
    "C132_refuted"
   ],
   "note": "The pane divides loops by 22 a second, the tables multiply by 68.58391 ms: C132_refuted shows 45.455 s against 68 s at loop 1000. C132_partial: the time shown is the loop divided by 22 to the nearest millisecond for every loop below 2^43 (double rounding included), every line of the pane, every unit named; C132_order_partial: later loops show later times."
  },
  {
   "property": "C133",
   "status": "proved",
   "theorems": [
    "C133_file",
    "C133_contents",
    "C133_names"
   ],
   "note": "C133_file: an equivalence; C133_contents: the file is the concatenation of the texts of module_pieces, where the wanted declarations are a filter on the document order (GenerateSpec.v). The text inside the braces of a declaration that is not an enum, the JSON parser and convert_case are parameters."
  },
  {
   "property": "C134",
   "status": "partial",
   "theorems": [
    "C134_partial",
    "C134_error_partial",
    "C134_refuted"
   ],
   "note": "C134_refuted: a missing definition empties the output, and a definition that is its own output is destroyed for every document. C134_partial, C134_error_partial: what is left at every point of failure."
  },
  {
   "property": "C135",
   "status": "partial",
   "theorems": [
    "C135_partial",
    "C135_refuted"
   ],
   "note": "C135_refuted: other digits in the name. C135_partial: every number that has the only digits of the name."
  },
  {
   "property": "C136",
   "status": "partial",
   "theorems": [
    "C136_enum",
    "C136_partial",
    "C136_refuted"
   ],
   "note": "C136_refuted: a second struct with the same tag is ignored. C136_partial: the first one is used; C136_enum: the enum and its decoder in the file."
  },
  {
   "property": "C137",
   "status": "proved",
   "theorems": [
    "C137_module",
    "C137_reads"
   ],
   "note": "C137_module: for every declaration with a description (described_decl, GenJsonSpec.v), the decoder of the module under its name is gen Decl t; C137_reads: with C110, it reads Blizzard's format. Hypotheses: the Rust names of the module are distinct (two types of one name do not compile), convert_case turns m_eventData into MEventData, which the code spells out, and the texts of the decoders are written unless the reading modelled stops (stops_as_read)."
  },
  {
   "property": "C138",
   "status": "partial",
   "theorems": [
    "C138_refers_refuted",
    "C138_refers_partial"
   ],
   "note": "C138_refers_refuted: a document with a type off the list, and one with two declarations of one Rust name. C138_refers_partial: what holds."
  },
  {
   "property": "C139",
   "status": "proved",
   "theorems": [
    "C139_module",
    "C139_reads"
   ],
   "note": "C139_module: for every declaration with a description (ydescribed_decl, ByteJsonSpec.v), the decoder of the module under its name is ygen t; C139_reads: with C120, it reads Blizzard's format. Hypotheses: the Rust names of the module are distinct, convert_case turns the names of the table of conversions into those the table spells out (names_as_in_table), and the texts of the decoders are written unless the reading modelled stops (byte_stops_as_read)."
  },
  {
   "property": "C140",
   "status": "partial",
   "theorems": [
    "C140_refers_refuted",
    "C140_refers_partial"
   ],
   "note": "C140_refers_refuted: a document with a type off the list, and one with two declarations of one Rust name. C140_refers_partial: what holds."
  },
  {
   "property": "C141",
   "status": "proved",
   "theorems": [
    "C141_boxes",
    "C141_order",
    "C141_circles"
   ],
   "note": "C141_boxes: every box of every frame (rectangle_of: the f64 division and subtraction, SpecFloat); C141_order: strict order is kept both ways; C141_circles: every circle of every frame; places and radii are values an f32 can have in every reachable state, and f64::from of those is exact. Which event a camera position comes from is C106_map."
  },
  {
   "property": "C142",
   "status": "proved",
   "theorems": [
    "C142_unit",
    "C142_objects",
    "C142_one_name",
    "C142_program",
    "C142_floats"
   ],
   "note": "says j u: the radius and all command names of u are read off the JSON value j by path (UnitViewSpec.v), independently of serde's structs; C142_unit for every JSON value that is a unit, C142_program for the whole run; by_name (UnitFileSpec.v) gives the values of arrays in place of objects their names and changes nothing else (C142_objects, C143_objects). The text of JSON is a parameter (parse); os_dec and os_view are the decoder of BalanceJson.v and unit_view."
  },
  {
   "property": "C143",
   "status": "proved",
   "theorems": [
    "C143_rules",
    "C143_objects",
    "C143_rules_objects",
    "C143_arrays",
    "C143_written",
    "C143_program"
   ],
   "note": "unit_json (UnitFileSpec.v) is a table of the objects of a unit by path with their members in order, written from the structs and independent of the descriptors of BalanceJson.v. by_name, by the same table and one of the least lengths, gives the values of arrays in place of objects their names (serde takes such an array as the fields in order, and so does the model); C143_objects: it changes nothing without such arrays. C143_rules is an equivalence for all JSON values. The text of JSON is a parameter (parse)."
  },
  {
   "property": "C144",
   "status": "proved",
   "theorems": [
    "C144_counts",
    "C144_ends",
    "C144_program"
   ],
   "note": "The hypothesis b of C144_counts is any decision of 'some unit file is of the version v', so the count is stated without the balance data in memory. scan_panics (ArchiveSpec.v) says when reading a file panics (the same as in C90). par_iter keeps the order of the files (an assumption on rayon), so serial is not in the model."
  },
  {
   "property": "C145",
   "status": "proved",
   "theorems": [
    "C145_readable",
    "C145_export",
    "C145_event",
    "C145_events",
    "C145_calls",
    "C145_tables",
    "C145_filters",
    "C145_viewer",
    "C145_viewer_readable"
   ],
   "note": "stops (Stops.v) names the events and does not mention the state but for its users, which are those of the start. Group indices are u8 in the code; the model's negative ones, which cannot occur, count as group 0. C145_calls and C145_tables hold for any bytes in builds without overflow checks, and with them for tracker sectors without nine bytes in a row with the continuation bit (see C20)."
  }
 ]
}