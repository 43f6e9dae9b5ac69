STATUS={}
NA={}
NOTES={
"C01":"Value, consumed bytes, truncation error and uniqueness of the split; numbers of eleven bytes or more are C03.",
"C03":"False of the code: an eleven-byte number panics when overflow checks are on and wraps when they are off. Proved: exactly which inputs are accepted, panic or wrap, and, for a build without checks, the value every over-long integer is read as.",
"C12":"False in full: an optional field repeated after a None is accepted, and a padded integer panics in a checked build. Proved: unknown tags, missing fields, all other duplicates, and when no panic occurs.",
"C13":"False for UnitBorn, UnitDied and UnitOwnerChange (another tag is reported); proved for all other types.",
"C06":"Value and range proved for all widths below 64; the claim for the 64-bit field biased by -2^63 is false: half of its values panic in a checked build (refuted with a witness), and the remaining half are right.",
"C07":"For n = 0 the code returns one zero byte instead of none (stated in the theorem for n > 0 and separately for 0).",
"C14":"False in full: empty blobs decode to [0], two optional fields are re-read from the presence bit, Int64 wraps or panics. Proved: round trip for every value free of these three.",
"C15":"False for Smd5.m_data_deprecated and GameSCommandManagerStateEvent.m_sequence; proved for every other optional field.",
"C57":"False: protocol75689::GameSLobbySlot exists but the init data reader reaches the 87702 slot. Proved: game events use the module's own layout.",
"C60":"False for Int64 (and GameSDetails, which contains one) in a checked build; proved for all other types in both builds and for all types in a wrapping build.",
"C18":"False when a coordinate or index leaves the i32 range (checked builds panic, wrapping builds report another position). Proved: the modular value always, the exact value when nothing overflows.",
"C16":"Both builds for game and message events; the tracker iterator in a wrapping build, and in a checked one over bytes without nine continuation bytes in a row (it may panic on a longer padded integer, C12).",
"C20":"False: an event whose name is not UTF-8 makes the iterator answer None and then go on. Proved: the exact answers for every sector, well-formed or not (in a checked build, without nine continuation bytes in a row).",
"C21":"False of the empty sector (the batch reader fails). Proved for every other well-formed sector.",
"C68":"False as soon as an unsupported event is dropped: its delta is lost. Proved when every event is supported, and in general that each returned event keeps its own delta and user.",
"C34":"False: control groups hold unit tags and the handler removes the unit index, so the tag of the dead unit stays. Proved: exactly what is removed, and that a dead unit is listed in no selection.",
"C35":"False for the hint of a UnitInit that names a registered unit (a fresh unit is returned). Everything else is proved.",
"C36":"False for a unit born without a previous UnitInit (the ability is dropped). Proved: the ability exactly as stored, for every event.",
"C38":"False for group indices 11 to 15, which the wire format can carry. Proved: exactly when a panic occurs.",
"C41":"False for group 9 (the loop runs over 0..9). Proved for the groups 0 to 8, with the exact content of every group.",
"C43":"False for a unit in the old and in the new selection: the hint lists its intermediate copy. Proved for every sorting order: order, uniqueness, which units are listed, and that all others are as stored.",
"C44":"False for a Cmd without ability and for an unknown target, which reach no unit. Proved for all others, with the exact order each unit gets.",
"C45":"False: Cmd looks the target up by its whole tag. Proved: exactly which unit is reported, and that CmdUpdateTargetUnit falls back to the index.",
"C23":"False in two ways: an unreadable tracker name hides the event behind it for one call, and game loops above 2^24 are rounded to f32 before they are compared. Proved for readable sectors with game loops up to 2^24, under any filter; above that no item exceeds a later one by more than one part in 2^23 (C23_any_loop_partial).",
"C24":"False: on equal loops the game event comes first, against the module documentation. Proved: exactly which event is delivered (C24_choice_partial, game loops up to 2^24) and, at any loop, that the earlier one is if they are further apart than the rounding (C24_far_partial).",
"C25":"Proved for well-formed sectors, and for any two byte strings (a wrapping build, or no nine continuation bytes in a row in the tracker sector) relative to the two single iterators.",
"C26":"False for 'keeps returning None' after an unreadable tracker name. Proved: None only if both streams have nothing pending, and permanence for readable sectors.",
"C28":"False: max_events = N yields N - 1 items. Proved: the exact answers for every N.",
"C29":"False of game events, which are never tested against the bounds. Proved of tracker events.",
"C71":"False for user ids outside 0..255, compared modulo 256. Proved for all others and all tracker events.",
"C51":"The directory tree is a function of the path, so link cycles are covered; a tree that changes during the search is not.",
"C53":"False: left and bottom may be negative, so the playable area may exceed the map or overflow i32. Proved: the bounds that are checked, and all dimensions when left and bottom are at least 0.",
"C54":"False in wrapping builds for maps of negative size (accepted by MapInfo::parse). Proved for checked builds and any map info, and for all builds when the map size is not negative.",
"C55":"False: the remainder is the input before the fields. Proved: the exact result for every well-formed header.",
"C56":"False to the microsecond for times before 1601 and for offsets that are no whole microseconds. Proved: exact otherwise, less than 2 microseconds in every case, monotone, never None.",
"C72":"False: initial data are looked up by slot position instead of user id. Proved: which entry is taken, and that it is right if each user sits in the slot of his number.",
"C73":"False for an empty first text. Proved for all others.",
"C74":"The name inside a battle.net handle is not shown and is not required to be UTF-8. Times to 2 microseconds (C56).",
"C75":"Protocol 87702 layout; the 75689 layout differs (C57).",
"C76":"Rows, not the Arrow file they are written to. Seconds are the crate's own conversion of the loop.",
"C77":"Rows, not the Arrow file.",
"C78":"Rows, not the Arrow file. A unit reported as its own killer has an empty killer name.",
"C79":"False: a change of owner is not followed, so later rows show the player of the unit's birth. Proved: the complete table.",
"C80":"False: the ability is named as the last selected unit knows it, for all rows; commands without ability give no row. Proved: the complete table.",
"C81":"False: the target is looked up under its whole tag instead of its index, so a known target usually has no name. Proved: the complete table.",
"C82":"False: a details sector with a cache handle of less than 8 bytes is accepted and its rows panic. Proved: the row for handles of 8 bytes or more, and that every shorter handle panics.",
"C83":"For at most 2^32 users (the index is a u32).",
"C84":'False from loop 69127 (79 minutes) on: the rounding of the float product gives one second too much. Proved: monotone, same for both, exact before, off by at most 1 up to loop 2^25, within one part in 2^22 before the u32 saturates.',
"C85":'False for negative coordinates (all move by one), for coordinates above 2^23, and just below one half (0.49999997 goes to 1). Proved: round trips from 0 to 2^23, the exact answer for negatives, the containing cell, and the distance to the terrain point.',
"C86":'Axiom-free float arithmetic (F32Round.v).',
"C87":'An archive without user data, with a header that panics, or with another signature panics in every reader instead of giving an error. Proved: what the init data says, and exactly when reading panics.',
"C88":'One file that panics (C87) ends the whole export, as does an empty selection; files that give errors are skipped. Proved: the selection, and exactly when it panics.',
"C89":'C89_statistics and C89_events go from the bytes of the event sectors to the rows in the files, for every event table. A panic of one replay (selection in a group above ten, short cache handle) ends the export; it leaves at most one unfinished file, the last. Arrow encoding and file writing are external and do not fail; creating a file may: C89_succeeds says exactly when an export succeeds, C89_not_created and C89_no_directory how it fails.',
"C90":'The order of equally frequent names, and which of them make the first ten, depends on the hash map; a file that panics (C87, or a path that is not text) ends the scan. Proved: all numbers and rankings, and exactly when it panics.',
"C91":'Threads as an interleaving transition system: one step is the computation of the rows of a source, taking the lock, one byte, releasing the lock. The end of the file written by closing is not part of the bytes considered.',
"C92":'Refuted: failures to write are logged and ignored. The partial theorems say what is in the file and that the number of records logged tells.',
"C93":'They do not accept the same inputs: the short reader stops after the version, the full reader takes the fields in any order; the example shows the former.',
"C94":'False as stated: units written by an earlier call stay (C94_exact_map_refuted), and a name that ends in .json or has a slash does not come back (C94_every_name_refuted). Proved: for maps with plain names both readers give, for every key, what was last written for it; for one unit of any name, where its file is and what is read of it (C94_any_name), so that exactly the plain names come back (C94_which_names_partial); a part .. of a name is not modelled.',
"C95":'False when two files are the same unit, such as 5/Marine.json and 05/Marine.json or Marine and Marine.json (C95_order_refuted). Proved: agreement and independence of the order without such files; failure and origin of every unit without that hypothesis.',
"C96":'False when two XML files of one version have the same identifier (C96_order_refuted). Proved without them; the way through JSON needs plain identifiers only.',
"C97":"The sections of messages are those of C68's batch reader.",
"C98":'False as stated: the two listings ignore every option (C98_listings_refuted, C98_hidden_refuted) and --event-type has no effect at all (C98_type_refuted). Proved: transist-events prints exactly the events that are not hidden, one less than --max-events.',
"C99":'False: listings put no commas between events, transist-events puts one after the last (C99_json_refuted). Proved: when exactly the section of a replay is JSON.',
"C100":'False: directories are not searched recursively, other files are opened, a replay whose initial data cannot be read ends the run, a missing source is a success (C100_*_refuted). Proved: which files are read, and for every run that does not end well where and why it stopped and what had been printed.',
"C101":'False: versions::read_details does not set the metadata, the date is 1970-01-01 (C101_date_refuted). Proved: every other field.',
"C102":'False: a UnitInit that names a registered unit keeps the colour and radius of the old type (C102_renamed_refuted); a type change of a selected unit leaves it at half its radius once deselected (C102_halved_refuted). Proved for all histories without these two.',
"C103":'False in both directions: setting a control group unmarks the selection (C103_group_refuted), one of two selecting users unmarks for both (C103_shared_refuted), a unit with a reused index is selected unmarked (C103_reused_refuted), a user outside the lobby marks without selecting (C103_unknown_refuted). Proved: each direction for the histories without its exceptions.',
"C105":'False: with a limit on events the pane empties while the map goes on (C105_limit_refuted), and an unreadable name in the tracker sector ends the pane though events follow (C105_unreadable_refuted). Proved for readable sectors and filters without a limit.',
"C107":'False: only two users have a panel (C107_third_refuted), and which two depends on the walk of a hash map (C107_order_refuted). Proved: the panels show, completely and in order, the selections of two users.',
"C108":'False: the user number is compared with the slot number, as u8 (C108_swapped_refuted). Proved for the players whose two numbers agree.',
"C109":"False: a player without a slot is not listed (C109_slotless_refuted), and of two players with the same slot the second has the first one's colour (C109_shared_refuted). Proved: all others are listed, in order and complete, each with a slot of his own in his own colour.",
"C110":'False for fixed blobs, integers with another least value than 0 or minus a power of two, strings and arrays whose greatest length is a power of two less one, optional integers in place, blobs inside a struct, enums with gaps; a bit array or an InumType inside a struct stops the generator, an optional DynArrayType gives text that is no Rust (C110_generated_refuted). Proved for all other declarations, of any nesting.',
"C111":'False exactly when the greatest length is one less than a power of two: the theorem is an equivalence.',
"C112":'False exactly when a value does not fit the number of bits that count the values: the theorem is an equivalence.',
"C113":'False: the width is that of the greatest value, not of the distance. The theorem is an equivalence: right iff the least value is inclusive and the two widths agree.',
"C114":'Events as converted by C65 and C66; the empty sector is C21.',
"C115":'Proved for units whose floats are numbers (C115_round_trip_partial, C115_exact_partial), through directories and included assets (C115_directory_partial); the typing of what is read and the treatment of fields hold in full (C115_reads_units, C115_fields). C115_not_finite_refuted: NaN and infinities do not survive. JSON text is external: print and parse are quantified over, with the accuracy they need as a hypothesis on the values written.',
"C116":'Proved for a directory that exists and was empty before the first conversion (C116_history_partial), for every history and order of listings; what precedes the commands, the options and missing arguments hold in full (C116_balance_first, C116_options, C116_missing, C116_tag). C116_new_directory_refuted: a new directory is never created. Argument parsing and the generator as a whole are not modelled.',
"C117":'For MapInfo the well-formed files are those of C73 (non-empty first text); the texts of a DocumentHeader are from_utf8_lossy of its fields by C55_reads_partial.',
"C118":"C118_corner_refuted: terrain_right_top is the corner of the map. Proved: exactly when it is the playable one (C118_corner_partial), playable coordinates (C118_playable_partial, for left and bottom at least 0 and no overflow) and membership (C118_inside); the cells' corners are C53_sane_partial.",
"C119":"C119_units_refuted (units of the other player shown, in an ordinary two-player lobby) and C119_commands_refuted (game events of the other player, seats and users numbered differently). Proved: which seat is chosen (C119_choice, C119_unknown, C119_other_filters), game events are right where users are numbered as their seats (C119_commands_partial), and the name on every game event is its user's (C119_names).",
"C120":"C120_generated_refuted (four misread declarations, twelve that stop the generator, three without Rust). Proved for all declarations built of the names in the generator's table within the ranges of their Rust types (C120_generated_partial; the header, version, hash and colour decoders of the crate are exactly the generated ones, C120_example), and for event numbers of which some carry nothing (C120_events_partial).",
"C121":'C121_ranges_refuted (TPlayerId declared up to 511). Proved: for each name the field is read exactly when its bounds lie within the Rust type (C121_ranges_partial).',
"C122":'C122_empty_variants_refuted. Proved: such a choice is read exactly when it has no empty variant (C122_empty_variants_partial).',
"C123":'C123_bytes, C123_bits: the sizes; C123_events, C123_calls: the numbers of events; C123_merged: of items of the merged iterator, with any filters. The constants are upper bounds, not tight ones. Capacity reserved ahead of reading (Vec::with_capacity) is not modelled; the code caps it at 64 KiB per array.',
"C124":'C124_bytes, C124_bits: the decoders; C124_cut, C124_stay: the iterators; C124_batch: the batch readers. In a checked build the whole sector is assumed not to panic (C03) in C124_cut and C124_batch.',
"C125":'C125_groups, C125_units, C125_hints; the number of users and of groups per user is fixed by C37.',
"C126":'False when the tracker announces one player id for two users (C126_run_refuted: the name attached to an upgrade is then the one of the user the map meets first). C126_run_partial and C126_merged_partial: everything is independent of the order when each player id is announced for one user only, as the game does.',
"C127":'False for the owner: UnitOwnerChange is not recorded (C127_owner_refuted). C127_story_partial gives every field except radius, color, selection and command as a function of the history (these are in C35, C42-C44); C127_times is full. creator_tag_index is never filled.',
"C128":'False as stated: a damaged game sector whose events name a control group above 10 stops the program and no table is written (C128_damage_refuted). If the program ends, the tables are the same and complete (C128_tracker_rows_partial, C128_same_partial, for both builds); the half about commands is proved for release builds and for tracker sectors without nine continuation bytes in a row (C128_commands, C128_any_sectors), and for builds with overflow checks if the program ends (C128_commands_any_build): there the loops of a rubbish tracker sector can overflow.',
"C129":'False as stated: a command without ability (a right click) leaves no trace in the units it is given to, which still carry the order before (C129_order_refuted). For commands with an ability and for target updates the record carries what the last one that reached the unit left in it, or no order (C129_order_partial).',
"C130":'False as stated: MapInfo accepts a map of negative size, and in a build with overflow checks a height map of that size then stops the program (C130_no_crash_refuted). For map sizes of at least 0, and in release builds for all, nothing does (C130_no_crash_partial); C130_panics_partial says exactly which height maps do; the half about files that break off holds (C130_cut_map_info, C130_cut_heights, C130_cut_document).',
"C131":'Proved for every function of the model that takes a build mode. C131_differ shows that the builds do differ where the checked one panics.',
"C132":'The pane divides loops by 22 a second, the tables multiply by 68.58391 ms: C132_refuted shows 45.455 s against 68 s at loop 1000. C132_partial: the time shown is the loop divided by 22 to the nearest millisecond for every loop below 2^43 (double rounding included), every line of the pane, every unit named; C132_order_partial: later loops show later times.',
"C133":'C133_file: an equivalence; C133_contents: the file is the concatenation of the texts of module_pieces, where the wanted declarations are a filter on the document order (GenerateSpec.v). The text inside the braces of a declaration that is not an enum, the JSON parser and convert_case are parameters.',
"C134":'C134_refuted: a missing definition empties the output, and a definition that is its own output is destroyed for every document. C134_partial, C134_error_partial: what is left at every point of failure.',
"C135":'C135_refuted: other digits in the name. C135_partial: every number that has the only digits of the name.',
"C136":'C136_refuted: a second struct with the same tag is ignored. C136_partial: the first one is used; C136_enum: the enum and its decoder in the file.',
"C137":"C137_module: for every declaration with a description (described_decl, GenJsonSpec.v), the decoder of the module under its name is gen Decl t; C137_reads: with C110, it reads Blizzard's format. Hypotheses: the Rust names of the module are distinct (two types of one name do not compile), convert_case turns m_eventData into MEventData, which the code spells out, and the texts of the decoders are written unless the reading modelled stops (stops_as_read).",
"C138":'C138_refers_refuted: a document with a type off the list, and one with two declarations of one Rust name. C138_refers_partial: what holds.',
"C139":"C139_module: for every declaration with a description (ydescribed_decl, ByteJsonSpec.v), the decoder of the module under its name is ygen t; C139_reads: with C120, it reads Blizzard's format. Hypotheses: the Rust names of the module are distinct, convert_case turns the names of the table of conversions into those the table spells out (names_as_in_table), and the texts of the decoders are written unless the reading modelled stops (byte_stops_as_read).",
"C140":'C140_refers_refuted: a document with a type off the list, and one with two declarations of one Rust name. C140_refers_partial: what holds.',
"C141":'C141_boxes: every box of every frame (rectangle_of: the f64 division and subtraction, SpecFloat); C141_order: strict order is kept both ways; C141_circles: every circle of every frame; places and radii are values an f32 can have in every reachable state, and f64::from of those is exact. Which event a camera position comes from is C106_map.',
"C142":"says j u: the radius and all command names of u are read off the JSON value j by path (UnitViewSpec.v), independently of serde's structs; C142_unit for every JSON value that is a unit, C142_program for the whole run; by_name (UnitFileSpec.v) gives the values of arrays in place of objects their names and changes nothing else (C142_objects, C143_objects). The text of JSON is a parameter (parse); os_dec and os_view are the decoder of BalanceJson.v and unit_view.",
"C143":'unit_json (UnitFileSpec.v) is a table of the objects of a unit by path with their members in order, written from the structs and independent of the descriptors of BalanceJson.v. by_name, by the same table and one of the least lengths, gives the values of arrays in place of objects their names (serde takes such an array as the fields in order, and so does the model); C143_objects: it changes nothing without such arrays. C143_rules is an equivalence for all JSON values. The text of JSON is a parameter (parse).',
"C144":"The hypothesis b of C144_counts is any decision of 'some unit file is of the version v', so the count is stated without the balance data in memory. scan_panics (ArchiveSpec.v) says when reading a file panics (the same as in C90). par_iter keeps the order of the files (an assumption on rayon), so serial is not in the model.",
"C145":"stops (Stops.v) names the events and does not mention the state but for its users, which are those of the start. Group indices are u8 in the code; the model's negative ones, which cannot occur, count as group 0. C145_calls and C145_tables hold for any bytes in builds without overflow checks, and with them for tracker sectors without nine bytes in a row with the continuation bit (see C20).",
}
