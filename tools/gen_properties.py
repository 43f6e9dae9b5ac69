#!/usr/bin/env python3
# Regenerates /verif/properties.jsonl (kept as a script so that the list is easy to extend).
import json,sys,os
P=[]
def p(title,statement,quantifier,why,anchors):
    P.append(dict(id="C%02d"%(len(P)+1),title=title,statement=statement,quantifier=quantifier,why_tests_cant=why,anchors=anchors))

p("VLQ integers decode to the value their bytes denote",
  "parse_vlq_int(input) consumes exactly the bytes up to and including the first one whose high bit is clear, returns the rest of the input unchanged, and for a number of at most ten bytes yields the signed integer denoted by those bytes (bit 0 of the first byte is the sign, then 6+7+7... magnitude bits, least significant group first), whenever the magnitude is below 2^63; a truncated number is an error.",
  "every byte string",
  "The input space is unbounded (numbers of any length, any following data); a test only samples a few encodings.",
  ["src/lib.rs:parse_vlq_int"])
p("VLQ round trip",
  "For every integer v with |v| < 2^63, the canonical VLQ encoding of v followed by any bytes is decoded back to v leaving exactly those bytes.",
  "every i64 except i64::MIN and every following byte string",
  "2^64 values times all suffixes cannot be enumerated.",
  ["src/lib.rs:parse_vlq_int"])
p("Over-long VLQ integers are rejected, not misread",
  "No byte string makes parse_vlq_int panic, and an encoding whose magnitude does not fit an i64 is reported as an error instead of yielding some other number.",
  "every byte string, in checked and in wrapping builds",
  "Needs adversarial encodings of eleven or more bytes in both build profiles; absence of panics is a universal claim.",
  ["src/lib.rs:parse_vlq_int"])
p("Bit-packed integers equal the reference big-endian bit reader",
  "take_n_bits_into_i64(input, n), n <= 64, returns the number whose bits are laid out as in Blizzard's BitPackedBuffer.read_bits in big-endian mode: within a byte bits are consumed from the least significant, and successive byte chunks are concatenated from the most significant side of the result (for n = 64 re-read as two's complement).",
  "every buffer, every bit offset 0..7, every n from 0 to 64",
  "Depends on offset, width and the contents of up to nine bytes: 8*65*2^72 cases.",
  ["src/bit_packed_decoder.rs:take_n_bits_into_i64","src/bit_packed_decoder.rs:rtake_n_bits"])
p("The bit cursor advances by exactly the bits read",
  "Every successful bit-packed read of n bits moves the position by exactly n bits and leaves the remaining bytes untouched; it fails if and only if fewer than n bits remain (or n > 64 for integers), so no read goes past the end.",
  "every buffer, every offset, every width",
  "Universal over buffers and positions; off-by-one errors only show at specific alignments.",
  ["src/bit_packed_decoder.rs"])
p("Packed integers carry their bias and stay in range",
  "parse_packed_int(input, offset, n) returns offset plus the unsigned n-bit value, so the result is in [offset, offset + 2^n) for every n < 64 (|offset| <= 2^62), and a 64-bit field biased by -2^63 yields every i64 without panicking.",
  "every buffer, offset and width",
  "Overflow happens only for extreme 64-bit values, in checked builds.",
  ["src/bit_packed_decoder.rs:parse_packed_int","src/versions/protocol87702/mod.rs:Int64"])
p("Bit arrays, unaligned bytes and FourCC return exactly the requested bits",
  "take_bit_array(input, n) returns ceil(n/8) bytes, all full bytes being the successive 8-bit reads and the last one the remaining n mod 8 bits; take_unaligned_byte returns one byte, take_fourcc four.",
  "every buffer, offset and n",
  "Unbounded n and every alignment.",
  ["src/bit_packed_decoder.rs:take_bit_array","src/bit_packed_decoder.rs:take_unaligned_byte","src/bit_packed_decoder.rs:take_fourcc"])
p("byte_align goes to the next byte boundary and nowhere else",
  "byte_align leaves an aligned cursor alone and otherwise drops exactly the remaining bits of the current byte; it never fails on a cursor produced by the decoder, and is idempotent.",
  "every cursor",
  "Universal over cursors, composes with every event.",
  ["src/bit_packed_decoder.rs:byte_align"])
p("Versioned primitives check their tag and consume exactly their payload",
  "tagged_blob, tagged_bitarray, tagged_vlq_int, tagged_bool and tagged_fourcc succeed only when the first byte is their own type tag; on success they return the payload the length prefix announces and the untouched remainder; a truncated payload or a negative length is an error and never a short result.",
  "every byte string",
  "Unbounded lengths and contents.",
  ["src/versioned_decoder.rs"])
p("Every byte-aligned decoder returns a proper suffix of its input",
  "For every type of the byte-aligned protocol modules, a successful parse returns a remainder that is a suffix of the input and strictly shorter, so a loop that reparses the remainder terminates.",
  "every generated byte-aligned type, every byte string",
  "Termination and no-rewind must hold for each of 25+ generated decoders on arbitrary bytes.",
  ["src/versions/protocol87702/mod.rs:byte_aligned"])
p("Byte-aligned round trip, whatever the field order",
  "For every byte-aligned type and every well-typed value, any versioned encoding of it (fields of each struct in any order, optional fields absent or present, trailing bytes arbitrary) decodes to that very value and leaves the trailing bytes.",
  "every generated byte-aligned type, every value of it, every field order, every trailing byte string",
  "The value space is infinite and the field order is chosen by the writer.",
  ["src/versions/protocol87702/mod.rs:byte_aligned"])
p("Malformed structures are reported",
  "A struct that repeats a field, carries a field tag the type does not have, or omits a required field is rejected with an error; no decoder panics on any input.",
  "every byte-aligned struct type, every byte string",
  "Concerns arbitrary corrupt input; the absence of panics is a universal claim.",
  ["src/versions/protocol87702/mod.rs:byte_aligned","src/error.rs"])
p("A duplicate-field error names the duplicated tag",
  "When a struct repeats a field with tag t, the DuplicateTag error returned carries that t.",
  "every byte-aligned struct type and field",
  "Ranges over all fields of all types.",
  ["src/versions/protocol87702/mod.rs:byte_aligned::ReplayTrackerSUnitBornEvent","src/versions/protocol87702/mod.rs:byte_aligned::ReplayTrackerSUnitDiedEvent","src/error.rs:DuplicateTag"])
p("Bit-packed round trip",
  "For every bit-packed type of protocol 87702 and every well-typed value, the bits of its encoding at any starting offset decode to that very value and the cursor ends right after them.",
  "every generated bit-packed type, every value, every starting offset, every trailing data",
  "220+ types, infinite value space.",
  ["src/versions/protocol87702/mod.rs:bit_packed"])
p("An optional bit-packed field is a presence bit followed by the value",
  "A present optional field is decoded from the bits following its presence bit, for every optional field of every bit-packed type.",
  "every optional bit-packed field and every buffer",
  "A field that re-reads the presence bit only misbehaves on replays carrying that rare event.",
  ["src/versions/protocol87702/mod.rs:bit_packed::GameSCommandManagerStateEvent::parse_m_sequence","src/versions/protocol87702/mod.rs:bit_packed::Smd5::parse_m_data_deprecated"])
p("Every event parse makes progress",
  "A successful parse of one tracker, game or message event consumes at least one byte, so reading a stream to its end terminates for every input.",
  "every byte string as stream contents",
  "Termination on arbitrary data.",
  ["src/versions/protocol87702/events/tracker/mod.rs","src/versions/protocol87702/events/game/mod.rs","src/versions/protocol87702/events/message/mod.rs"])
p("Unit tags split and join consistently",
  "unit_tag_index(unit_tag(i, r)) = i and unit_tag_recycle(unit_tag(i, r)) = r for all i < 2^14 and r < 2^18, distinct pairs get distinct tags, and unit_tag of the two halves of any 32-bit tag gives the tag back.",
  "every index, recycle and 32-bit tag",
  "2^32 combinations and the boundary where it stops holding.",
  ["src/tracker_events/mod.rs:unit_tag","src/tracker_events/mod.rs:unit_tag_index","src/tracker_events/mod.rs:unit_tag_recycle"])
p("Unit positions are decoded triple by triple",
  "to_unit_positions_vec of an event with first index f and items d1 x1 y1 d2 x2 y2 ... returns for the k-th triple the tag f + d1 + ... + dk with coordinates 4*xk, 4*yk, ignoring an incomplete last triple, and returns floor(len/3) entries.",
  "every item list and first index within i32 range",
  "Unbounded list; accumulation error only appears for long lists.",
  ["src/tracker_events/unit_positions.rs"])
p("The tracker iterator delivers every supported event once, in file order, at its cumulative loop",
  "Draining the tracker iterator over a well-formed stream yields exactly the supported events of the stream in order, each with the sum of all deltas up to and including it (skipped ones too), and then None for ever.",
  "every stream of parseable events, every protocol version",
  "Stream length and interleaving of unsupported events are unbounded.",
  ["src/tracker_events/iterator.rs"])
p("A conversion error does not silently cut the tracker stream",
  "If one event of the stream cannot be converted (for example a unit name that is not UTF-8), the iterator either ends for good or goes on, but never reports the end of the stream while events remain.",
  "every stream",
  "Only streams with a badly encoded name exercise it.",
  ["src/tracker_events/iterator.rs:get_next_event"])
p("Streaming and batch readers agree",
  "Reading all tracker events with read_tracker_events and draining the iterator give the same events in the same order for every stream whose events all convert or are unsupported.",
  "every stream",
  "Two independent implementations have to agree on all inputs.",
  ["src/tracker_events/iterator.rs","src/versions/protocol87702/events/tracker/mod.rs:read_tracker_events"])
p("Game events carry loop, user and re-aligned position",
  "Draining the game iterator over a well-formed stream yields exactly its supported events in order, each with the cumulative loop and the user id of its own triplet and the name registered for that user, every event starting on a byte boundary.",
  "every stream",
  "Unbounded streams and alignments.",
  ["src/game_events/iterator.rs","src/versions/protocol87702/events/game/mod.rs:parse_event_triplet"])
p("Merged events come in absolute order",
  "The sequence of loops of the items returned by SC2EventIterator::next is non-decreasing across game and tracker events.",
  "every pair of event streams, any stream length",
  "Depends on the interleaving of two unbounded streams and on float rounding of large loops.",
  ["src/state/mod.rs:Iterator for SC2EventIterator"])
p("On equal loops the tracker event comes first",
  "If the next tracker event and the next game event have the same loop, the tracker event is delivered first (module documentation).",
  "every state with both events pending",
  "Needs a tie at the right moment; the visible effect depends on the state.",
  ["src/state/mod.rs (module doc)","src/state/mod.rs:next"])
p("Merging loses, duplicates and reorders nothing",
  "Without filters the items returned are an interleaving of the tracker stream and of the game stream: each event exactly once, each stream in its own order.",
  "every pair of streams",
  "Unbounded interleavings.",
  ["src/state/mod.rs:next"])
p("The merged iterator is exhausted only when both streams are",
  "next() without filters returns None only if both streams have no pending event, and then keeps returning None.",
  "every pair of streams",
  "Requires every order of exhaustion.",
  ["src/state/mod.rs:next"])
p("Filters only hide items",
  "The replay state after the iterator has consumed its streams is the same with and without filters (max_events unset), and the items returned under a filter are the sub-sequence of the unfiltered items that the filter accepts, with the same hints.",
  "every pair of streams, every filter",
  "Product of all filters with all streams.",
  ["src/state/mod.rs:next","src/filters.rs"])
p("max_events = N yields the first N accepted events",
  "With max_events = Some(N) the iterator returns exactly the first N accepted items (or all of them if fewer).",
  "every N and every pair of streams",
  "Boundary behaviour for all N and stream lengths.",
  ["src/filters.rs:decrease_allowed_event_counter","src/filters.rs:is_max_event_reached","src/state/mod.rs:next"])
p("min_loop and max_loop bound the loops of all returned items",
  "With min_loop = Some(a) and max_loop = Some(b), every returned item has a <= loop <= b, game and tracker alike.",
  "every pair of streams, all a and b",
  "Universal over items and both event kinds.",
  ["src/state/mod.rs:shoud_skip_event"])
p("player_id filter keeps only that player's events",
  "With player_id = Some(p), every returned game event has user id p, and every returned tracker event that names a controlling player names p.",
  "every pair of sectors, whatever their bytes, every filter",
  "User ids are i64 but compared as u8; needs ids differing by 256, and all event kinds.",
  ["src/state/mod.rs:SC2EventType::should_skip","src/tracker_events/*:should_skip"])
p("Registered units are indexed by their own tag index",
  "After any history of events every registered unit is stored under its own tag_index, so a lookup by index returns the unit with that index.",
  "every event history",
  "Invariant over unbounded histories.",
  ["src/tracker_events/state.rs","src/game_events/state.rs","src/state/mod.rs:SC2ReplayState"])
p("Only tracker events create units and only UnitDied removes them",
  "A unit index becomes registered only through UnitInit, UnitBorn or UnitTypeChange naming it, stays registered until a UnitDied naming it, and is then unregistered; game events never change the set of registered indices.",
  "every event and state",
  "Frame property over all handlers and states.",
  ["src/tracker_events/state.rs","src/game_events/state.rs"])
p("UnitDied reports the unit it removed",
  "handle of UnitDied on a registered unit returns it, as it was, in the Unregistered hint together with the registered killer (if any), leaves every other unit unchanged, and returns the None hint when the unit is unknown.",
  "every state and event",
  "All registry contents.",
  ["src/tracker_events/state.rs:handle_unit_died"])
p("A dead unit leaves all control groups",
  "After UnitDied for unit (index i, recycle r) no control group of any user contains its unit tag.",
  "every state and event",
  "Depends on the relation between tags stored by selection events and indices carried by tracker events.",
  ["src/tracker_events/state.rs:handle_unit_died"])
p("UnitInit / UnitBorn / UnitDone / UnitTypeChange update exactly the named unit",
  "Each handler changes only the named unit (and for UnitBorn the creator's last_game_loop), sets its last_game_loop, and the Registered hint carries the unit as now stored.",
  "every state and event",
  "Frame condition over all registries.",
  ["src/tracker_events/state.rs"])
p("UnitBorn records the creator ability",
  "After a UnitBorn event carrying a creator ability name, the registered unit has that creator_ability_name.",
  "every state and event",
  "Distinguishes known from unknown units.",
  ["src/tracker_events/state.rs:handle_unit_born"])
p("Every user always has eleven control groups",
  "After any history of events that does not panic every user has exactly 11 control groups.",
  "every event history",
  "Invariant over unbounded histories.",
  ["src/state/mod.rs:SC2UserState::new","src/game_events/state.rs"])
p("Control group events never panic",
  "Processing a selection delta or control group update never panics, for every group index the wire format can carry (4 bits).",
  "every state, user and group index",
  "The panic needs an index above 10 and a known user.",
  ["src/game_events/state.rs:handle_selection_delta","src/game_events/state.rs:update_control_group"])
p("Set, clear and recall copy exactly the announced group",
  "ESet makes group g equal to the active selection, EClear empties it, ERecall makes the active selection equal to group g; all other groups of the user and all other users are unchanged.",
  "every state, user and g <= 10",
  "Frame conditions over all states.",
  ["src/game_events/state.rs:update_control_group"])
p("Append merges the selection without duplicates",
  "After EAppend group g contains exactly the union of its previous members and the selection, sorted and without duplicates.",
  "every state, user and g <= 10",
  "All group contents.",
  ["src/game_events/state.rs:update_control_group"])
p("Steal removes the selected units from every other group",
  "After ESetAndSteal or EAppendAndSteal on group g no selected unit is in any of the groups 0..9 other than g.",
  "every state, user and g",
  "The ninth group is the boundary.",
  ["src/game_events/state.rs:update_control_group"])
p("Selecting doubles and deselecting restores the radius",
  "A selection delta on the active group marks exactly the registered units of the given tags and unmarks those of the previous selection that are not among them; marking doubles the radius and unmarking halves it, so selecting and then deselecting gives back the radius (any f32 below 2^127, subnormals included); units already marked are not doubled again; every other unit is unchanged, and deltas of other groups change no unit.",
  "every state and tag list, with repetitions",
  "Repeated tags and re-marking.",
  ["src/game_events/state.rs:mark_selected_units","src/game_events/state.rs:unmark_previously_selected_units"])
p("The selection hint describes the stored units",
  "After a selection delta on the active group every unit in the hint is the unit as stored afterwards, each at most once, in index order.",
  "every state and event",
  "Needs a unit both deselected and reselected.",
  ["src/game_events/state.rs:handle_selection_delta"])
p("Commands reach exactly the registered units of the active selection",
  "Cmd, CmdUpdateTargetPoint and CmdUpdateTargetUnit change only units whose index is that of a tag in the issuing user's active group, set their last_game_loop, and the hint lists exactly the stored units after the change.",
  "every state and event",
  "Frame over all states.",
  ["src/game_events/state.rs:handle_cmd","src/game_events/state.rs:handle_update_target_point","src/game_events/state.rs:handle_update_target_unit"])
p("A command on a registered target unit reports it",
  "When a Cmd targets a unit by its tag and that unit is registered, the Abilities hint carries that unit.",
  "every state and tag",
  "Tags with a non-zero index never equal the index.",
  ["src/game_events/state.rs:handle_cmd"])
p("Users are isolated",
  "A game event of user u changes no control group, camera or lobby data of any other user; a tracker event changes control groups only by removing tags.",
  "every state and event",
  "Frame over all users and events.",
  ["src/game_events/state.rs","src/tracker_events/state.rs"])
p("Camera follows the last target",
  "After any history the camera position of a user is the target of that user's last CameraSave or CameraUpdate with a target, or (0,0).",
  "every event history",
  "Unbounded histories.",
  ["src/game_events/state.rs:handle_camera_save","src/game_events/state.rs:handle_camera_update"])
p("Player names come from the PlayerSetup mapping",
  "A unit or upgrade gets the name of a user whose PlayerSetup announced that player id, and None if there is no such user; the answer does not depend on the iteration order when player ids are unique.",
  "every state, every hash order",
  "HashMap order is randomised per run.",
  ["src/tracker_events/state.rs:get_player_name_by_tracker_control_player_id"])
p("Ability names resolve by documented precedence",
  "get_indexed_ability_command_name returns for a known unit the first match among its abilities, then trained units, built units and researched upgrades, and the empty string otherwise; it never returns a name of another unit.",
  "every balance table, unit, link and index",
  "All tables.",
  ["src/game_events/ability/balance_data/mod.rs:get_indexed_ability_command_name"])
p("Every protocol version is dispatched and all readers agree",
  "For every m_base_build, details, init data, tracker, game and message readers choose the same protocol decoder: 75689 up to that build and 87702 for every later one.",
  "every u32 build number",
  "2^32 versions.",
  ["src/versions/mod.rs","src/tracker_events/iterator.rs","src/game_events/iterator.rs"])
p("get_matching_files respects its limits",
  "The result has at most max_files entries, each is a .SC2Replay file at depth at most max_depth below the source, and there is no subtraction underflow; with large enough limits it contains every such file exactly once.",
  "every directory tree and limits",
  "All trees.",
  ["src/lib.rs:get_matching_files"])
p("Lobby details pair each player with his own slot",
  "Each player entry is paired with a lobby slot whose working_set_slot_id equals the player's, and no player without one is invented.",
  "all details and init data",
  "All lobby configurations.",
  ["src/details.rs:PlayerLobbyDetails"])
p("Accepted map info is geometrically sane",
  "If MapInfo parsing succeeds then width and height are at most 256, left < right <= width and bottom < top <= height, and the playable dimensions are positive and fit the map.",
  "every byte string",
  "All files.",
  ["src/cache_handles/map_info.rs"])
p("A parsed height map has one height per vertex",
  "If T3HeightMap parsing succeeds the number of heights is width*height, equal to the dimensions expected from the map info, and every in-range lookup succeeds.",
  "every byte string and map info",
  "All files and sizes, integer overflow included.",
  ["src/cache_handles/t3_height_map.rs"])
p("Document header parsing consumes what it reads",
  "After a successful DocumentHeader parse the remainder starts after the last field read.",
  "every byte string",
  "All files.",
  ["src/cache_handles/document_header.rs"])
p("Windows-time conversion is exact and monotone",
  "transform_to_naivetime maps 100ns ticks since 1601 to the corresponding UTC time (microsecond floor) minus the offset; later ticks never give an earlier time and the sub-second part is always within [0, 10^9).",
  "every i64 pair inside chrono's range",
  "2^128 pairs, negative remainders.",
  ["src/lib.rs:transform_to_naivetime"])
p("Protocol 75689 decodes its own lobby slot layout",
  "The init data reader used for builds up to 75689 decodes a lobby slot with the slot layout that the 75689 protocol module itself defines.",
  "every init data buffer of an old replay",
  "Two layouts that differ by a few bits agree on many samples; only replays of the old builds show the difference.",
  ["src/versions/protocol75689/mod.rs","src/versions/mod.rs:read_init_data"])
p("Checked and wrapping builds decode alike",
  "For every byte-aligned type and every input, a build without overflow checks returns the same result as a build with overflow checks, unless the latter panics.",
  "every generated byte-aligned type, every byte string",
  "Needs both build profiles on all inputs.",
  ["src/lib.rs:parse_vlq_int","src/versions/protocol87702/mod.rs:byte_aligned"])
p("The byte-aligned decoders accept nothing but encodings",
  "A byte-aligned decoder succeeds with value v and remainder r exactly when the consumed bytes are an encoding of v in the versioned format (admitting, beyond the strict format, integers taken modulo 2^64 and an optional field repeated after a None). In a build without overflow checks integers may also be over-long, and are read as if their seven-bit groups were laid over each other modulo 64 bits (C03); on inputs without nine continuation bytes in a row both builds accept the same.",
  "every generated byte-aligned type, every byte string shorter than 2^63, builds with and without overflow checks",
  "A characterisation of all accepted inputs cannot be sampled.",
  ["src/versions/protocol87702/mod.rs:byte_aligned","src/versioned_decoder.rs"])
p("Bit-packed decoders never panic",
  "No bit-packed decoder of either protocol module panics, for any buffer and bit position, whether overflow checks are on or off.",
  "every bit-packed type of protocols 87702 and 75689, every buffer and bit offset, both build profiles",
  "Absence of panics is a universal claim over arbitrary, possibly corrupt, buffers.",
  ["src/versions/protocol87702/mod.rs","src/versions/protocol75689/mod.rs","src/bit_packed_decoder.rs"])
p("Bit-packed decoders accept exactly the encodings, unambiguously",
  "A bit-packed decoder succeeds with value v at the position n bits further exactly when those n bits are an encoding of v at that alignment (with the listed deviations from Blizzard's format), and no bit string starts with encodings of two different values.",
  "every bit-packed type, every buffer and bit offset",
  "Characterises all accepted inputs.",
  ["src/versions/protocol87702/mod.rs","src/versions/protocol75689/mod.rs"])
p("Truncated input is an error, never a shorter value",
  "If the remaining input is a strict prefix of an encoding of some value, the decoder (bit-packed or byte-aligned) does not succeed.",
  "every type, every value, every truncation point, builds with and without overflow checks",
  "All truncation points of all encodings.",
  ["src/versions/protocol87702/mod.rs","src/versions/protocol75689/mod.rs"])
p("Names are decoded as UTF-8 and nothing else",
  "Turning name bytes into a String succeeds exactly when the bytes are the UTF-8 encoding of a sequence of Unicode scalar values, returns those bytes unchanged, and otherwise reports a UTF-8 error; different byte strings give different names.",
  "every byte string",
  "Unbounded byte strings; overlong forms, surrogates and truncations are easily missed by samples.",
  ["src/versions/protocol87702/events/tracker/mod.rs","src/error.rs"])
p("Game event conversion loses nothing",
  "Whatever a game event decodes to, at either protocol, converting it to the protocol-agnostic event succeeds for each of the 21 supported events and yields an event standing for exactly the decoded value (a chat message that is not UTF-8 shows its bytes instead); every other event is reported as unsupported; nothing panics.",
  "every buffer and bit offset, both protocols, both build profiles",
  "Narrowing casts lose bits only for specific values; field mix-ups show only when the two fields differ.",
  ["src/versions/protocol87702/events/game/mod.rs","src/versions/protocol75689/mod.rs","src/game_events/mod.rs:ReplayGameEvent"])
p("Tracker event conversion loses nothing",
  "Converting a decoded tracker event (other than player statistics) yields an event standing for exactly the decoded value if all its names are UTF-8, and the UTF-8 error otherwise; an upgrade always converts, a name that is not UTF-8 being replaced by the list of its bytes.",
  "every byte string that decodes to a tracker event",
  "Every field of every event and every possible name.",
  ["src/versions/protocol87702/events/tracker/mod.rs","src/tracker_events/mod.rs:ReplayTrackerEvent"])
p("Player statistics keep their names and values",
  "Each of the 39 statistics of a decoded PlayerStats event is the wire field of the same name (supply divided by 4096 towards zero, everything else unchanged), and the list by path names each statistic once, under its own name with one / for _.",
  "every byte string that decodes to a PlayerStats event",
  "39 parallel fields; a swap shows only when the two values differ.",
  ["src/versions/protocol87702/events/tracker/mod.rs:PlayerStats","src/tracker_events/player_stats.rs:as_prop_name_value_vec"])
p("Event loops never overflow",
 "For every tracker or game sector below 2^32 bytes, whatever its bytes, every absolute loop an iterator reaches is at least 0 and below 2^63, so the i64 event loop never overflows and never goes back.",
 "every sector below 2^32 bytes, both protocols, checked and wrapping builds",
 "the bound is a sum over all events of an arbitrary sector",
 ["src/tracker_events/iterator.rs: read_versioned_tracker_event","src/game_events/iterator.rs: read_versioned_game_event"])
p("Deltas of the batch reader add up to the loops",
 "Summing the deltas returned by the batch reader of game events gives each event the absolute loop the iterator gives it.",
 "every game sector, both protocols",
 "needs arbitrary sequences of supported and unsupported events",
 ["src/versions/protocol87702/events/game/mod.rs: read_events","src/versions/protocol75689/mod.rs: read_events","src/game_events/iterator.rs"])
p("Chat messages are all read, and nothing else",
 "Reading a well-formed non-empty message sector returns exactly its chat messages in UTF-8, in order, each with its own delta, user, recipient and text; every other message event is left out.",
 "every well-formed message sector",
 "arbitrary sequences of message events at arbitrary bit lengths",
 ["src/versions/protocol87702/events/message/mod.rs: read_events, parse_event_triplet, TryFrom<GameEMessageId>"])

p("UnitPosition moves exactly the listed registered units",
 "A UnitPositions event gives each registered unit it lists the last position listed for it and the event's loop, changes no other unit and no user, and its hint lists the stored units in the order of the event.",
 "every state and every positions event",
 "The same index may be listed several times, unknown indices in between.",
 ["src/tracker_events/state.rs:handle_unit_position"])

p("should_skip hides exactly what the filters ask for",
 "SC2EventType::should_skip returns true exactly for a game event of another user, a unit death whose killer is not the chosen player, a tracker event that names another controlling player or another unit name, and for player statistics when they are switched off.",
 "every filter and every event, user ids over all of i64",
 "All event kinds times all filters; ids are narrowed before the comparison.",
 ["src/state/mod.rs:SC2EventType::should_skip","src/tracker_events/*:should_skip"])

p("Initial data belong to the user of the slot",
 "The name and clan tag a lobby entry takes from the initial data are those of the user sitting in its slot (the slot's user id).",
 "all details and init data",
 "All assignments of users to slots.",
 ["src/details.rs:TryFrom<&InitData> for Vec<PlayerLobbyDetails>"])
p("A MapInfo file is read as what it says",
 "MapInfo::parse returns the version, the dimensions, the four texts and the playable rectangle written in the file and the bytes behind it, and fails exactly when the rectangle is not acceptable.",
 "every well-formed file with any unknown bytes, paddings and texts",
 "Texts and paddings of any length, all i32 values.",
 ["src/cache_handles/map_info.rs:MapInfo::parse"])


p("Details are what the file says",
 "When a replay.details sector decodes, the Details a user gets show every recorded field under its name (texts as recorded, cache handles in hexadecimal, enumerations by their variant, an absent list as an empty one), with the requested id and the UTC time of the recorded ticks; the only further error is a shown text that is not UTF-8, and then no Details are returned. Errors of the decoder are passed on.",
 "every byte string handed in as details sector, both builds",
 "Some forty fields, optional lists of any length and texts of any bytes.",
 ["src/details.rs:Details::new,set_metadata","src/versions/protocol87702/events/details.rs"])
p("Init data are what the file says",
 "When a replay.initData sector decodes, the InitData a user gets show every recorded field under its name, with the requested file name, id and digest; the only further error is a shown text that is not UTF-8. No sector makes the reader panic.",
 "every byte string handed in as init data sector, both builds",
 "Over a hundred fields at arbitrary bit offsets; slots, users and rewards in any number.",
 ["src/init_data/mod.rs:InitData::new","src/versions/protocol87702/events/init_data.rs"])

p("The statistics table has one row per PlayerStats event",
 "collect_into_player_stats_flat_rows returns, in the order of the tracker sector, one row for every PlayerStats event, with its player, its loop, the loop in seconds and every statistic of the event under its name (supply in whole units); like all tables it is made from every event of the two sectors, in the order of delivery.",
 "every pair of well-formed sectors, any file id",
 "Any number of events, thirty-nine columns copied by hand.",
 ["src/state/mod.rs:collect_into_player_stats_flat_rows","src/tracker_events/arrow_store/player_stats_flat_row.rs"])
p("The upgrades table has one row per Upgrade event",
 "collect_into_upgrades_flat_rows returns one row for every Upgrade event, in order, with its player, name, count, loop and seconds, and no other row.",
 "every pair of well-formed sectors",
 "Any number of events.",
 ["src/state/mod.rs:collect_into_upgrades_flat_rows","src/tracker_events/arrow_store/upgrade_event_flat_row.rs"])
p("The unit-died table names the unit and its killer",
 "collect_into_unit_died_flat_rows returns one row for each UnitDied event of a unit that was known by then, in order; the row has the name the unit last had, the killer's last name if the killer is another known unit and an empty one otherwise, and the columns of the event.",
 "every pair of well-formed sectors",
 "Names depend on the whole history of births, changes of type and deaths before the event.",
 ["src/state/mod.rs:collect_into_unit_died_flat_rows","src/tracker_events/arrow_store/unit_died_event_flat_row.rs","src/tracker_events/state.rs:handle_unit_died"])
p("The unit-born table shows each unit with its owner",
 "collect_into_unit_born_flat_rows returns one row for each UnitBorn event and for each UnitDone and UnitTypeChange event of a unit known by then, with the unit's name, position, creator and the player who owns the unit at that loop.",
 "every pair of well-formed sectors",
 "Rows depend on the whole history of the unit, including changes of owner.",
 ["src/state/mod.rs:collect_into_unit_born_flat_rows","src/tracker_events/arrow_store/unit_born_event_flat_row.rs","src/tracker_events/state.rs"])
p("The point command table has a row for each commanded unit",
 "collect_into_cmd_target_point_flat_rows returns, for every command with a target point, one row for each unit the user has then selected, with the unit's name, the coordinates of the command and the name that this unit has for the ability.",
 "every pair of well-formed sectors, any balance data",
 "The selection depends on the whole history; the name on the balance data of the unit.",
 ["src/state/mod.rs:collect_into_cmd_target_point_flat_rows","src/game_events/arrow_store/cmd_event_flat_row.rs:CmdTargetPointEventFlatRow::new","src/game_events/state.rs:handle_cmd"])
p("The unit command table names the target",
 "collect_into_cmd_target_unit_flat_rows returns, for every command at a unit, one row for each unit the user has then selected, with the columns of the command and the name of the target unit if that is known.",
 "every pair of well-formed sectors, any balance data",
 "The selection and the names depend on the whole history.",
 ["src/state/mod.rs:collect_into_cmd_target_unit_flat_rows","src/game_events/arrow_store/cmd_event_flat_row.rs:CmdTargetUnitEventFlatRow::new","src/game_events/state.rs:handle_cmd"])
p("A lobby row shows the lobby entry",
 "Every lobby entry of a replay can be made into a row, in which every column shows the field of the entry, the extension and region are those of the first cache handle, and the digests of all handles are joined with commas.",
 "every lobby entry, cache handles in any number and of any length",
 "Handles of any bytes and lengths; string slicing panics out of range.",
 ["src/details.rs:From<PlayerLobbyDetails> for PlayerLobbyDetailsFlatRow"])
p("The init data table has a row per user",
 "The init data rows are one for each user, in order, with the position of the user, the name, the clan tag (empty if there is none), the rating and the metadata of the file.",
 "all init data",
 "Any number of users.",
 ["src/init_data/arrow_store.rs:From<&InitData> for Vec<UserInitDataFlatRow>"])
p('Seconds follow the loops',
 'convert_game_loop_to_seconds and convert_tracker_loop_to_seconds give the same number for the same loop; the number never decreases with the loop, is 0 for loops up to 0, and is the loop times 68.58391 milliseconds, rounded down to seconds.',
 'every pair of i64 loops',
 'Rounding of three float operations over 2^64 inputs, and over pairs of them.',
 ['src/lib.rs:convert_game_loop_to_seconds','src/lib.rs:convert_tracker_loop_to_seconds'])
p('Map coordinates convert back and forth',
 'A cell (or terrain point) converted to map coordinates and back is the same cell (or point); a map position belongs to the cell that contains it and to the nearest terrain point.',
 'all i32 coordinates, all f32 positions',
 'Float rounding and truncation over all values.',
 ['src/cache_handles/map/coords.rs:From<MapCoord> for MapTerrainCoord','src/cache_handles/map/coords.rs:From<MapTerrainCoord> for MapCoord','src/cache_handles/map/coords.rs:From<MapCoord> for MapCellCoord','src/cache_handles/map/coords.rs:From<MapCellCoord> for MapCoord'])
p('Command positions are exact',
 'The position of a command is its raw coordinate divided by 4096, with y mirrored; x and y are never rounded, z is the nearest float.',
 'every coordinate a replay can hold',
 'Float division over all 72-bit coordinates.',
 ['src/common.rs:From<GameSMapCoord3D> for Vec3D','src/game_events/state.rs:GAME_EVENT_POS_RATIO'])
p("Reading a replay file reports the replay's own version, digest and content, and files that are not replays give an error",
 "Reading the init data of a file by path returns: as version the base build of the file's header, the file's digest, the file id asked for, the path as file name (empty if it is not text), and the contents of its init data sector. The balance data used for a replay is exactly that of its version. A file that is not a StarCraft II replay (no user data, other signature) makes every reader return an error.",
 'every file system content, path, file id and build mode',
 'the header is data of the file: every combination of header, signature and sector content has to be considered, including the ones no sample has',
 ['src/protocol_version_decoder.rs: read_protocol_header','src/versions/mod.rs: read_tracker_events, read_game_events, read_message_events, read_details, read_init_data','src/init_data/mod.rs: TryFrom<(PathBuf, u64)>, with_version','src/state/mod.rs: SC2EventIterator::new'])
p('An export processes the first readable replays within the version bounds, skipping unreadable files',
 'The replays exported are the first N (process limit) of the files found that can be read and whose version lies between the optional bounds, both inclusive, in the order found; their file ids are the positions among the files found. Files that cannot be read are skipped.',
 'every directory tree, file contents, bounds and limits',
 'the interplay of limits, bounds and unreadable files depends on whole directory contents',
 ['src/arrow_store/mod.rs: handle_arrow_ipc_cmd','src/lib.rs: get_matching_files','src/init_data/mod.rs'])
p('A snapshot export writes seven complete files with the rows of every replay, independently of scheduling, or leaves none unfinished',
 'A successful export has written details, stats, upgrades, unit_born, unit_died, cmd_target_point and cmd_target_unit files, each finished, holding for each exported replay that can be opened and has rows exactly one batch with the rows of its table carrying its file id (all lobby rows in one batch). A parallel run writes the same batches in some order and ends the way the serial run ends. It succeeds exactly if the output is a directory, the files can be created and no replay stops the program; a file that cannot be created is an error that leaves the files before it. An export that does not succeed leaves no unfinished file.',
 'every set of replays, file contents, order in which workers reach the writer, and file creation failure',
 'worker order and the point of failure are not under the control of a test',
 ['src/arrow_store/mod.rs: handle_write_snapshot, handle_tracker_events, handle_game_events, handle_details_ipc_cmd','src/arrow_store/ipc_writer.rs','src/state/mod.rs: SC2EventIterator'])
p('Directory statistics count files, readable replays, supported versions, and rank players and maps correctly and reproducibly',
 'Scanning a directory reports the number of files found, of readable replays, and of those whose version has balance data; the players (without observers) and the map titles of the replays whose details can be read are ranked by number of occurrences, the ten most frequent being returned with their exact counts. Scanning the same directory again gives the same result, and unreadable files do no harm.',
 'every directory tree, file contents, balance data and hash map iteration order',
 'hash map order varies from run to run, and ties only show with the right directory',
 ['src/dir_stats.rs: scan_path, try_read_init_data','src/details.rs: get_player_names'])
p('However the threads of a parallel export are scheduled, a table file holds whole batches',
 'While an export runs in parallel, each thread computes the rows of a replay and writes them as one batch to the shared file. Whatever the interleaving, once all replays are done the bytes of the file are those of a run over the replays one after the other in some order, with no batch torn by another and none written twice or lost; at every moment, so also when the process is killed, the file is some whole batches of different replays followed by at most the beginning of one more; no schedule deadlocks, and none goes on for ever; and every order of the replays is the order of some schedule. The number of records reported is that of the rows written.',
 'all sources, all row tables, all encodings of a batch, all schedules and lengths of runs, all points of interruption',
 'the number of interleavings grows without bound with the number of replays and bytes, and a test runs only the few that its machine happens to produce',
 ['src/arrow_store/mod.rs:201-335 handle_tracker_events, handle_game_events','src/arrow_store/ipc_writer.rs:30-90 open_arrow_mutex_writer, write_to_arrow_mutex_writer, close_arrow_mutex_writer'])
p('An export that succeeds has written all rows, also when writing can fail',
 'If writing a batch to the table file fails, the export does not report success with rows missing. (False: the failure is logged, the unfinished batch stays in the file, other batches follow it and the export returns success. What holds: the file then is, for every replay in some order, its batch or a proper beginning of it, the number of records logged counts only the batches written whole, and if that number is that of all rows of the sources then nothing is missing.)',
 'all sources, tables, encodings, schedules and all places at which writing fails',
 'a failing disk at an arbitrary byte under an arbitrary schedule cannot be enumerated by tests',
 ['src/arrow_store/ipc_writer.rs:41-72 write_to_arrow_mutex_writer','src/arrow_store/mod.rs:201-335 handle_tracker_events, handle_game_events'])
p('The short and the full reader of the replay header agree',
 'ProtocolHeader::parse reads only the signature and the version at the beginning of the user data; ReplaySHeader::parse (used by read_protocol_header) reads the whole header. Whenever both accept the same bytes they return the same signature and the same version, and both accept every header written in declaration order, whatever follows it.',
 'all byte strings; all headers',
 'two hand-written and generated parsers of the same format must agree on every input, including over-long and hostile ones',
 ['src/protocol_version_decoder.rs:24-48 ProtocolHeader::parse, parse_m_signature','src/protocol_version_decoder.rs:51-58 read_protocol_header','src/versions/protocol87702/mod.rs:1635-1899 ReplaySHeader::parse'])
p('Balance units written as JSON are what is read back',
 'After any sequence of write_balance_data_to_json calls into a directory that starts empty, read_balance_data_from_json_dir gives exactly the map written by the last call; read_balance_data_from_included_assets of a copy of the directory gives the same.',
 'all sequences of maps (version, unit name) -> unit, all orders in which a directory is listed, any JSON encoding that decodes what it encodes',
 'a test writes one map once; file names that collide, versions, earlier contents and listing orders have to be quantified over',
 ['src/game_events/ability/balance_data/json_handler.rs:14-42 write_balance_data_to_json','src/game_events/ability/balance_data/json_handler.rs:45-94 read_balance_data_from_json_dir','src/game_events/ability/balance_data/json_handler.rs:96-125 read_balance_data_from_included_assets'])
p('The two readers of JSON balance data agree, in any listing order',
 'For the same files, read_balance_data_from_json_dir and read_balance_data_from_included_assets give the same units whatever the order of the listing: the unit (v, n) is the content of the file n.json in the directory whose name is the number v; everything else on the disk is ignored. Both fail, and only fail, when one of those files is not a unit.',
 'all directory contents, all listing orders, any JSON decoder',
 'the order of read_dir is up to the file system: one machine shows one order',
 ['src/game_events/ability/balance_data/json_handler.rs:45-94 read_balance_data_from_json_dir','src/game_events/ability/balance_data/json_handler.rs:96-125 read_balance_data_from_included_assets'])
p('Balance data from XML is keyed by directory and unit identifier',
 'traverse_versioned_balance_abilities gives, for every number v and identifier n, the unit of the XML file in v/BalanceData whose unit has the identifier n, whatever the order of the listing; files that are not XML units are skipped, an XML file that is not text is an error. Writing the result as JSON and reading that gives the same units.',
 'all directory contents, all listing orders, any XML decoder, any JSON encoding that decodes what it encodes',
 'quantifies over directory contents and listing orders',
 ['src/game_events/ability/balance_data/mod.rs:13-76 traverse_versioned_balance_abilities','src/game_events/ability/balance_data/json_handler.rs:14-94'])
p('The command get prints every event of every replay, in order',
 "When `get` ends well it has printed, for every file it reads and in their order, one section: for tracker-events and game-events an opening bracket, every event of that replay's sector (game events: the supported ones) in the order of the sector and nothing else, and a closing bracket; for details and init-data the one value. Files that are not archives contribute nothing.",
 'all file systems, archives, balance data, options, sections and sources',
 'quantifies over the contents of all replays and over directories',
 ['examples/cli/cmd_get.rs:29-166 handle_get_cmd','src/state/mod.rs:621-630 is_game_event, is_tracker_event'])
p('The filter options of the command line apply',
 'An event hidden by --player-id, --min-loop, --max-loop, --event-type, --unit-name, --max-events or the absence of --include-stats is not printed by get tracker-events, get game-events or get transist-events; every other event is.',
 'all option values, replays and sections',
 'quantifies over options and all events of all replays',
 ['examples/cli/cmd_get.rs:77-162','examples/cli/mod.rs:318-331 From<Cli> for SC2ReplayFilters'])
p('What get prints for a replay is JSON',
 'The text that get prints for one replay is one JSON value.',
 'all replays, sections and options',
 'a test would look at replays with some number of events; it has to hold for every number',
 ['examples/cli/cmd_get.rs:77-162'])
p('get reads all replays below a directory and survives bad ones',
 'Given a directory get reads the SC2Replay files below it, recursively, and only those; a file that cannot be read is skipped and the others are still shown; a source that does not exist is reported as an error.',
 'all file systems and all contents of the files',
 'quantifies over directory trees and over which files are broken and how',
 ['examples/cli/mod.rs:94-98 source','examples/cli/cmd_get.rs:41-76'])
p('get details shows the details of the replay, with its date',
 'get details prints the details as Details::new gives them: every field of the details sector and the date of the replay.',
 'all archives',
 'quantifies over all details sectors',
 ['examples/cli/cmd_get.rs:123-131','src/versions/mod.rs:90-108 read_details','src/details.rs:263-288'])
p('A unit looks like its type',
 'In every state of a replay each registered unit has the colour of its type (of its player, for a type without a colour) and the radius the balance data give for its type (0.45 if they give none), doubled while the unit is marked as selected.',
 'all lobbies, balance data and event histories, and all units of the state after them',
 'the colour and the radius are rewritten by seven kinds of events; the claim is an invariant of all their interleavings',
 ['src/state/unit_props.rs:24-69 get_unit_sized_color','src/state/mod.rs:96-101 set_unit_props','src/tracker_events/state.rs:33-206','src/game_events/state.rs:217-270'])
p('The units marked as selected are the selected ones',
 'In every state of a replay a registered unit is marked as selected exactly when it is in the current selection of some user.',
 'all lobbies and event histories of several users, and all units of the state after them',
 'an invariant over all interleavings of selections, control groups, births and deaths of several users',
 ['src/game_events/state.rs:217-406','src/tracker_events/state.rs:244-282'])
p('The viewer shows the replay step by step',
 'The terminal viewer draws a frame at the start and after each input until it is told to quit; the event pane shows the first event after game loop 0 and, after each press of a next key, the next event of the merged stream (nothing at the end); the map shows the state of the game right after that event.',
 'all replays (any bytes in the two sectors), filters and sequences of inputs',
 'the claim relates every prefix of every input sequence to a prefix of an unbounded stream of events',
 ['examples/tui/mod.rs:77-124 new','examples/tui/mod.rs:126-147 run','examples/tui/mod.rs:149-164 handle_key_press','examples/tui/mod.rs:184-199 draw','examples/cli/cmd_get.rs:132-147'])
p('An empty event pane means that the replay is over',
 'Once the event pane of the viewer is empty it stays empty, and the map and the panels do not change any more.',
 'all replays, filters and sequences of inputs',
 'it is about everything that can follow a state of the viewer',
 ['examples/tui/mod.rs:149-164 handle_key_press','examples/tui/mod.rs:383-414 map_canvas','src/state/mod.rs:170-260'])
p("The viewer's map shows the living units and the cameras",
 "The map of every frame has one circle for every unit that has appeared and has not died by the event in the pane, at the unit's position and in its colour and size, and one box for every user, where his camera went last.",
 'all replays, filters and sequences of inputs, and every frame',
 'an invariant over unbounded event histories, composed with the stepping of the viewer',
 ['examples/tui/mod.rs:383-414 map_canvas'])
p('The viewer lists the selection of every player',
 "The two panels of the viewer list what the players have selected, the first player's selection first.",
 'all replays, numbers of players, filters and sequences of inputs',
 'it depends on the order in which a hash map is walked',
 ['examples/tui/mod.rs:416-447 selected_player_units','examples/tui/mod.rs:184-199 draw'])
p('The viewer draws every player in his colour',
 'The camera box of a player and the name above his events are drawn in the colour the replay details give for him.',
 'all lobbies and details, all user and slot numbers',
 'it must hold for every relation between user numbers and slot numbers',
 ['examples/tui/mod.rs:449-457 get_player_color','examples/tui/mod.rs:228-241','examples/tui/mod.rs:404-412'])
p('The details pane lists the players',
 'The details pane of the viewer lists every player of the replay details, in order, with toon, name, slot, race and result, in his own colour, and the map has the size the initial data give.',
 'all details (any number of players, any slots), all inputs and every frame',
 'it must hold for every combination of slots, missing and shared ones included',
 ['examples/tui/mod.rs:459-489 details_canvas','examples/tui/mod.rs:449-457 get_player_color','examples/tui/mod.rs:383-395 map_canvas'])
p('Generated decoders read what the description allows',
 "For every declaration of a protocol description, the bit-packed decoder that 's2protocol generate' writes for it reads every value that Blizzard's format of the declaration can carry, at every position of a file, yields that value and stops right behind it.",
 'all declarations (any nesting of structs, choices, enums, arrays, options, integers, strings), all values, all bit positions, checked and wrapping builds',
 'the declarations, the values and the positions are unbounded; the generated code is only ever tried on the descriptions at hand',
 ['src/generator/decoder_type.rs:1209-1267 bounds_max_value_to_bit_size, open_bit_packed_int_main_parse_fn','src/generator/decoder_type.rs:1357-1375','src/generator/decoder_type.rs:1403-1421','src/generator/decoder_type.rs:1442-1473','src/generator/decoder_type.rs:680-983 gen_bit_packed_proto_struct_code','src/generator/decoder_type.rs:1074-1157 gen_bit_packed_proto_choice_code','src/generator/proto_morphist.rs:382-556 gen_proto_code'])
p('Generated array lengths',
 "The decoder generated for an array reads as many bits for the length as Blizzard's format has, whatever the greatest length of the array.",
 'all bounds below 2^20, all element types the generator gets right',
 'the off-by-one shows only at powers of two',
 ['src/generator/decoder_type.rs:1505-1530 open_bit_packed_array_main_parse_fn','src/generator/proto_morphist.rs:382-556 gen_proto_code'])
p('Generated enum tags',
 'The decoder generated for an enum reads as many bits for the tag as are needed for its greatest value.',
 'all enums with distinct values, gaps included',
 'the number of values and their gaps are unbounded',
 ['src/generator/decoder_type.rs:1594-1602','src/generator/decoder_type.rs:1644-1695 gen_agnostic_proto_enum_code'])
p('Generated integer bounds',
 'The decoder generated for an integer from a least to a greatest value reads the distance from the least value in the least number of bits that can hold every distance.',
 'all bounds, inclusive or exclusive, literal or as a power of two',
 'the bounds are unbounded integers',
 ['src/generator/decoder_type.rs:1209-1229 bounds_max_value_to_bit_size','src/generator/decoder_type.rs:1232-1267 open_bit_packed_int_main_parse_fn'])
p('The event readers of an archive',
 'For an archive whose header has the replay signature and some base build, the tracker, game and message event readers return the events of the sector of their kind, decoded with the layout of that build (75689 up to 75689, 87702 above), in order, each with its delta and user; a missing sector is an error of the reader that needs it.',
 "all archives, all builds, all non-empty sectors in Blizzard's format (free of the deviations of C14) with tracker names in UTF-8, checked and wrapping builds",
 'the builds, sectors and events are unbounded',
 ['src/versions/mod.rs:13-133 read_tracker_events, read_game_events, read_message_events, read_details, read_init_data','src/protocol_version_decoder.rs:51-58 read_protocol_header'])
p('A balance unit survives being written as JSON',
 'A balance unit written by write_balance_data_to_json and read again by read_balance_data_from_json_dir or from the included assets is the same unit, field by field: strings, integers, optional fields, lists and floats, even though floats are widened to f64, printed as decimal text and parsed with a small error. What is read always holds in-range fields; the seven mandatory fields must be there once, unknown fields and the order of fields do not matter. FALSE as stated for floats that are not numbers: a NaN or infinite mandatory float (which an XML attribute can hold) is written as null and makes reading the whole directory fail, and an optional one silently becomes None.',
 'every unit (every value of the structs), every map of units and history of writes, every text codec of JSON values exact up to a relative error of 2^-30 in numbers',
 'The claim ranges over all values of 25 nested structs and every float; tests round-trip a few shipped files.',
 ['src/game_events/ability/balance_data/mod.rs:VersionedBalanceUnit','src/game_events/ability/balance_data/json_handler.rs:write_balance_data_to_json','src/game_events/ability/balance_data/json_handler.rs:read_balance_data_from_json_dir','src/game_events/ability/balance_data/json_handler.rs:read_balance_data_from_included_assets'])
p('The program reads its balance data first, and converted balance data come back',
 'The command line program reads the balance data before any command: from --json-balance-data-dir if given, else those built in. If that fails, every command stops before it has done anything. balance-data-to-json --source XML -j DIR writes the units of the XML export to DIR, and later commands with -j DIR work, for every version and unit, with what the last such run that had the unit gave it. --xml-balance-data-dir changes nothing; only balance-data-to-json writes balance data, and only to DIR; generate and write-arrow-ipc without --output panic; util xlate-tag-to-index-recycle prints the index and the recycle part of any number. FALSE as stated for a DIR that is not there: the program tries to read it first and stops, although the library would create it.',
 'every command, argument, content of the directories, order of listings and history of conversions',
 'Tests run the library functions one by one on one directory; the claim is about sequences of runs of the whole program over every content of the disk.',
 ['examples/cli/mod.rs:process_cli_request','examples/cli/cmd_get.rs:handle_get_cmd','examples/full.rs:main','src/game_events/ability/balance_data/json_handler.rs:write_balance_data_to_json'])
p('Texts of map files are repaired, never cut or rejected',
 'A text read from MapInfo or DocumentHeader is its bytes with every encoded character kept and, where none is encoded, the longest run of bytes that could have begun one (or else a single byte) replaced by U+FFFD. The result is always valid UTF-8.',
 'every byte string and, for MapInfo, every well-formed file with a non-empty first text',
 'Tests use ASCII names; broken characters may come anywhere, next to each other and at the end.',
 ['src/cache_handles/map_info.rs:MapInfo::parse','src/cache_handles/document_header.rs:DocumentHeader::parse'])
p('Corners, sizes and playable coordinates of a map agree',
 'The lower left corner of the playable area plus its size is its upper right corner, in cells and in vertices; playable coordinates count from its lower left corner, and a vertex of the map is playable exactly when its playable coordinates are inside of the playable size. FALSE as stated: in vertices the upper right corner reported is that of the whole map.',
 'every MapInfo file accepted, every vertex, both overflow modes',
 'All maps and vertices, integer overflow included.',
 ['src/cache_handles/map_info.rs:MapInfo::terrain_right_top','src/cache_handles/map/coords.rs:PlayableTerrainCoord::from_map_terrain'])
p("Filtering by user name shows that user's events only",
 'After set_player_id_from_user_name(name, details) the merged iterator shows only what the user with that name does: game events of that user and tracker events of that player; the other filters stay as they were. FALSE as stated: the seat number is used where the iterator compares user ids and tracker player ids, and an unknown name leaves the filter open.',
 'every details and lobby, every name, every pair of byte strings as sectors, every other filter and any number of calls',
 'Lobbies with observers, computer players and team games number seats, users and players differently; no finite set covers them.',
 ['src/filters.rs:set_player_id_from_user_name','src/state/mod.rs:SC2EventIterator::next','src/game_events/iterator.rs:GameEventIterator'])
p('Generated byte-aligned decoders read what the description says',
 'For every declaration in a protocol description, the decoder that `s2protocol generate` writes for the versioned (byte-aligned) format reads every value of the declared type, in any field order and with any padding of numbers, and stops at its last byte. FALSE as stated: numbers outside the Rust type chosen by name, enums with the name of a number and empty choice variants are misread; integers without a name, unknown names, bit arrays, byte strings on their own and untagged fields stop the generator; dynamic arrays in fields and optionals or lists in choices give text that is no Rust.',
 'every declaration, every value of it, every encoding of the value, whatever bytes follow',
 'The descriptions of future protocol versions are not known when the tests are written, and each has as many values as its type.',
 ['src/generator/decoder_type.rs:byte_aligned_from_nnet_name','src/generator/decoder_type.rs:gen_byte_aligned_proto_struct_code','src/generator/decoder_type.rs:gen_byte_aligned_proto_choice_code','src/generator/proto_morphist.rs:gen_proto_code'])
p('A generated integer field holds every value the description allows',
 'In a decoder generated for the versioned format, an integer field accepts every value between its declared bounds, for each of the type names the generator knows. FALSE as stated: the Rust type is chosen by the name alone, and a value it cannot hold is an error (or wraps in the reader of numbers).',
 'every known integer name, every field tag, every pair of bounds',
 'The descriptions of future protocol versions are not known when the tests are written, and each has as many values as its type.',
 ['src/generator/decoder_type.rs:byte_aligned_from_nnet_name','src/generator/decoder_type.rs:gen_byte_aligned_proto_struct_code'])
p('A generated choice knows all of its variants',
 'A decoder generated for a choice in the versioned format reads each of its declared variants, those without content included. FALSE as stated: a variant without content is left out, and its tag is then an unknown tag.',
 'every choice with distinct tags whose variants are empty or of the supported types',
 'The descriptions of future protocol versions are not known when the tests are written, and each has as many values as its type.',
 ['src/generator/decoder_type.rs:gen_byte_aligned_proto_choice_code'])
p('Decoded data is at most linear in the input',
 'Whatever the bytes, a decoded value is never larger than a fixed multiple of the input that was read for it: each byte read by a decoder of the versioned format yields at most five parts (numbers, flags, names, presence marks, lists, structs, bytes of byte strings), each bit read by a bit-packed decoder at most three, besides 64 for the whole; and every event of a tracker, game or message sector takes at least two bytes of it, all at once or one by one, however often an iterator is asked, and so does every item of the merged iterator, whatever its filters. So no short file makes the decoders allocate without bound.',
 'all decoders of both protocols, every input, both builds, every number of calls of an iterator',
 'An input that makes a decoder produce more than it read (an array of elements of no size with a large count, an iterator that gives an event without moving on) need not be among the tested files.',
 ['src/versions/protocol87702/mod.rs:parse','src/versions/protocol75689/mod.rs:parse','src/versioned_decoder.rs:tagged_vlq_int','src/bit_packed_decoder.rs:take_bit_array','src/tracker_events/iterator.rs:TrackerEventIterator','src/game_events/iterator.rs:GameEventIterator'])
p('Decoders and readers look only at what they consume',
 'What follows a value in the input neither changes the value nor is touched: a decoder that succeeds on some bytes gives the same value when more bytes follow and leaves these. So of a sector whose end is missing an iterator gives the first events of the whole sector and then nothing, the events it has given are the same whatever comes later in the sector, and the batch readers give the first events or an error; an event is never decoded differently because a later one is damaged.',
 'all decoders of both protocols, every input, every place where it is cut, every continuation, both builds, every number of calls',
 'There are as many cuts and continuations of a file as bytes and byte strings; tests take a few.',
 ['src/versions/protocol87702/mod.rs:parse','src/versions/protocol75689/mod.rs:parse','src/versioned_decoder.rs:tagged_blob','src/bit_packed_decoder.rs:take_n_bits_into_i64','src/tracker_events/iterator.rs:TrackerEventIterator','src/game_events/iterator.rs:GameEventIterator','src/versions/protocol87702/events/tracker/mod.rs:read_tracker_events'])
p('The state and the hints grow at most linearly with the history',
 "Whatever the events, the state never holds more than they brought: a control group or selection of a user contains only tags that selection events of that user carried, and no more of them than these carried together, so repeated appends, recalls and copies between groups cannot make it grow; there are never more registered units than events that register one; and the units attached to an item are at most two, one for each announced position, or one more than twice the tags the user's selections carried.",
 'all lobbies, all histories of tracker and game events the state machine accepts, all users and groups, both builds, every sorting function',
 'Growth shows only over long histories of commands nobody writes down; tests replay a few events.',
 ['src/game_events/state.rs:update_control_group','src/game_events/state.rs:handle_selection_delta','src/game_events/state.rs:handle_cmd','src/tracker_events/state.rs:handle_unit_position','src/tracker_events/state.rs:handle_unit_born','src/state/mod.rs:handle_transition_to_next_event'])
p('Items do not depend on the hash order of the users',
 'Two runs over the same replay, with the same filters, deliver the same items with the same hints and names, and arrive at the same units and the same users, or stop with the same failure, whatever order the hash map of users happens to iterate in: the order changes from process to process, so this is what makes an export repeatable.',
 'all lobbies, every order of the users in the map, all histories of events, all tracker and game sectors, all filters, any number of calls, both builds',
 'The hash seed is drawn once per process, so a test sees one order of the map; the claim compares all of them.',
 ['src/state/mod.rs:SC2ReplayState','src/state/mod.rs:handle_transition_to_next_event','src/tracker_events/state.rs:handle_unit_born','src/tracker_events/state.rs:handle_unit_died','src/tracker_events/state.rs:handle_player_setup','src/state/mod.rs:SC2EventIterator'])
p('The record of a unit tells its story',
 "After any history, a registered unit's record is what the events since its registration say: init_game_loop, user_id and player_name come from the event that first registered its index since it was last removed, name, pos, is_init and creator_ability_name from the last event that says something about them, last_game_loop is the loop of one of these events, with init_game_loop <= last_game_loop <= the current loop when loops never go back; and user_id is the player that controls the unit now.",
 'all lobbies, all histories of tracker and game events the state machine accepts, all unit indices, both builds',
 'The record is the sum of an unbounded history with removals and reuse of indices; tests apply one or two events to one unit.',
 ['src/state/mod.rs:SC2Unit','src/tracker_events/state.rs:handle_unit_init','src/tracker_events/state.rs:handle_unit_born','src/tracker_events/state.rs:handle_unit_type_change','src/tracker_events/state.rs:handle_unit_done','src/tracker_events/state.rs:handle_unit_position','src/tracker_events/state.rs:handle_unit_died','src/tracker_events/state.rs:handle_tracker_event'])
p('Damage to one event sector does not cost rows of the other',
 'If the tracker events of a replay are readable, the tables of statistics, upgrades, births and deaths exported for it are the same whatever bytes stand in its game event sector - damaged, cut, of another client - and hold the rows of all its tracker events; if its game events are readable, the tables of commands hold the commands of all of them whatever bytes stand in its tracker sector.',
 'all lobbies, all byte strings as the damaged sector, all readable contents of the other, all protocol versions',
 'Damage can be anything: there is no finite set of damaged sectors to test, and the two sectors meet only in the merging iterator and the state.',
 ['src/state/mod.rs:SC2EventIterator','src/state/mod.rs:collect_into_player_stats_flat_rows','src/state/mod.rs:collect_into_unit_born_flat_rows','src/state/mod.rs:collect_into_game_cmd_target_points_flat_rows','src/game_events/iterator.rs:GameEventIterator','src/tracker_events/iterator.rs:TrackerEventIterator'])
p("A unit's record carries the last order given to it",
 "After any history the command in a registered unit's record is the last order given to it: that of the last command or target update issued, since the unit was registered, by a user who had it in the active selection at that moment. A unit that no such event has reached since its registration carries no order: loop, flags and sequence 0, no ability and no target.",
 'all starting states, all histories of tracker and game events, all registered units, all users and selections',
 'The order depends on the whole history of selections, registrations, deaths and commands; any finite set of replays covers only some interleavings.',
 ['src/game_events/state.rs:handle_cmd','src/game_events/state.rs:handle_update_target_point','src/game_events/state.rs:handle_update_target_unit','src/state/mod.rs:SC2Unit','src/tracker_events/state.rs'])
p('Damaged or cut map files are errors, never crashes',
 'Whatever bytes the MapInfo, t3HeightMap and DocumentHeader files of a map hold, reading them returns a value or an error and never stops the program; and a file that breaks off anywhere before the last byte that belongs to it is refused with an error, never read as a smaller one.',
 'every byte string, every map info accepted, every place where a file can break off, both overflow modes',
 'There are infinitely many damaged files, and each of the many lengths a file can be cut at takes another path through the parser.',
 ['src/cache_handles/map_info.rs:MapInfo::parse','src/cache_handles/t3_height_map.rs:T3HeightMap::parse','src/cache_handles/document_header.rs:DocumentHeader::parse'])
p('Debug and release builds give the same results',
 'Whenever the crate or its command line program, built with overflow checks, ends a call without stopping in a panic - with a value or an error - the build without overflow checks ends the same call in the same way: the same values, events, states, rows, output, files and errors. The choice of build can only decide whether an overflow stops the program or goes on with a wrapped number.',
 'every input of every decoder and every layout of the two families, every sector, every event history, every number of iterator calls, every filter, every map file, every sequence of keys in the viewer, every file system and every command line',
 'Tests run in one build mode, usually the one with overflow checks, and say nothing about the results of the other; both would have to be run on every input.',
 ['src/versions/byte_aligned/mod.rs','src/versions/bit_packed/mod.rs','src/state/mod.rs:SC2EventIterator::next','src/tracker_events/unit_positions.rs:to_unit_positions_vec','src/lib.rs:get_matching_files','src/arrow_store/mod.rs:handle_arrow_ipc_cmd','examples/cli/mod.rs:process_cli_request'])
p("The viewer's event pane",
 "For every event the viewer shows, the event pane prints the event's game loop and its time, which is the time the exported tables give for this loop, to the millisecond; for an event of a user it prints the number and name of the user; it prints the kind of change the event made and, in the order of the change, one line for each unit touched, with number and name, and with the creator, target, killer, position, command or ability that goes with it.",
 'every event and change hint, every loop below 2^43, and whatever the JSON and debug printers print',
 'The time comes from two different floating-point computations, one per program; a test compares them at a few loops. That rounding never shows two loops at the same or at swapped times has to hold at every loop.',
 ['examples/tui/mod.rs:event_canvas','src/lib.rs:convert_game_loop_to_seconds'])
p('generate writes exactly the decoders of the wanted declarations',
 "generate --source DEFINITION --output FILE succeeds exactly when the name of the definition holds a number, FILE can be created and is not the definition, the definition is there and is a JSON document with the modules, names, declarations and constants the generator looks at, every wanted declaration can be translated, and there is room. FILE then holds exactly: the fixed first lines; the byte_aligned sub-module with the code of every wanted declaration (SVersion, SVarUint32, SMD5, EObserve, the replay header, the tracker's structs and event ids, the details) in the order of the document; the bit_packed sub-module with every wanted declaration (integers, the named basic types, user id and init data, everything of NNet.Game but ESenders, the data of dialog control events), likewise. Nothing of its old content is left and no other file changes.",
 'every JSON document, path, previous content of the files, and whatever the texts of the single decoders are',
 'A definition has hundreds of declarations in nested modules; that none is left out, doubled, put in the wrong sub-module or out of order has to hold for every document, not for the ones at hand.',
 ['src/generator/proto_morphist.rs:gen','src/generator/proto_morphist.rs:gen_byte_aligned_mod','src/generator/proto_morphist.rs:gen_bit_packed_mod','src/generator/proto_morphist.rs:gen_proto_code'])
p('A failed generate leaves the previous output',
 'If generate fails, by an error or a panic, the output file is as it was before. FALSE: the output is created, and so emptied, before the definition is opened. A definition that is missing or no JSON leaves an empty file, and a definition that is also the output is destroyed. What holds: no other file is touched; if the output cannot be created, or the name of the definition holds no number, nothing changes; otherwise the output is empty or a beginning of the code of the first declarations; and an error, rather than a panic, means that the output cannot be created or that there is no room.',
 'every JSON document, path, content of the files, and every amount of free space',
 'It ranges over every point at which a run can stop: between any two declarations and after any byte when space runs out.',
 ['src/generator/proto_morphist.rs:new','src/generator/proto_morphist.rs:gen'])
p("The generated code carries the number in the definition's name",
 "The code generated from protocolN.json is that of protocol N, in whatever directory the file is. FALSE as a claim about the number in a name: the digits anywhere in the file's name are put together, so s2protocol87702.json is protocol 287702 and protocol87702 (1).json is 877021. What holds: if the digits of N are the only ones in the name, the number is N, for every N below 2^64 and every directory.",
 'every number below 2^64, every directory and every plain text around the number',
 'A test tries a few names; the claim is about every number and every path, digits in the directory included.',
 ['src/generator/proto_morphist.rs:new'])
p('Each event id leads to the struct tagged with it',
 'In the generated module, each variant of an event enum holds, and the arm for its number decodes, the struct of the definition that is tagged with this event id. FALSE if two structs have the same tag: the first in the document is used and the second is never decoded. What holds: every enum written lists every variant with the first struct tagged with it, in the type and in the arm of its number, or alone if there is none.',
 'every JSON document, enum, variant and struct',
 'The table of tags is filled in one pass over the document and used in another, under names that were shortened on different ways; that both ways meet has to hold for every name.',
 ['src/generator/proto_morphist.rs:collect_enum_tags','src/generator/proto_morphist.rs:fill_module_decl_structs','src/generator/decoder_type.rs:gen_agnostic_proto_enum_code'])
p("The bit-packed decoders of a generated module are those of the document's declarations",
 "After a successful generate, every declaration of the document that is in the bit-packed sub-module has, under its Rust name, the decoder for the type the document describes: integers with their bounds, strings, blobs and bit arrays, arrays with the decoder of their elements, optional fields, choices and structs with their variants and fields in the order of the document and without its constants, enums with the structs that are tagged with their variants, and names stand for the declarations that carry them. A plain declaration (C110) is therefore read in Blizzard's format, wherever in the document its parts are declared. The Rust names are taken to be distinct.",
 'every JSON document, and every declaration, of any depth of reference',
 'The decoders refer to each other by name across the document; that each name leads to the declaration meant, and that no bound, tag or field is taken from the wrong place of the JSON, has to hold for every document.',
 ['src/generator/decoder_type.rs:680-983 gen_bit_packed_proto_struct_code','src/generator/decoder_type.rs:1074-1157 gen_bit_packed_proto_choice_code','src/generator/decoder_type.rs:1209-1267','src/generator/decoder_type.rs:249-304 bit_packed_from_nnet_name','src/generator/proto_morphist.rs:382-557 gen_proto_code'])
p('A generated module holds every type it refers to',
 'If generate succeeds, each type that a declaration of the bit-packed sub-module refers to is itself in the sub-module, once. FALSE: the declarations to be written are a fixed list of names, so a struct of NNet.Game that refers to a type outside the list is written without it; and two declarations with one Rust name are both written. What holds: if the Rust names are distinct and every reference is to a declaration on the list, every type of the sub-module has its decoder, down to the integers.',
 'every JSON document',
 'The list is made by hand for the documents known today; the claim is about every document.',
 ['src/generator/proto_morphist.rs:216-303 gen_bit_packed_mod'])
p("The byte-aligned decoders of a generated module are those of the document's declarations",
 "After a successful generate, every declaration of the document that is in the byte-aligned sub-module has, under its Rust name, the decoder for the type the document describes: structs with the tags and types of their fields in the order of the document and without its constants, single untagged fields, optionals and arrays, choices with the numbers of their variants, the enum of tracker events with the structs that are tagged with its variants, and names stand for the declarations that carry them. A plain declaration (C120) is therefore read in Blizzard's format, wherever in the document its parts are declared. The Rust names are taken to be distinct.",
 'every JSON document, and every declaration, of any depth of reference',
 'The decoders refer to each other by names that come partly from a table of conversions and partly from the document; that each leads to the declaration meant has to hold for every document.',
 ['src/generator/decoder_type.rs:423-668 gen_byte_aligned_proto_struct_code','src/generator/decoder_type.rs:989-1066 gen_byte_aligned_proto_choice_code','src/generator/decoder_type.rs:100-245 from_nnet_name','src/generator/decoder_type.rs:1537-1557','src/generator/decoder_type.rs:1644-1695 gen_agnostic_proto_enum_code','src/generator/proto_morphist.rs:382-557 gen_proto_code'])
p('A generated byte-aligned module holds every type it refers to',
 'If generate succeeds, each type that a declaration of the byte-aligned sub-module refers to is itself in the sub-module, once. FALSE: the declarations to be written are a fixed list of names, so an array of player details whose elements are of another struct of the document is written without that struct; and two declarations with one Rust name are both written. What holds: if the Rust names are distinct and every reference is to a declaration on the list, every type of the sub-module has its decoder, unless the text of one is no Rust.',
 'every JSON document',
 'The list is made by hand for the documents known today; the claim is about every document.',
 ['src/generator/proto_morphist.rs:147-214 gen_byte_aligned_mod'])
p('A camera box is drawn around the camera',
 "On the map of every frame the box of a user is a square of 20 by 20 map units whose middle is the position of his camera scaled down by 250, to within 2^-43 of a unit in each coordinate; a camera further right (up) gives a box further right (up) and conversely, so the rounding never swaps or merges two boxes. The circle of a unit is drawn at exactly the unit's place and with exactly its radius.",
 'all replays (any bytes in the two sectors), filters, sequences of inputs and every frame; all pairs of boxes; all balance data with single-precision radii',
 'It bounds floating-point rounding for every camera position, and that these have 16 bits is an invariant of the whole event history.',
 ['examples/tui/mod.rs:61 GAME_SPOINT_MINI_TO_MAP_RATIO','examples/tui/mod.rs:383-414 map_canvas','src/game_events/state.rs:10-45'])
p('Replays use the radius and the command names of the JSON files',
 "Whichever balance files a run uses (built in, or the directory it is given), the radius replay events give to a unit of a version and name is the number at misc/@radius of the JSON file of that version and name, in single precision; and the name of a command is that of the first entry with its two numbers among the file's abilities (id, a dot, the command's id), then what it trains, builds and researches, with the prefixes Train., Build. and Research.; without such an entry it is empty. (An array in place of an object counts as the object with its values under their names, in order.) No file is left out, and every radius is a value an f32 can have.",
 'all directories of balance files, all JSON contents, all unit names, versions, ability and command numbers',
 'It ranges over all JSON values, with fields missing, null or repeated, and over four nested searches in order.',
 ['src/game_events/ability/balance_data/mod.rs:326-589','src/game_events/ability/balance_data/json_handler.rs','src/state/unit_props.rs:24-69','src/state/mod.rs:345-354'])
p('Which JSON values are balance units',
 'A JSON value is read as a balance unit exactly if it is an object in which every object, at whatever depth, keeps to the rules of its place: a mandatory member is there once, an optional one at most once, each is a text, a number, a whole number in its range, an object or a list of objects as its name demands, and null only where null may be; members of other names do not matter. An array in place of an object is not refused, at any depth: its values are the members in the order of the fields of the struct, all of them or all but some of the last that have a default, and the rules are for the object with these members. What the library writes of a unit whose floats are numbers keeps to the rules. A run gets its balance data exactly if every file of a version directory keeps to them; a file that does not ends every command before it does anything.',
 'all JSON values of any depth and length, all units, all directories of balance files, orders of listing and commands',
 'It is an equivalence over all JSON values; tests try a few files and none that is refused.',
 ['src/game_events/ability/balance_data/mod.rs:78-524','src/game_events/ability/balance_data/json_handler.rs:45-125'])
p('Directory statistics of the library use the balance data built into it',
 'SC2ReplaysDirStats::from_directory(dir, serial) counts the replay files found, the readable ones, and of these, as supporting abilities, exactly those whose version has at least one unit file among the files built into the library (whatever the unit, and however many); it ranks players and map titles like a scan. It gives an error exactly if a built-in file is not a unit or the directory cannot be searched; it panics exactly if all built-in files are units and the search or the reading of one of the files found panics; apart from that unreadable files do no harm. The command scan without a JSON directory reports the same numbers and changes no file; serial makes no difference.',
 'all sets of built-in files, directory trees, file contents, and hash map iteration orders',
 'It ranges over all built-in data and directories; tests have one of each.',
 ['src/dir_stats.rs:27-123','src/game_events/ability/balance_data/mod.rs','examples/cli/mod.rs:300-318'])
p('Exactly these events stop the program',
 'Stepping the state machine panics exactly at a selection delta or a control group update of a group above 10 by a user of the replay and, in builds with overflow checks, at a unit position report whose running unit index, or one of whose coordinates times four, leaves i32. Every other event, in every state a replay can reach, gives an item (never an error). So a list of events, any number of calls of the merged iterator without filters, and any exported table panic exactly if such an event is among those they come to; what was processed before it makes no difference. With filters of any kind no number of calls panics or fails if no such event is in the two streams. A table of a readable replay panics exactly if such an event is written in it, and an export of readable replays that can be opened succeeds exactly if its output is a directory, its files can be created and none of the replays contains such an event. The terminal viewer over a replay without such an event starts and draws its frames until it is told to quit, whatever the filters and the keys pressed.',
 'all reachable states, events, event lists, byte strings as the two event sectors, both protocol versions, builds with and without overflow checks',
 'It ranges over all states, events and histories; tests run a few replays.',
 ['src/state/mod.rs:276-300 SC2ReplayState::handle_transition_to_next_event','src/tracker_events/state.rs:209-348','src/game_events/state.rs:55-442','src/tracker_events/unit_positions.rs:38-55','src/state/mod.rs:667 SC2EventIterator::next','src/arrow_store','examples/tui/mod.rs:77-182'])

out=os.path.join(os.path.dirname(os.path.abspath(__file__)),'..','properties.jsonl')
with open(out,'w') as f:
    for x in P: f.write(json.dumps(x)+'\n')
print(len(P))
