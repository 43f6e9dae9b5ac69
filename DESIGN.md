# Formal model of s2protocol-rs in Rocq (Coq 8.16.1)

## 1. Layout (rocq/theories)

| files | content |
|---|---|
| `Base.v` | outcomes (`Ok` / `Err` / `Panic`), build mode (`Checked`: debug, overflow panics; `Wrapping`: release), casts of machine integers |
| `Vlq.v`, `BitPacked.v`, `Versioned.v`, `BitInterp.v` | primitive decoders and the interpreters of the two descriptor languages |
| `Types.v`, `ByteTypes.v`, `BitTypes.v` | descriptor languages and the generated decoders of protocols 87702 and 75689 as descriptors; written by `tools/extract_proto.py` from the Rust source, each descriptor cites its lines |
| `Dispatch.v` | which protocol module reads which build |
| `Tags.v`, `Utf8.v`, `F32.v`, `Events.v`, `Convert.v` | unit tags and positions, strings, single precision, protocol-agnostic events, conversions |
| `Stream.v`, `Iterators.v` | event iterators and batch readers |
| `Maps.v`, `Balance.v`, `Lobby.v`, `State.v`, `Merge.v` | replay state machine, merged iterator, filters |
| `Files.v`, `Times.v`, `CacheFiles.v` | file search, replay times, map files |
| `DetailsData.v`, `Rows.v` | details, init data, rows of the exported tables |
| `*Spec.v`, `*Format.v` | specifications: small and independent of the model's functions |
| `*Facts.v`, `*Proofs.v`, `*Exact.v`, `*Encode.v`, … | lemmas |
| `ReplayBytes.v`, `UnitJson.v`, `Conformance.v` | the model run on files of /repo/assets (examples) |
| `RepoTestBytes.v`, `RepoTests.v` | the unit tests of /repo, their bytes and expected values copied by `tools/gen_repo_tests.py`, hold of the model (examples) |
| `Props*.v` | the property theorems only (`exact lemma`), each with `Print Assumptions` and a concrete `Example` that meets its hypotheses |

Scripts: `tools/gen_properties.py` (properties.jsonl), `tools/gen_manifest.py` + `tools/notes.py` (MANIFEST.json),
`tools/mutate.py` (wrong programs, run in a scratch copy; results in `seeded/LOG.jsonl`).

## 2. Method

* A byte is a `Z` in 0..255 (`bytes_ok`), an input a `list Z`; a bit cursor is (bytes, bit offset). Integers are `Z` with
  the casts (`as_u32`, …) and overflow checks of the code written out. Panics are an outcome, never a missing case.
* Loops are structural recursion, or recursion on fuel computed from the input, with a proof that the fuel is not used up
  whatever the input (the error "out of fuel" is excluded by the theorems' conclusions).
* The generated decoders are a deep embedding: `vparse`/`bparse` interpret a descriptor; theorems quantify over all
  descriptors (induction) and are instantiated on the extracted ones (checked by computation on the finite list of types).
* Properties about user sessions quantify over all histories (`reachable`, `history`) by induction on the list of events.
* Properties that are false of the code stay in the list: a concrete witness refutes the full statement (`_refuted`) and
  the strongest version found that does hold is proved (`_partial`), saying exactly when the code behaves. Where possible
  the partial theorem gives the complete behaviour (value, error or panic for every input), so that the refutation is a
  corollary of it.

## 3. Properties: what is modelled, how it is proved

| id | modelled | proof |
|---|---|---|
| C01, C02, C03 | `parse_vlq_int` (Vlq.v) | relation `vlq_rep` between numbers and byte strings (VlqSpec.v); induction on the input; C03: complete table of accepted / panicking / wrapping inputs (VlqExact.v) |
| C04–C08 | the bit primitives (BitPacked.v), including nom's `bits::take` | reference reader on the list of bits in Blizzard's order (BitSpec.v); induction on the number of bits |
| C09 | tagged primitives | from C01, by case analysis on tag and length |
| C10, C16 | all descriptors, event pair/triplet readers | induction on descriptors: the rest is a proper suffix |
| C03, C59, C62 without overflow checks | `parse_vlq_int Wrapping`, `vparse Wrapping` | WrapSpec.v: the groups of a number laid over each other modulo 64 bits, and the format with that reading of integers; soundness and completeness again, for any reading of integers the integer decoder is exact for |
| C11, C59, C62 | `vparse` on every descriptor | the format as a relation `venc` (VersionedSpec.v), fields in any order; soundness and completeness by mutual induction; an encoder as witness |
| C12, C13 | the field loop of structs | invariant of the slots; per-type check of the reported tag |
| C14, C15, C60, C61 | `bparse` on every descriptor | format relation `benc` on bit lists (BitFormat.v), exactness in both directions, encoder |
| C17, C18 | Tags.v | arithmetic on Z, induction on triples |
| C19–C22, C67–C69 | iterators and batch readers over any parser, instantiated | `holds` (the sector contains these events); induction on the events and on fuel; encoders give sectors of any event list |
| C23–C30, C71 | `SC2EventIterator::next`, filters (Merge.v) | simulation by two event lists; induction on calls; f32 comparison by exactness of integers up to 2^24 (F32Facts.v), above that by the bound on the rounding error (MergeNear.v) |
| C31–C48, C70 | handlers of src/tracker_events/state.rs and src/game_events/state.rs | invariants over `reachable`, lookup lemmas of finite maps, per-handler frame conditions |
| C49 | balance data lookup | induction on the tables, priority as a relation (TableSpec.v) |
| C50, C57, C58 | Dispatch.v, both builds of the decoders | computation on finite tables, C58 by induction on descriptors |
| C51 | `get_matching_files` on a tree = function from paths to nodes | induction on depth and entries |
| C52, C72 | lobby join | induction on slots and players |
| C74, C75 | Details::new, InitData::new and their conversions | decoder model composed with the conversions; specification by field names (DetailsSpec.v), generic inversion of conversions |
| C53–C55, C73 | MapInfo, t3HeightMap, DocumentHeader | file layouts as relations/encoders (CacheSpec.v), inversion of the parser |
| C56 | `transform_to_naivetime` | integer arithmetic |
| C63 | UTF-8 validation | Unicode scalars and their encoding, both directions |
| C76–C81 | collect_into_* (src/state/mod.rs) and the flat rows (Rows.v) | tables as functions of the event lists (RowSpec.v); what is known of a unit as a function of the tracker events before (`life_of`), related to the state by induction on the history |
| C82, C83 | lobby and init data rows | induction on handles; hexadecimal texts as byte lists |
| C84–C86 | loop to seconds, map coordinates, command positions | rounding of binary32 as integer inequalities (`is_round`, F32Round.v), proved of SpecFloat's operations; monotonicity and error bounds compose; exactness below loop 69127 by a complete check of those loops |
| C87–C90 | files by path, choice, snapshot export, directory statistics | a file system is a function from names to archives (external), an archive gives user data and sectors; readers compose C74, C75, dispatch and the iterators; the order of workers is any permutation, the order of a hash map too (Archive.v, SnapshotFacts.v, ExportSpec.v, SnapshotTables.v, StatsFacts.v) |
| C91, C92 | `Writers.v`: an interleaving transition system of the parallel closures and the mutex-guarded writer; any number of sources, steps of one byte, optional write failures | invariant over all reachable states (file = whole batches + a prefix), a decreasing measure, a progress argument, and a constructed schedule for every order; C92 by a run that loses a batch |
| C93 | `Header.v`: the short header reader | symbolic execution of the first two rounds of the generated loop, and that a stored field is never overwritten |
| C94 | `BalanceFiles.v`: a directory as paths with contents, writing and reading units | an invariant relating the disk to the map of what was last written, by induction over the writes |
| C95 | both readers of `BalanceFiles.v`, with an arbitrary permutation as listing | both are a fold of insertions over the unit files; without clashes the fold does not depend on the order |
| C96 | `traverse_xml` | as C95, then composed with C94 |
| C97–C101 | `Cli.v`: `get` as an outcome and the list of printed tokens (brackets, commas, JSON values) | induction on the calls of the iterator and on the sources; composed with the iterators (C22, C23), the filters (C28) and C87 |
| C102, C103 | the states of `State.v`; `LookSpec.v` lists the colours by type and states the conditions on histories | invariants over `run`, preserved by every event (`step_looks`, `sound_step`, `complete_step`) |
| C104–C108 | `Viewer.v` models the viewer over the merged iterator; its inputs are a list of turns; `ViewerSpec.v` | the calls of the iterator are split at every frame and turned into histories (`calls_split`, `calls_history`), then the invariants of `State*.v` apply |
| C109 | `Viewer.v`, `ViewerProgram.v` (how the program starts the viewer: C104_program) | induction over the players (`pane_ok`) |
| C110 | `Generator.v` (declarations, decoders, what they do) against `layout` in `GeneratorSpec.v` | `gen_agrees`: by nested induction the decoder written is the one for the layout (BitTotal) |
| C111–C113 | `Generator.v` | equivalences: arithmetic of widths, and for the other direction a value at a position that is misread |
| C114 | `Archive.v` | composition of the header (C87), the dispatch (C50) and the sectors (C21, C68, C69) |
| C115 | serde descriptors of the 25 structs, derived Serialize/Deserialize at the level of serde_json values, f32/f64 conversions (BalanceJson.v) | induction on types; rounding of near doubles (BalanceJsonNear.v) |
| C116 | process_cli_request and main over BalanceFiles.v, Cli.v and Archive.v (Program.v) | invariant of the JSON directory over histories of conversions (ProgramFacts.v) |
| C117 | String::from_utf8_lossy as maximal-subpart replacement (CacheFiles.v lossy) | relation [repaired] on scalar values (LossySpec.v), equal to the function by induction on length, and functional (LossyFacts.v) |
| C118 | MapInfo corners, PlayableTerrainCoord (CacheFiles.v) | arithmetic (MapCorners.v) |
| C119 | SC2ReplayFilters::set_player_id_from_user_name (Merge.v) | fold over the players; names as an invariant of the merged iterator, any bytes (UserFacts.v) |
| C120–C122 | byte-aligned half of the code generator: from a declaration to the decoder written (ByteGen.v) and what that does | generated code = the interpreter of Versioned.v on a constructed type, whose completeness is C08; format stated separately in ByteGenSpec.v (ByteGenFacts.v) |
| C123 | `parts` (SizeSpec.v) counts what a decoded value holds | a weight of each type (parts of the smallest input) computed for all types, induction over the interpreters (SizeFacts.v); each step of the sector loops consumes at least two bytes (SizeStreams.v), and the merged iterator gives what these hold (MergeSize.v) |
| C124 | the interpreters and stream loops as they are; `a ++ b` against `a` | byte-aligned: a relation between the outcomes on `a` and `a ++ b`, kept by every combinator (ExtendFacts.v); bit-packed: from C61; streams: step by step comparison of the two runs (ExtendStreams.v) |
| C125 | the state machine as it is; told tags, registrations, units of a hint counted | invariant over the groups of all users with the stock of tags told so far; units from C32; hints by cases over the event (StateSize.v) |
| C126 | two starting states of one replay whose users are in any two orders, same events or same sectors | simulation: a relation (equal units, users a permutation) kept by every event and by every call of the iterator (HashOrder.v, HashOrderMerged.v) |
| C127 | the state machine as it is; what each event says about a unit (UnitStory.v, first part) | induction over the history, one case per event (UnitStory.v) |
| C128 | the iterators over any bytes, the merged iterator, the tables (Rows.v) | the merged iterator follows a schedule of the two lists of answers; the table is the run up to its first gap; tracker rows depend on tracker events only (DamagedTables.v) |
| C129 | State.v: commands, target updates, registrations | induction on the history from the right: each event either leaves the order of a unit alone, or registers it, or reaches it (UnitOrders.v) |
| C130 | CacheFiles.v: the three parsers | no parser step panics; a parser that accepts a file accepts it with anything behind, as the same value, so no proper prefix of what is read is accepted (CacheCuts.v) |
| C131 | everything that takes a build mode, up to Program.v: process | the relation "the same unless the first panics" is kept by every construct of the model: sequencing, loops, optional results, errors that are passed over (BuildsAgree.v, BuildsAgreeProgram.v) |
| C132 | EventPane.v: event_canvas, with F64.v for doubles | error bound of the double division (F64Round.v, the same proof as F32Round.v), then the nearest millisecond is at most 5/11 away and unique; lines by cases on the hint |
| C133, C134 | GenerateRun.v: the generate command from the path to the output file, GenerateSpec.v: the document as a flat list and the wanted part of it | a run is a sequence of pieces and stops (GenerateFacts.v); run_steps is an equivalence with the concatenation of their texts, and a prefix of it on failure |
| C135 | GenerateRun.v: file_name, digits | induction on the decimal representation and on the path |
| C136 | GenerateRun.v: the table of tags and the enum texts | the fill loops are a fold with first-wins; removal of dots, NNet and quotes commutes with quoting |
| C137, C138 | GenJson.v: the reading of the JSON of a declaration down to the decoder, names resolved in the module written; GenJsonSpec.v: which type a declaration describes | mutual induction on the description; a sequence of decoders indexed by how far names are followed becomes constant (leads, follows) |
| C139, C140 | ByteJson.v: the same reading for the byte-aligned decoders, through the table of conversions; ByteJsonSpec.v: which type a declaration describes | as for C137, C138; the table is checked entry by entry |
| C141 | CameraBox.v: the rectangle of a camera and the circle of a unit, in doubles (SpecFloat) | rounding lemmas for quotient and difference; invariants: cameras have 16 bits, places and radii of units are valid singles |
| C142 | UnitView.v: the fields of a decoded unit that the library reads | each field of a decoded struct against the path in the JSON; the four loops as the first match of one list |
| C143 | BalanceJson.v: from_value, with arrays in place of structs, against a table of paths and members | an equivalence for every type by induction on it, then the rules of j_unit are those of the table (computed) |
| C144 | DirStats.v: from_directory over Archive.v (scan) and BalanceFiles.v (built-in files) | the scan theorems of C90 with the units of the built-in files of C96; failure from both |
| C145 | Stops.v, ExportStops.v, ViewerStops.v: the events that stop the program, over State.v, Merge.v and Rows.v | case analysis of one event from the reachable-state invariant (eleven groups), induction over the overflow of position reports, induction over runs, then the schedules of C25 and C128; the export through C89_succeeds |
| C64–C66 | conversions to protocol-agnostic events | a left inverse of each conversion on decoded values (ConvertSpec.v) |



## 4. Trusted base

* Coq's kernel (8.16.1). `Print Assumptions` of every property theorem says "Closed under the global context": no axiom,
  neither of ours nor of the standard library. (vcheck lists names of `Coq.ssr` because the standard library's own files
  load it; no file here requires it.) Libraries used: the standard library only (ZArith, List, String, Lia, SpecFloat, …).
* That the model is the code. Every definition cites the lines it models; the descriptors were extracted by script. The
  Rust code was not run (no toolchain dependencies in the sandbox).
* Evidence that the model is the code: `Conformance.v` runs the model on bytes of a replay shipped in /repo/assets
  (`ReplayBytes.v`, extracted from the MPQ archive by `tools/gen_replay_bytes.py`): header, details, init data, chat and
  lobby of the whole sectors, the merged iterator, the state machine and the tables on excerpts of the event sectors, and on
  units of /repo/assets/BalanceData (`UnitJson.v`). Outside the build the model also decoded the whole game sectors of the
  three replays (7461, 6303, 9579 events) and a whole tracker sector (5445 events) to the last byte, and read and wrote 925
  units of one version unchanged. These are tests of the model, not proofs of the code.
* External behaviour, modelled from its documentation: nom 8 (`take`, `tag`, `u8`, `u32`, `bits::take`, `take_while`),
  `core::str::from_utf8` and `String::from_utf8_lossy`, `Path::extension`, `chrono::DateTime::from_timestamp` with its
  range, IEEE-754 binary32 rounding to nearest even (SpecFloat), `HashMap` (iteration order: any order of the association
  list), `sort_unstable` (order of equal elements: parameter `mc_sort`, specified by `sorts`), `usize` of 64 bits.
* Memory and stack are unbounded; `Vec` capacities are not modelled (a huge announced length is an error or runs out of
  input in the model, as in the code).

## 5. Modelled and not modelled

Modelled: src/lib.rs (`parse_vlq_int`, `transform_to_naivetime`, `get_matching_files`, loop to seconds), src/bit_packed_decoder.rs,
src/versioned_decoder.rs, src/versions/mod.rs (dispatch), src/versions/protocol87702 and protocol75689 (all byte-aligned
types and all bit-packed types used by the readers, event readers, conversions), src/tracker_events/*, src/game_events/*
(including iterator, state, ability names), src/message_events, src/details.rs and src/init_data (join, player names),
src/state/*, src/filters.rs, src/common.rs, src/protocol_version_decoder.rs (the header), src/dir_stats.rs, src/arrow_store (choice of replays, order and
content of the tables, the threads that write them), src/game_events/ability/balance_data (files and maps), src/cache_handles/* (MapInfo, height map, document header, coordinates),
examples/cli/cmd_get.rs, the dispatch of commands in examples/cli/mod.rs and examples/full.rs, examples/tui/mod.rs (what the panes hold and what the inputs do),
src/generator (both halves, bit-packed and byte-aligned, from the JSON of a declaration to what its decoder does; the generate command
from the path of a definition to the output file: which declarations are written, in which order and under which names).

Not modelled: reading MPQ archives (an archive is a function from sector names to byte strings, errors or panics), sha256, logging, the parsing of
one balance unit from XML (a parameter of C96; files, names and maps are modelled), the text of JSON values (a parameter of C94, C95, C115; the serde conversion between structs and JSON values is modelled), encoding of Arrow IPC files and JSON (the rows and batches written are modelled), the parsing of the command line (clap), the terminal (pane sizes, colours of the event text, the time of ticks, the lookup of the highlighting tables), the previews of bits and bytes in log messages (`peek_bits`, `peek_hex`), the files of src/generator that are not part of the crate (versionless.rs, stableid_ability_parser.rs), and of the code generator
(src/generator) the text of decoders that are not enums, and the case of names (convert_case); floating-point logarithms are taken as exact, which they are below the
bounds stated in C110–C113 (2^48 for f64, 2^20 for f32).

Simplifications, each stated at its definition: unbounded `event_loop` (justified by C67), fields that are only copied are
left out of some records, opaque date-times in the lobby records, pending events of the merged iterator without their tag.
