(** * Replay files: header, readers, selection, export and directory statistics

    The MPQ container, the file system and the Arrow encoding are external.  A
    file is what opening and parsing it (src/lib.rs:71-77 [read_file],
    [nom_mpq::parser::parse]) gives: an error, a panic, or an archive whose
    sectors may in turn fail to be extracted.  Simplification: a file does not
    change between two reads of it. *)
From Verif Require Import Base Types Utf8 Versioned ByteTypes ConvertSpec BitInterp BitTypes Dispatch Utf8 Events Convert Iterators Balance Lobby DetailsData State Merge Rows Files.
#[local] Open Scope string_scope.
#[local] Open Scope Z_scope.
#[local] Open Scope list_scope.

(** [MPQ] (external): the content of the user data, [read_mpq_file_sector], and
    the SHA-256 digest of the file. *)
Record archive := mk_archive { ar_user : option (list Z); ar_sector : string -> outcome (list Z); ar_sha : string }.
(** The files by name. *)
Definition world : Type := string -> outcome archive.
(** No file has an empty name (src/init_data/mod.rs:79 uses it for a path that
    is not text). *)
Definition open_file (w : world) (name : string) : outcome archive := if String.eqb name "" then Err (EOther "io") else w name.

(** ** The header and the readers: src/protocol_version_decoder.rs, src/versions/mod.rs *)
(** [b"StarCraft II replay\x1b11"]. *)
Definition replay_signature : list Z := bytes_of_str "StarCraft II replay" ++ [27; 49; 49].
(** Model of src/protocol_version_decoder.rs:51-58 [read_protocol_header]: the
    signature and the base build. *)
Definition read_protocol_header (m : build) (a : archive) : outcome (list Z * Z) :=
  match ar_user a with
  | None => Panic
  | Some l =>
      do (r, v) <- vparse m ba_ReplaySHeader l;
      do s <- get to_bytes "m_signature" v;
      do b <- get (get to_int "m_base_build") "m_version" v;
      Ok (s, b)
  end.
Fixpoint bytes_eqb (a b : list Z) : bool :=
  match a, b with [], [] => true | x :: a', y :: b' => (x =? y) && bytes_eqb a' b' | _, _ => false end.
(** The beginning of every reader, e.g. src/versions/mod.rs:20-26: the header and
    the [assert_eq!] on its signature; the base build. *)
Definition checked_header (m : build) (a : archive) : outcome Z :=
  do (s, b) <- read_protocol_header m a;
  if bytes_eqb s replay_signature then Ok b else Panic.
(** Model of src/versions/mod.rs:15-43 and the extraction of the sector
    (src/versions/protocol87702/events/tracker/mod.rs:32-33). *)
Definition file_tracker_events (m : build) (a : archive) : outcome (list (Z * tracker_event)) :=
  do b <- checked_header m a;
  do s <- ar_sector a "replay.tracker.events";
  read_tracker_events m (dispatch_tracker b) s.
(** Model of src/versions/mod.rs:46-65. *)
Definition file_game_events (m : build) (a : archive) : outcome (list (Z * (Z * game_event))) :=
  do b <- checked_header m a;
  do s <- ar_sector a "replay.game.events";
  read_game_events m (dispatch_game b) s.
(** Model of src/versions/mod.rs:68-87. *)
Definition file_message_events (m : build) (a : archive) : outcome (list (Z * (Z * chat_message))) :=
  do b <- checked_header m a;
  do s <- ar_sector a "replay.message.events";
  read_message_events m (dispatch_message b) s.
(** Model of src/versions/mod.rs:90-108 and src/details.rs:263-280
    [Details::new]; both protocols read the details alike (DetailsData.v). *)
Definition file_details (m : build) (fs_id : Z) (a : archive) : outcome full_details :=
  do b <- checked_header m a;
  do s <- ar_sector a "replay.details";
  match dispatch_details b with P75689 | P87702 => details_new m fs_id s end.
(** Model of src/init_data/mod.rs:61-64 [with_version]. *)
Definition set_version (b : Z) (d : full_init) : full_init :=
  mk_full_init (xi_fs_id d) (xi_sha256 d) (xi_file_name d) b (xi_sync d).
(** Model of src/versions/mod.rs:112-133 and src/init_data/mod.rs:41-50
    [InitData::new]. *)
Definition file_init (m : build) (name : string) (fs_id : Z) (a : archive) : outcome full_init :=
  do b <- checked_header m a;
  do s <- ar_sector a "replay.initData";
  do d <- match dispatch_init b with P75689 | P87702 => init_new m name fs_id (ar_sha a) s end;
  Ok (set_version b d).

(** ** By path: src/init_data/mod.rs, src/details.rs, src/state/mod.rs *)
(** A path as the operating system takes it. *)
Fixpoint path_string (p : path) : string :=
  match p with [] => "" | [n] => n | n :: p' => n ++ "/" ++ path_string p' end%string.
(** [Path::to_str]: the path if it is text. *)
Definition path_text (p : path) : option string :=
  match from_utf8 (bytes_of_str (path_string p)) with Ok s => Some s | _ => None end.
(** Model of src/init_data/mod.rs:67-85 [TryFrom<(PathBuf, u64)> for InitData]. *)
Definition init_try_from (m : build) (w : world) (p : path) (fs_id : Z) : outcome full_init :=
  do a <- open_file w (path_string p);
  file_init m match path_text p with Some s => s | None => "" end fs_id a.
(** Model of src/details.rs:305-319 [TryFrom<&InitData> for Details]. *)
Definition details_try_from (m : build) (w : world) (d : full_init) : outcome full_details :=
  do a <- open_file w (xi_file_name d);
  file_details m (xi_fs_id d) a.
(** Model of src/details.rs:184-237 [TryFrom<&InitData> for Vec<PlayerLobbyDetails>]. *)
Definition lobby_try_from (m : build) (w : world) (d : full_init) : outcome (list lobby_details) :=
  do x <- details_try_from m w d;
  lobby_details_of (joined_init d) (joined_details x).
(** Model of src/state/mod.rs:245-263 and 265-273. *)
Definition state_try_from (m : build) (w : world) (d : full_init) (b : balance) : outcome state :=
  do x <- details_try_from m w d;
  do players <- lobby_try_from m w d;
  Ok (mk_state [] (initial_users players) b).
(** The balance data of all versions: a [HashMap<(u32, String), _>]. *)
Definition all_balance : Type := list ((Z * string) * bal_unit).
(** Model of src/state/mod.rs:345-354. *)
Definition balance_of_version (v : Z) (all : all_balance) : balance :=
  flat_map (fun x : (Z * string) * bal_unit => let '((v', n), u) := x in if v' =? v then [(n, u)] else []) all.
(** Model of src/state/mod.rs:332-368 [SC2EventIterator::new]. *)
Definition iterator_new (m : build) (w : world) (d : full_init) (all : all_balance) : outcome merged :=
  do a <- open_file w (xi_file_name d);
  do t <- ar_sector a "replay.tracker.events";
  do g <- ar_sector a "replay.game.events";
  do st <- state_try_from m w d (balance_of_version (xi_version d) all);
  Ok (merge_start st t g None).
(** The decoder both iterators choose for each event, by [InitData::version]
    (src/tracker_events/iterator.rs:39, src/game_events/iterator.rs:45; the same
    one, C50). *)
Definition iterator_proto (d : full_init) : proto := dispatch_tracker_iterator (xi_version d).

(** ** Choosing the replays: src/arrow_store/mod.rs:402-476 *)
(** Model of src/arrow_store/mod.rs:26-37 [WriteArrowIpcProps]. *)
Record ipc_props := mk_props { ip_scan_max : Z; ip_process_max : Z; ip_depth : nat; ip_min : option Z; ip_max : option Z }.
(** [iter().enumerate().filter_map(|(i, s)| f(s, i).ok())], from index [i] on:
    errors are dropped, a panic is not.  The parallel form keeps the order. *)
Fixpoint readable_from {A B} (f : A -> Z -> outcome B) (i : Z) (l : list A) : outcome (list B) :=
  match l with
  | [] => Ok []
  | x :: l' =>
      match f x i with
      | Panic => Panic
      | Err _ => readable_from f (i + 1) l'
      | Ok b => do bs <- readable_from f (i + 1) l'; Ok (b :: bs)
      end
  end.
(** The closure of src/arrow_store/mod.rs:449-461. *)
Definition version_wanted (c : ipc_props) (d : full_init) : bool :=
  negb (match ip_min c with Some v => xi_version d <? v | None => false end) &&
  negb (match ip_max c with Some v => v <? xi_version d | None => false end).
(** Model of src/arrow_store/mod.rs:424-471: the sources to export.  The tree of
    Files.v and the world describe the same file system. *)
Definition choose_sources (m : build) (t : tree) (w : world) (source : path) (c : ipc_props) : outcome (list full_init) :=
  do files <- get_matching_files m t (ip_depth c) source (ip_scan_max c);
  do inits <- readable_from (init_try_from m w) 0 files;
  match firstn (Z.to_nat (ip_process_max c)) (filter (version_wanted c) inits) with
  | [] => Panic
  | l => Ok l
  end.

(** ** Writing the tables: src/arrow_store/mod.rs:145-400, ipc_writer.rs *)
(** An Arrow file: its batches, and whether its end was written.  The encoding of
    rows and the writing of batches (external) do not fail. *)
Inductive content :=
| CDetails (rows : list (list lobby_row))
| CStats (rows : list (list stats_row))
| CUpgrades (rows : list (list upgrade_row))
| CBorn (rows : list (list born_row))
| CDied (rows : list (list died_row))
| CPoints (rows : list (list point_row))
| CTargets (rows : list (list target_row)).
Record arrow_file := mk_arrow { af_name : string; af_content : content; af_finished : bool }.

(** The serial loop of src/arrow_store/mod.rs:213-243 and 291-318: one batch for
    every source that can be opened and has rows (ipc_writer.rs:47-49), in order;
    what had been written when a panic stops the loop is kept. *)
Section Batches.
  Context {A : Type}.
  Variable rows_of : full_init -> outcome (option (list A)).
  Fixpoint batches (l : list full_init) : outcome unit * list (list A) :=
    match l with
    | [] => (Ok tt, [])
    | d :: l' =>
        match rows_of d with
        | Panic => (Panic, [])
        | Err e => (Err e, [])
        | Ok None | Ok (Some []) => batches l'
        | Ok (Some b) => let (o, bs) := batches l' in (o, b :: bs)
        end
    end.
End Batches.
(** The closure: [SC2EventIterator::new(..).ok()?], then the rows.  The rows
    carry the file id of the replay. *)
Definition source_rows {A} (mc : machine) (w : world) (all : all_balance) (rows : Z -> item -> list A) (d : full_init) : outcome (option (list A)) :=
  match iterator_new (mc_build mc) w d all with
  | Err _ => Ok None
  | Panic => Panic
  | Ok it => do l <- table mc (iterator_proto d) (rows (xi_fs_id d)) it; Ok (Some l)
  end.
(** Model of the closure of src/arrow_store/mod.rs:377-390 and the conversion to
    rows. *)
Definition details_rows (m : build) (w : world) (d : full_init) : outcome (list lobby_row) :=
  match lobby_try_from m w d with
  | Err _ => Ok []
  | Panic => Panic
  | Ok l => map_out lobby_row_of l
  end.
(** Model of src/arrow_store/mod.rs:367-400 [handle_details_ipc_cmd]: all rows in
    one batch, written at the end. *)
Definition all_details_rows (m : build) (w : world) (l : list full_init) : outcome (list lobby_row) :=
  do ls <- map_out (details_rows m w) l; Ok (concat ls).

(** The seven files of a snapshot. *)
Inductive table_name := TDetails | TStats | TUpgrades | TBorn | TDied | TPoints | TTargets.
Definition all_tables : list table_name := [TDetails; TStats; TUpgrades; TBorn; TDied; TPoints; TTargets].
Definition table_file (n : table_name) : string :=
  match n with
  | TDetails => "details.arrow" | TStats => "stats.arrow" | TUpgrades => "upgrades.arrow" | TBorn => "unit_born.arrow"
  | TDied => "unit_died.arrow" | TPoints => "cmd_target_point.arrow" | TTargets => "cmd_target_unit.arrow"
  end.
Definition file_of {A} (name : string) (c : list (list A) -> content) (r : outcome unit * list (list A)) : outcome unit * list arrow_file :=
  (fst r, [mk_arrow name (c (snd r)) (match fst r with Ok _ => true | _ => false end)]).
(** Model of src/arrow_store/mod.rs:201-275 [handle_tracker_events], 280-326
    [handle_game_events] and 367-400; [ok] says whether the file can be created,
    [order] is the order in which the sources reach the lock of the writer: the
    given one in a serial run. *)
Definition write_table (mc : machine) (w : world) (all : all_balance) (ok : string -> bool) (order : table_name -> list full_init -> list full_init)
  (sources : list full_init) (n : table_name) : outcome unit * list arrow_file :=
  let name := table_file n in
  let run A (c : list (list A) -> content) (rows : Z -> item -> list A) :=
    if ok name then file_of name c (batches (source_rows mc w all rows) (order n sources)) else (Err (EOther "io"), []) in
  match n with
  | TDetails =>
      match all_details_rows (mc_build mc) w sources with
      | Ok rows => if ok name then (Ok tt, [mk_arrow name (CDetails [rows]) true]) else (Err (EOther "io"), [])
      | Err e => (Err e, [])
      | Panic => (Panic, [])
      end
  | TStats => run _ CStats stats_of_item
  | TUpgrades => run _ CUpgrades upgrades_of_item
  | TBorn => run _ CBorn born_of_item
  | TDied => run _ CDied died_of_item
  | TPoints => run _ CPoints points_of_item
  | TTargets => run _ CTargets targets_of_item
  end.
Fixpoint write_tables (write : table_name -> outcome unit * list arrow_file) (l : list table_name) : outcome unit * list arrow_file :=
  match l with
  | [] => (Ok tt, [])
  | n :: l' =>
      let (o, fs) := write n in
      match o with
      | Ok _ => let (o', fs') := write_tables write l' in (o', fs ++ fs')
      | _ => (o, fs)
      end
  end.
(** Model of src/arrow_store/mod.rs:145-195 [handle_write_snapshot]: how it ends,
    and the files written by then; [dir]: the output is a directory. *)
Definition write_snapshot (mc : machine) (w : world) (all : all_balance) (dir : bool) (ok : string -> bool)
  (order : table_name -> list full_init -> list full_init) (sources : list full_init) : outcome unit * list arrow_file :=
  if dir then write_tables (write_table mc w all ok order sources) all_tables else (Panic, []).
(** Model of src/arrow_store/mod.rs:404-476 [handle_arrow_ipc_cmd]. *)
Definition export_replays (mc : machine) (t : tree) (w : world) (all : all_balance) (dir : bool) (ok : string -> bool)
  (order : table_name -> list full_init -> list full_init) (source : path) (c : ipc_props) : outcome unit * list arrow_file :=
  match choose_sources (mc_build mc) t w source c with
  | Ok sources => write_snapshot mc w all dir ok order sources
  | Err e => (Err e, [])
  | Panic => (Panic, [])
  end.

(** ** Directory statistics: src/dir_stats.rs *)
(** Model of src/dir_stats.rs:105-123 [try_read_init_data]. *)
Definition try_read_init_data (m : build) (w : world) (p : path) (i : Z) : outcome full_init :=
  do a <- open_file w (path_string p);
  match path_text p with
  | Some name => file_init m name i a
  | None => Panic
  end.
(** [*freq.entry(k).or_insert(0) += 1] on a [HashMap<String, usize>]. *)
Fixpoint count_up (k : string) (l : list (string * Z)) : list (string * Z) :=
  match l with
  | [] => [(k, 1)]
  | (k', n) :: l' => if String.eqb k' k then (k', n + 1) :: l' else (k', n) :: count_up k l'
  end.
(** [sort_by_key(|b| Reverse(b.1))], which is stable. *)
Fixpoint insert_down (x : string * Z) (l : list (string * Z)) : list (string * Z) :=
  match l with
  | [] => [x]
  | y :: l' => if snd y <=? snd x then x :: l else y :: insert_down x l'
  end.
Fixpoint sort_down (l : list (string * Z)) : list (string * Z) :=
  match l with [] => [] | x :: l' => insert_down x (sort_down l') end.
(** Model of src/dir_stats.rs:14-25 [SC2ReplaysDirStats]. *)
Record dir_stats := mk_dir_stats { ds_total : Z; ds_supported : Z; ds_ability : Z; ds_players : list (string * Z); ds_maps : list (string * Z) }.
(** The loop of src/dir_stats.rs:78-93. *)
Fixpoint stats_loop (m : build) (w : world) (versions : list Z) (l : list full_init) (ability : Z) (users maps : list (string * Z)) : outcome (Z * list (string * Z) * list (string * Z)) :=
  match l with
  | [] => Ok (ability, users, maps)
  | d :: l' =>
      let ability := if existsb (Z.eqb (xi_version d)) versions then ability + 1 else ability in
      match details_try_from m w d with
      | Panic => Panic
      | Err _ => stats_loop m w versions l' ability users maps
      | Ok x =>
          stats_loop m w versions l' ability
            (fold_left (fun f u => count_up u f) (get_player_names (joined_details x)) users)
            (count_up (xd_title x) maps)
      end
  end.
(** Model of src/dir_stats.rs:39-103 [scan_path]; [order] is the order in which a
    hash map is walked.  The counters do not overflow: fewer than 2^64 names fit
    in memory. *)
Definition scan_path (m : build) (t : tree) (w : world) (all : all_balance) (order : list (string * Z) -> list (string * Z)) (p : path) : outcome dir_stats :=
  do files <- get_matching_files m t 10 p 1000000;
  do inits <- readable_from (try_read_init_data m w) 0 files;
  do (x, maps) <- stats_loop m w (map (fun e => fst (fst e)) all) inits 0 [] [];
  let (ability, users) := x in
  Ok (mk_dir_stats (Z.of_nat (length files)) (Z.of_nat (length inits)) ability
        (firstn 10 (sort_down (order users))) (firstn 10 (sort_down (order maps)))).
