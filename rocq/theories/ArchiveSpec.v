(** * What is said of replay files *)
From Coq Require Import Sorted Permutation.
From Verif Require Import Base Types Utf8 Versioned ByteTypes ConvertSpec BitInterp BitTypes Events Balance Lobby DetailsData DetailsSpec State Merge MergeSpec Rows Files Archive.
#[local] Open Scope string_scope.
#[local] Open Scope Z_scope.
#[local] Open Scope list_scope.

(** ** Headers *)
(** The text "StarCraft II replay", an escape character, "11". *)
Definition signature_text : list Z := [83; 116; 97; 114; 67; 114; 97; 102; 116; 32; 73; 73; 32; 114; 101; 112; 108; 97; 121; 27; 49; 49].
(** The user data of [a] is a header with this signature and base build. *)
Definition header_of (m : build) (a : archive) (signature : list Z) (b : Z) : Prop :=
  exists l r v, ar_user a = Some l /\ vparse m ba_ReplaySHeader l = Ok (r, v) /\
    shows "m_signature" is_bytes v signature /\ shows "m_version" (shows "m_base_build" is_int) v b.
(** Why reading a header panics. *)
Definition header_panics (m : build) (a : archive) : Prop :=
  ar_user a = None \/ (exists l, ar_user a = Some l /\ vparse m ba_ReplaySHeader l = Panic) \/
  exists signature b, header_of m a signature b /\ signature <> signature_text.
(** Files consist of bytes. *)
Definition archive_bytes (a : archive) : Prop :=
  (forall l, ar_user a = Some l -> bytes_ok l) /\ (forall n l, ar_sector a n = Ok l -> bytes_ok l).
Definition world_bytes (w : world) : Prop := forall n a, w n = Ok a -> archive_bytes a.
(** The file [a] says what is in [d]. *)
Definition says_init (m : build) (a : archive) (d : full_init) : Prop :=
  header_of m a signature_text (xi_version d) /\ ar_sha a = xi_sha256 d /\
  exists l c v, ar_sector a "replay.initData" = Ok l /\ bparse m bp_ReplaySInitData (l, 0%nat) = Ok (c, v) /\ init_shown v d.

(** ** Selection *)
Definition version_between (low high : option Z) (v : Z) : Prop :=
  (forall x, low = Some x -> x <= v) /\ (forall x, high = Some x -> v <= x).
(** The file number [i] of [files] is a readable replay of a wanted version. *)
Definition candidate (m : build) (w : world) (c : ipc_props) (files : list path) (i : nat) (d : full_init) : Prop :=
  exists p, nth_error files i = Some p /\ init_try_from m w p (Z.of_nat i) = Ok d /\ version_between (ip_min c) (ip_max c) (xi_version d).

(** ** Statistics *)
Fixpoint occurrences (n : string) (l : list string) : Z :=
  match l with [] => 0 | x :: l' => (if String.eqb x n then 1 else 0) + occurrences n l' end.
(** [top] lists the [k] most frequent of [names] with their frequencies. *)
Definition most_frequent (k : nat) (names : list string) (top : list (string * Z)) : Prop :=
  NoDup (map fst top) /\
  Forall (fun x => In (fst x) names /\ snd x = occurrences (fst x) names) top /\
  StronglySorted (fun x y => snd y <= snd x) top /\
  (length top <= k)%nat /\
  forall n, In n names -> In n (map fst top) \/ (length top = k /\ Forall (fun x => occurrences n names <= snd x) top).
(** Those who are not observers. *)
Definition playing (d : full_details) : list string := map pd_name (filter (fun p => pd_observe p =? 0) (xd_player_list d)).

(** ** Exports *)
(** The file of [d] can be opened for its events: both event sectors, the details
    and the join with the lobby can be read; [st] is the state it starts from. *)
Definition opens (m : build) (w : world) (all : all_balance) (d : full_init) (st : state) (t g : list Z) : Prop :=
  exists a x, xi_file_name d <> "" /\ w (xi_file_name d) = Ok a /\
    ar_sector a "replay.tracker.events" = Ok t /\ ar_sector a "replay.game.events" = Ok g /\
    file_details m (xi_fs_id d) a = Ok x /\
    initial_state (joined_init d) (joined_details x) (balance_of_version (xi_version d) all) = Ok st.
(** The rows of one source: those of its table (C76-C81) with its file id, none
    if it cannot be opened. *)
Definition source_table {A} (mc : machine) (w : world) (all : all_balance) (rows : Z -> item -> list A) (d : full_init) (l : list A) : Prop :=
  (exists st t g, opens (mc_build mc) w all d st t g /\ table mc (iterator_proto d) (rows (xi_fs_id d)) (merge_start st t g None) = Ok l) \/
  ((forall st t g, ~ opens (mc_build mc) w all d st t g) /\ l = []).
(** The lobby rows of one source (C82), none if its details cannot be read. *)
Definition source_lobby (m : build) (w : world) (d : full_init) (l : list lobby_row) : Prop :=
  (exists a x ps, xi_file_name d <> "" /\ w (xi_file_name d) = Ok a /\ file_details m (xi_fs_id d) a = Ok x /\
     lobby_details_of (joined_init d) (joined_details x) = Ok ps /\ Forall2 (fun p r => lobby_row_of p = Ok r) ps l) \/
  ((xi_file_name d = "" \/ (exists e, w (xi_file_name d) = Err e) \/ exists a e, w (xi_file_name d) = Ok a /\ file_details m (xi_fs_id d) a = Err e) /\ l = []).
Definition has_rows {A} (l : list A) : bool := match l with [] => false | _ => true end.
(** What the file of a table holds for these sources: a batch for every source
    with rows, in order; the lobby rows of all sources in one batch. *)
Inductive content_of (mc : machine) (w : world) (all : all_balance) (sources : list full_init) : table_name -> content -> Prop :=
| of_details : forall per, Forall2 (source_lobby (mc_build mc) w) sources per -> content_of mc w all sources TDetails (CDetails [concat per])
| of_stats : forall per, Forall2 (source_table mc w all stats_of_item) sources per -> content_of mc w all sources TStats (CStats (filter has_rows per))
| of_upgrades : forall per, Forall2 (source_table mc w all upgrades_of_item) sources per -> content_of mc w all sources TUpgrades (CUpgrades (filter has_rows per))
| of_born : forall per, Forall2 (source_table mc w all born_of_item) sources per -> content_of mc w all sources TBorn (CBorn (filter has_rows per))
| of_died : forall per, Forall2 (source_table mc w all died_of_item) sources per -> content_of mc w all sources TDied (CDied (filter has_rows per))
| of_points : forall per, Forall2 (source_table mc w all points_of_item) sources per -> content_of mc w all sources TPoints (CPoints (filter has_rows per))
| of_targets : forall per, Forall2 (source_table mc w all targets_of_item) sources per -> content_of mc w all sources TTargets (CTargets (filter has_rows per)).
(** The same batches, in another order. *)
Inductive same_batches : content -> content -> Prop :=
| same_details : forall l l', Permutation l l' -> same_batches (CDetails l) (CDetails l')
| same_stats : forall l l', Permutation l l' -> same_batches (CStats l) (CStats l')
| same_upgrades : forall l l', Permutation l l' -> same_batches (CUpgrades l) (CUpgrades l')
| same_born : forall l l', Permutation l l' -> same_batches (CBorn l) (CBorn l')
| same_died : forall l l', Permutation l l' -> same_batches (CDied l) (CDied l')
| same_points : forall l l', Permutation l l' -> same_batches (CPoints l) (CPoints l')
| same_targets : forall l l', Permutation l l' -> same_batches (CTargets l) (CTargets l').
(** The names of the files of a snapshot. *)
Definition snapshot_name (n : table_name) : string :=
  match n with
  | TDetails => "details.arrow" | TStats => "stats.arrow" | TUpgrades => "upgrades.arrow" | TBorn => "unit_born.arrow"
  | TDied => "unit_died.arrow" | TPoints => "cmd_target_point.arrow" | TTargets => "cmd_target_unit.arrow"
  end.
Definition snapshot_tables : list table_name := [TDetails; TStats; TUpgrades; TBorn; TDied; TPoints; TTargets].
(** A run in which the sources reach the writer in any order. *)
Definition any_order (order : table_name -> list full_init -> list full_init) : Prop := forall n l, Permutation l (order n l).
(** ** Directories *)
(** The readable replays among the files, in order; the file id is the position. *)
Fixpoint readable_replays (m : build) (w : world) (i : Z) (files : list path) : list full_init :=
  match files with
  | [] => []
  | p :: files' => match init_try_from m w p i with Ok d => d :: readable_replays m w (i + 1) files' | _ => readable_replays m w (i + 1) files' end
  end.
(** The details that can be read. *)
Fixpoint readable_details (m : build) (w : world) (l : list full_init) : list full_details :=
  match l with
  | [] => []
  | d :: l' => match details_try_from m w d with Ok x => x :: readable_details m w l' | _ => readable_details m w l' end
  end.
(** There is balance data of version [v]. *)
Definition has_balance (all : all_balance) (v : Z) : bool := existsb (fun e => fst (fst e) =? v) all.
(** Why counting the file [p] panics: the file, its name, its header, or the
    content of its initial data or details. *)
Definition scan_panics (m : build) (w : world) (p : path) : Prop :=
  path_string p <> "" /\
  (w (path_string p) = Panic \/
   exists a, w (path_string p) = Ok a /\
     (~ is_utf8 (bytes_of_str (path_string p)) \/ header_panics m a \/
      (exists b, header_of m a signature_text b) /\ ar_sector a "replay.initData" = Panic \/
      (exists d, says_init m a d /\ file_init m (path_string p) (xi_fs_id d) a = Ok d) /\
      (ar_sector a "replay.details" = Panic \/ exists l, ar_sector a "replay.details" = Ok l /\ vparse m ba_GameSDetails l = Panic))).
(** The entry of unit [n] in version [v]. *)
Fixpoint find_balance (v : Z) (n : string) (all : all_balance) : option bal_unit :=
  match all with [] => None | ((v', n'), u) :: all' => if (v' =? v) && String.eqb n' n then Some u else find_balance v n all' end.
(** A way to walk a hash map. *)
Definition walks (order : list (string * Z) -> list (string * Z)) : Prop := forall l, Permutation l (order l).
