(** * What the files of an export hold, in terms of the events of the replays *)
From Verif Require Import Base Types Dispatch Events Iterators StreamSpec IteratorStreams Balance Lobby DetailsData State StateSpec Merge MergeSpec ConvertSpec Rows RowSpec Files Archive ArchiveSpec.
#[local] Open Scope Z_scope.
#[local] Open Scope list_scope.

(** The rows that a table of tracker events has for these events. *)
Definition of_tracker {A} (f : list (Z * tracker_event) -> Z * tracker_event -> list A) (tevs : list (Z * val)) (l : list A) : Prop :=
  exists ts, tracker_events_of tevs ts /\ l = rows_from f [] ts.
(** The rows that a table of commands has for these events. *)
Definition of_commands {A} (mc : machine) (f : state * sc2_event -> list A) (st : state) (tevs : list (Z * val)) (gevs : list (Z * (Z * val))) (l : list A) : Prop :=
  exists ts gs evs, tracker_events_of tevs ts /\ Forall2 (delivered_as (player_names st)) (filter supported_game (at_loops 0 gevs)) gs /\
    interleaving (map tracker_item ts) (map game_item_event gs) evs /\ l = flat_map f (states_before mc st evs).
(** What a file of batches holds for the sources: for every source that can be
    opened its rows as one batch, unless it has none; and nothing else. *)
Definition batches_hold {A} (mc : machine) (w : world) (all : all_balance) (sources : list full_init) (spec : full_init -> state -> list (Z * val) -> list (Z * (Z * val)) -> list A -> Prop)
    (batches : list (list A)) : Prop :=
  (forall b, In b batches -> b <> [] /\ exists d st t g, In d sources /\ opens (mc_build mc) w all d st t g /\
     forall tevs gevs, sectors_of mc (iterator_proto d) tevs t gevs g -> spec d st tevs gevs b) /\
  forall d st t g tevs gevs, In d sources -> opens (mc_build mc) w all d st t g -> sectors_of mc (iterator_proto d) tevs t gevs g ->
    exists l, spec d st tevs gevs l /\ (l = [] \/ In l batches).

(** The rows of each table: C77-C81. *)
Definition upgrades_in (d : full_init) (st : state) (tevs : list (Z * val)) (gevs : list (Z * (Z * val))) : list upgrade_row -> Prop := of_tracker (upgrade_spec (xi_fs_id d)) tevs.
Definition died_in (b : build) (d : full_init) (st : state) (tevs : list (Z * val)) (gevs : list (Z * (Z * val))) : list died_row -> Prop := of_tracker (died_spec b st (xi_fs_id d)) tevs.
Definition born_in (b : build) (d : full_init) (st : state) (tevs : list (Z * val)) (gevs : list (Z * (Z * val))) : list born_row -> Prop := of_tracker (born_spec b st (xi_fs_id d)) tevs.
Definition points_in (mc : machine) (d : full_init) (st : state) (tevs : list (Z * val)) (gevs : list (Z * (Z * val))) : list point_row -> Prop := of_commands mc (point_spec (xi_fs_id d)) st tevs gevs.
Definition targets_in (mc : machine) (d : full_init) (st : state) (tevs : list (Z * val)) (gevs : list (Z * (Z * val))) : list target_row -> Prop := of_commands mc (target_spec (xi_fs_id d)) st tevs gevs.
