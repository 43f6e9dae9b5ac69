(** * C128: tables of replays with a damaged sector *)
From Verif Require Import Base Types Utf8 F32 F32Facts BitSpec BitPacked BitProofs BitInterp BitFormat BitEncode BitFacts Versioned VersionedSpec VersionedEncode ByteTypes BitTypes Dispatch Events Tags Maps Lobby Balance
  ConvertSpec ConvertFacts ConvertTracker Stream StreamFacts Iterators StreamSpec SectorEncode IteratorFacts IteratorStreams State StateSpec StateExample Convert PropsConvert PropsIterators
  Merge MergeSpec MergeFacts MergeStreams MergeProofs PropsMerge DetailsData Rows RowSpec RowFacts RowLife RowCommands PropsRows DamagedTables DamagedBuilds.
#[local] Open Scope string_scope.
#[local] Open Scope Z_scope.
#[local] Open Scope list_scope.

(** False: a game sector whose only event selects in group 11 stops the program,
    and no table of the tracker events is written; with any readable one there
    are four rows in that of the births. *)
Definition d_gevs : list (Z * (Z * val)) := [(3, (0, game_value (GSelectionDelta (mk_selection 11 0 SMNone [] [unit_tag 7 1]))))].
Definition d_g : list Z := Eval vm_compute in g_sector d_gevs.
Theorem C128_damage_refuted : exists mc p fs init d b st tevs t g g' res, starts init d b st /\ bytes_ok t /\ bytes_ok g /\ bytes_ok g' /\
  tracker_sector tevs t /\ Forall (fun ev => well_named (snd ev)) tevs /\
  table mc p (born_of_item fs) (merge_start st t g None) = Ok res /\ length res = 4%nat /\
  table mc p (born_of_item fs) (merge_start st t g' None) = Panic.
Proof.
  exists ex_mc, P87702, 5, ex_init, ex_details, ex_balance, ex_start, r_tevs, r_t, r_g, d_g. eexists.
  split; [exact ex_starts|]. destruct r_sectors as (Ht & Hg & St & Wt & _). split; [exact Ht|]. split; [exact Hg|].
  split; [apply byte_list_ok; vm_compute; reflexivity|]. split; [exact St|]. split; [exact Wt|]. split; [vm_compute; reflexivity|]. split; [reflexivity|].
  vm_compute. reflexivity.
Qed.
Print Assumptions C128_damage_refuted.

(** A readable tracker sector, any bytes in the place of the game sector: every
    table is that of a run over all the tracker events and the game events that
    the iterator of the game events delivers ... *)
Theorem C128_tracker_whole : forall mc p init d b st tevs t g A (rows : item -> list A), starts init d b st -> bytes_ok t -> bytes_ok g ->
  tracker_sector tevs t -> Forall (fun ev => well_named (snd ev)) tevs -> exists ts gs evs,
  tracker_events_of tevs ts /\
  (forall n, game_calls (mc_build mc) p (player_names st) n (game_start g) = Ok (firstn n (map Some gs ++ repeat None n))) /\
  interleaving (map tracker_item ts) (map game_item_event gs) evs /\
  table mc p rows (merge_start st t g None) = (do its <- items_of (run mc st evs); Ok (flat_map rows its)).
Proof. exact whole_tracker. Qed.
Print Assumptions C128_tracker_whole.

(** ... so that if the program ends, the four tables of tracker events hold the
    rows of C76 to C79 ... *)
Theorem C128_tracker_rows_partial : forall mc p fs init d b st tevs t g, starts init d b st -> bytes_ok t -> bytes_ok g ->
  tracker_sector tevs t -> Forall (fun ev => well_named (snd ev)) tevs -> exists ts, tracker_events_of tevs ts /\
  (forall res, table mc p (stats_of_item fs) (merge_start st t g None) = Ok res ->
     Forall2 (stats_spec fs) (filter (fun ev => String.eqb (variant (snd ev)) "EPlayerStats") (at_loops 0 tevs)) res) /\
  (forall res, table mc p (upgrades_of_item fs) (merge_start st t g None) = Ok res -> res = rows_from (upgrade_spec fs) [] ts) /\
  (forall res, table mc p (died_of_item fs) (merge_start st t g None) = Ok res -> res = rows_from (died_spec (mc_build mc) st fs) [] ts) /\
  (forall res, table mc p (born_of_item fs) (merge_start st t g None) = Ok res -> res = rows_from (born_spec (mc_build mc) st fs) [] ts).
Proof. exact whole_tables. Qed.
Print Assumptions C128_tracker_rows_partial.
(** ... the same whatever the game sector is. *)
Theorem C128_same_partial : forall mc p fs init d b st tevs t g g', starts init d b st -> bytes_ok t -> bytes_ok g -> bytes_ok g' ->
  tracker_sector tevs t -> Forall (fun ev => well_named (snd ev)) tevs ->
  (forall r r', table mc p (stats_of_item fs) (merge_start st t g None) = Ok r -> table mc p (stats_of_item fs) (merge_start st t g' None) = Ok r' -> r = r') /\
  (forall r r', table mc p (upgrades_of_item fs) (merge_start st t g None) = Ok r -> table mc p (upgrades_of_item fs) (merge_start st t g' None) = Ok r' -> r = r') /\
  (forall r r', table mc p (died_of_item fs) (merge_start st t g None) = Ok r -> table mc p (died_of_item fs) (merge_start st t g' None) = Ok r' -> r = r') /\
  (forall r r', table mc p (born_of_item fs) (merge_start st t g None) = Ok r -> table mc p (born_of_item fs) (merge_start st t g' None) = Ok r' -> r = r').
Proof. exact same_tables. Qed.
Print Assumptions C128_same_partial.
(** A game sector cut in the middle of its second event: the four tables remain. *)
Definition cut_g : list Z := Eval vm_compute in firstn 20 r_g.
Example C128_example : starts ex_init ex_details ex_balance ex_start /\ bytes_ok r_t /\ bytes_ok cut_g /\ tracker_sector r_tevs r_t /\
  Forall (fun ev => well_named (snd ev)) r_tevs /\
  table ex_mc P87702 (born_of_item 5) (merge_start ex_start r_t cut_g None) = table ex_mc P87702 (born_of_item 5) r_iter /\
  table ex_mc P87702 (died_of_item 5) (merge_start ex_start r_t cut_g None) = Ok [mk_died_row "SCV" 7 1 (Some 2) 10 20 "Cocoon" (Some 8) (Some 1) 20 1 5] /\
  table ex_mc P87702 (upgrades_of_item 5) (merge_start ex_start r_t cut_g None) = Ok [mk_upgrade_row 1 "Stimpack" 1 5 0 5] /\
  length (rows_of (table ex_mc P87702 (points_of_item 5) (merge_start ex_start r_t cut_g None))) = 0%nat.
Proof.
  split; [exact ex_starts|]. destruct r_sectors as (Ht & Hg & St & Wt & _). split; [exact Ht|].
  split; [apply byte_list_ok; vm_compute; reflexivity|]. split; [exact St|]. split; [exact Wt|].
  split; [vm_compute; reflexivity|]. split; [vm_compute; reflexivity|]. split; vm_compute; reflexivity.
Qed.

(** Any bytes in the place of both sectors, and a release build or no nine bytes
    in a row with the continuation bit in that of the tracker: a table is that
    of a run over all the game events there are and the tracker events answered
    before one is missing with no game event left. *)
Theorem C128_any_sectors : forall mc p init d b st t g A (rows : item -> list A), starts init d b st -> bytes_ok t -> bytes_ok g -> mc_build mc = Wrapping \/ no_run 9 t -> exists k ta gs evs,
  tracker_calls (mc_build mc) p (S k) (tracker_start t) = Ok (ta ++ [None]) /\
  (forall n, game_calls (mc_build mc) p (player_names st) n (game_start g) = Ok (firstn n (map Some gs ++ repeat None n))) /\
  interleaving (map tracker_item (present ta)) (map game_item_event gs) evs /\
  table mc p rows (merge_start st t g None) = (do its <- items_of (run mc st evs); Ok (flat_map rows its)).
Proof. exact any_sectors. Qed.
Print Assumptions C128_any_sectors.
(** A readable game sector, any bytes in the place of the tracker sector: the
    commands of all the game events are there. *)
Theorem C128_commands : forall mc p fs init d b st t gevs g, starts init d b st -> bytes_ok t -> bytes_ok g -> mc_build mc = Wrapping \/ no_run 9 t ->
  user_sector (crate (mc_build mc)) (game_type p) gevs (stream (g, 0%nat)) -> exists k ta gs evs,
  tracker_calls (mc_build mc) p (S k) (tracker_start t) = Ok (ta ++ [None]) /\
  Forall2 (delivered_as (player_names st)) (filter supported_game (at_loops 0 gevs)) gs /\
  interleaving (map tracker_item (present ta)) (map game_item_event gs) evs /\
  (forall res, table mc p (points_of_item fs) (merge_start st t g None) = Ok res -> res = flat_map (point_spec fs) (states_before mc st evs)) /\
  (forall res, table mc p (targets_of_item fs) (merge_start st t g None) = Ok res -> res = flat_map (target_spec fs) (states_before mc st evs)).
Proof. exact whole_commands. Qed.
Print Assumptions C128_commands.
(** In a build with overflow checks too, if the program ends. *)
Theorem C128_commands_any_build : forall mc p fs init d b st t gevs g, starts init d b st -> bytes_ok t -> bytes_ok g ->
  user_sector (crate Wrapping) (game_type p) gevs (stream (g, 0%nat)) -> exists k ta gs evs,
  tracker_calls Wrapping p (S k) (tracker_start t) = Ok (ta ++ [None]) /\
  Forall2 (delivered_as (player_names st)) (filter supported_game (at_loops 0 gevs)) gs /\
  interleaving (map tracker_item (present ta)) (map game_item_event gs) evs /\
  (forall res, table mc p (points_of_item fs) (merge_start st t g None) = Ok res -> res = flat_map (point_spec fs) (states_before (mk_machine Wrapping (mc_sort mc)) st evs)) /\
  (forall res, table mc p (targets_of_item fs) (merge_start st t g None) = Ok res -> res = flat_map (target_spec fs) (states_before (mk_machine Wrapping (mc_sort mc)) st evs)).
Proof. exact whole_commands_any. Qed.
Print Assumptions C128_commands_any_build.
(** Rubbish in the tracker sector after the birth of the SCV: ana's command
    remains, with one row less since the Drone is not known; its ability has the
    name that it has for an SCV. *)
Definition rubbish_t : list Z := Eval vm_compute in t_sector (firstn 3 r_tevs) ++ [255; 255; 255].
Definition wr_mc : machine := mk_machine Wrapping sort_units.
Example C128_commands_example : starts ex_init ex_details ex_balance ex_start /\ bytes_ok rubbish_t /\ bytes_ok r_g /\ mc_build wr_mc = Wrapping /\
  user_sector (crate (mc_build wr_mc)) (game_type P87702) r_gevs (stream (r_g, 0%nat)) /\
  table wr_mc P87702 (points_of_item 5) (merge_start ex_start rubbish_t r_g None) =
    Ok [mk_point_row 0 (Some "ana") 256 (Some 40) (Some 0) "move.Move" 100 200 (-5) 1 None "SCV" 4 0 5] /\
  table ex_mc P87702 (points_of_item 5) (merge_start ex_start rubbish_t r_g None) = table wr_mc P87702 (points_of_item 5) (merge_start ex_start rubbish_t r_g None).
Proof.
  split; [exact ex_starts|]. destruct r_sectors as (_ & Hg & _). split; [apply byte_list_ok; vm_compute; reflexivity|]. split; [exact Hg|]. split; [reflexivity|].
  split; [|split; vm_compute; reflexivity].
  apply quirk_free_sector; [apply encode_user_sector; [vm_compute; reflexivity|vm_compute; reflexivity]|]. repeat constructor; vm_compute; reflexivity.
Qed.
