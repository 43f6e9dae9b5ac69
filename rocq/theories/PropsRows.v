(** * C76-C81: the rows of the event tables *)
From Verif Require Import Base Types Utf8 F32 F32Facts BitSpec BitPacked BitProofs BitInterp BitFormat BitEncode BitFacts Versioned VersionedEncode ByteTypes BitTypes Dispatch Events Tags Maps Lobby Balance
  ConvertSpec ConvertFacts ConvertTracker Stream StreamFacts Iterators StreamSpec SectorEncode IteratorFacts IteratorStreams State StateSpec StateExample Convert PropsConvert PropsIterators
  Merge MergeSpec MergeFacts MergeStreams MergeProofs PropsMerge DetailsData Rows RowSpec RowFacts RowLife RowCommands.
#[local] Open Scope string_scope.
#[local] Open Scope Z_scope.
#[local] Open Scope list_scope.
(** A small replay: two players, two units, an upgrade, statistics, a change of
    type, of owner, a building and a death; ana selects both units and sends
    them to a point and at a unit. *)
Definition tv (l : Z) (e : tracker_event) : Z * val := (l, match tracker_value e with Some v => v | None => VNull end).
Definition r_tevs : list (Z * val) := [
  tv 0 (TPlayerSetup (mk_player_setup 1 1 (Some 0) (Some 0)));
  tv 0 (TPlayerSetup (mk_player_setup 2 1 (Some 4) (Some 1)));
  tv 1 (TUnitBorn (mk_unit_born 7 1 "SCV" 1 1 10 20 None None None));
  tv 0 (TUnitBorn (mk_unit_born 8 1 "Drone" 1 1 11 21 (Some 7) (Some 1) (Some "Train")));
  (4, VChoice "EPlayerStats" (VStruct [("m_player_id", VInt 1); ("m_stats", sample_stats)]));
  tv 0 (TUpgrade (mk_upgrade 1 None "Stimpack" 1));
  tv 1 (TUnitInit (mk_unit_init 9 1 "Hatchery" 2 2 30 40));
  tv 10 (TUnitDone (mk_unit_done 9 1));
  tv 1 (TUnitOwnerChange (mk_unit_owner 8 1 2 2));
  tv 1 (TUnitTypeChange (mk_unit_type 8 1 "Cocoon"));
  tv 2 (TUnitDied (mk_unit_died 7 1 (Some 2) 10 20 (Some 8) (Some 1)))].
Definition r_cmd (d : cmd_data) : Z * val := (0, game_value (GCmd (mk_cmd 256 (Some (mk_abil 40 "" 0 None)) d 1 None None))).
Definition r_target : target_unit := mk_target 111 0 (unit_tag 8 1) 45 (Some 1) (Some 1) (mk_coord 100 200 (-5)).
Definition r_gevs : list (Z * (Z * val)) := [
  (3, (0, game_value (GSelectionDelta (mk_selection 10 0 SMNone [] [unit_tag 7 1; unit_tag 8 1]))));
  (1, r_cmd (CDPoint (mk_coord 100 200 (-5))));
  (1, r_cmd (CDUnit r_target));
  (1, r_cmd CDNone)].
Definition r_t : list Z := Eval vm_compute in t_sector r_tevs.
Definition r_g : list Z := Eval vm_compute in g_sector r_gevs.
Definition r_iter : merged := merge_start ex_start r_t r_g None.
Lemma r_sectors : sectors_of ex_mc P87702 r_tevs r_t r_gevs r_g.
Proof.
  split; [apply byte_list_ok; vm_compute; reflexivity|]. split; [apply byte_list_ok; vm_compute; reflexivity|].
  split; [apply encode_tracker_sector; vm_compute; reflexivity|].
  split.
  { unfold r_tevs. repeat match goal with
    | |- Forall _ [] => constructor
    | |- Forall _ (?a :: _) => apply Forall_cons; [right; unfold all_utf8; let x := eval vm_compute in (texts (snd a)) in change (texts (snd a)) with x; repeat (constructor; [eexists; reflexivity|]); constructor|]
    end. }
  apply quirk_free_sector; [apply encode_user_sector; [vm_compute; reflexivity|vm_compute; reflexivity]|].
  repeat constructor; vm_compute; reflexivity.
Qed.
Definition r_ts : list (Z * tracker_event) := Eval vm_compute in
  flat_map (fun ev => match tracker_from (snd ev) with Ok e => [(fst ev, e)] | _ => [] end) (at_loops 0 r_tevs).
Lemma r_events : tracker_events_of r_tevs r_ts.
Proof.
  unfold tracker_events_of. change (at_loops 0 r_tevs) with ltac:(let x := eval vm_compute in (at_loops 0 r_tevs) in exact x). unfold r_ts.
  repeat (apply Forall2_cons; [split; vm_compute; reflexivity|]). apply Forall2_nil.
Qed.
Definition rows_of {A} (r : outcome (list A)) : list A := match r with Ok l => l | _ => [] end.

(** C76.  A table holds the rows of every event of the two sectors, in the order
    of delivery ... *)
Theorem C76_collected : forall mc p init d b st tevs t gevs g A (rows : item -> list A), starts init d b st -> sectors_of mc p tevs t gevs g -> exists ts gs evs,
  tracker_events_of tevs ts /\ Forall2 (delivered_as (player_names st)) (filter supported_game (at_loops 0 gevs)) gs /\
  interleaving (map tracker_item ts) (map game_item_event gs) evs /\
  table mc p rows (merge_start st t g None) = do its <- items_of (run mc st evs); Ok (flat_map rows its).
Proof. exact table_collected. Qed.
Print Assumptions C76_collected.
(** ... so that of the statistics has one row for every PlayerStats event of the
    tracker sector, with its player, its loop and all of its values. *)
Theorem C76_stats : forall mc p fs init d b st tevs t gevs g res, starts init d b st -> sectors_of mc p tevs t gevs g ->
  table mc p (stats_of_item fs) (merge_start st t g None) = Ok res ->
  Forall2 (stats_spec fs) (filter (fun ev => String.eqb (variant (snd ev)) "EPlayerStats") (at_loops 0 tevs)) res.
Proof. exact stats_table_ok. Qed.
Print Assumptions C76_stats.
Example C76_example : starts ex_init ex_details ex_balance ex_start /\ sectors_of ex_mc P87702 r_tevs r_t r_gevs r_g /\
  exists r, table ex_mc P87702 (stats_of_item 5) r_iter = Ok [r] /\ sr_player r = 1 /\ sr_loop r = 5 /\
    In ("food_made", Some 12) (sr_values r) /\ In ("workers_active_count", Some 7) (sr_values r) /\ length (sr_values r) = 39%nat.
Proof.
  split; [exact ex_starts|]. split; [exact r_sectors|]. eexists. split; [vm_compute; reflexivity|]. split; [reflexivity|]. split; [reflexivity|].
  split; [apply (nth_error_In _ 30); reflexivity|]. split; [apply (nth_error_In _ 4); reflexivity|reflexivity].
Qed.

(** C77.  One row for every Upgrade event. *)
Theorem C77_upgrades : forall mc p fs init d b st tevs t gevs g res, starts init d b st -> sectors_of mc p tevs t gevs g ->
  table mc p (upgrades_of_item fs) (merge_start st t g None) = Ok res ->
  exists ts, tracker_events_of tevs ts /\ res = rows_from (upgrade_spec fs) [] ts.
Proof. exact upgrades_table. Qed.
Print Assumptions C77_upgrades.
Example C77_example : starts ex_init ex_details ex_balance ex_start /\ sectors_of ex_mc P87702 r_tevs r_t r_gevs r_g /\
  table ex_mc P87702 (upgrades_of_item 5) r_iter = Ok [mk_upgrade_row 1 "Stimpack" 1 5 0 5].
Proof. split; [exact ex_starts|]. split; [exact r_sectors|]. vm_compute. reflexivity. Qed.

(** C78.  One row for every UnitDied event of a unit known by then, with the
    names that the unit and its killer last had. *)
Theorem C78_deaths : forall mc p fs init d b st tevs t gevs g res, starts init d b st -> sectors_of mc p tevs t gevs g ->
  table mc p (died_of_item fs) (merge_start st t g None) = Ok res ->
  exists ts, tracker_events_of tevs ts /\ res = rows_from (died_spec (mc_build mc) st fs) [] ts.
Proof. exact died_table. Qed.
Print Assumptions C78_deaths.
Example C78_example : starts ex_init ex_details ex_balance ex_start /\ sectors_of ex_mc P87702 r_tevs r_t r_gevs r_g /\
  table ex_mc P87702 (died_of_item 5) r_iter = Ok [mk_died_row "SCV" 7 1 (Some 2) 10 20 "Cocoon" (Some 8) (Some 1) 20 1 5].
Proof. split; [exact ex_starts|]. split; [exact r_sectors|]. vm_compute. reflexivity. Qed.

(** C79, false: unit 8 has belonged to player 2 since loop 17; the row of its
    change of type, at loop 18, still says player 1. *)
Theorem C79_owner_refuted : exists mc p fs init d b st tevs t gevs g res ts r, starts init d b st /\ sectors_of mc p tevs t gevs g /\
  table mc p (born_of_item fs) (merge_start st t g None) = Ok res /\ tracker_events_of tevs ts /\ In r res /\
  br_index r = 8 /\ br_loop r = 18 /\ br_control r = Some 1 /\ In (17, TUnitOwnerChange (mk_unit_owner 8 1 2 2)) ts.
Proof.
  exists ex_mc, P87702, 5, ex_init, ex_details, ex_balance, ex_start, r_tevs, r_t, r_gevs, r_g. eexists. exists r_ts. eexists.
  split; [exact ex_starts|]. split; [exact r_sectors|]. split; [vm_compute; reflexivity|].
  split; [exact r_events|].
  split; [apply (nth_error_In _ 3); reflexivity|]. split; [reflexivity|]. split; [reflexivity|]. split; [reflexivity|]. apply (nth_error_In _ 8). reflexivity.
Qed.
Print Assumptions C79_owner_refuted.
(** One row for every UnitBorn event and for every UnitDone and UnitTypeChange
    event of a unit known by then; the player is the one of the unit's birth. *)
Theorem C79_births_partial : forall mc p fs init d b st tevs t gevs g res, starts init d b st -> sectors_of mc p tevs t gevs g ->
  table mc p (born_of_item fs) (merge_start st t g None) = Ok res ->
  exists ts, tracker_events_of tevs ts /\ res = rows_from (born_spec (mc_build mc) st fs) [] ts.
Proof. exact born_table. Qed.
Print Assumptions C79_births_partial.
Example C79_example : starts ex_init ex_details ex_balance ex_start /\ sectors_of ex_mc P87702 r_tevs r_t r_gevs r_g /\
  exists r1 r2 r3 r4, table ex_mc P87702 (born_of_item 5) r_iter = Ok [r1; r2; r3; r4] /\
    (br_index r2, br_name r2, br_creator_name r2, br_player r2) = (8, "Drone", Some "SCV", Some "ana") /\
    (br_index r3, br_name r3, br_control r3, br_player r3) = (9, "Hatchery", Some 2, Some "bob") /\
    (br_index r4, br_name r4, br_creator_name r4) = (8, "Cocoon", Some "Drone").
Proof.
  split; [exact ex_starts|]. split; [exact r_sectors|]. eexists. eexists. eexists. eexists. split; [vm_compute; reflexivity|]. split; [reflexivity|]. split; reflexivity.
Qed.

(** C80, false: the name of the ability is looked up for one of the selected
    units only; here the row of the SCV lacks the name that an SCV has for it. *)
Theorem C80_ability_refuted : exists mc p fs init d b st tevs t gevs g res r link index, starts init d b st /\ sectors_of mc p tevs t gevs g /\
  table mc p (points_of_item fs) (merge_start st t g None) = Ok res /\ In r res /\
  pr_link r = Some link /\ pr_index r = Some index /\ pr_ability r <> get_indexed_ability_command_name b (pr_unit r) link index.
Proof.
  exists ex_mc, P87702, 5, ex_init, ex_details, ex_balance, ex_start, r_tevs, r_t, r_gevs, r_g. eexists. eexists. exists 40, 0.
  split; [exact ex_starts|]. split; [exact r_sectors|]. split; [vm_compute; reflexivity|]. split; [left; reflexivity|]. split; [reflexivity|]. split; [reflexivity|].
  vm_compute. discriminate.
Qed.
Print Assumptions C80_ability_refuted.
(** One row for every command with an ability and a target point and every unit
    that the user has then selected; a command without ability gives none. *)
Theorem C80_points_partial : forall mc p fs init d b st tevs t gevs g res, starts init d b st -> sectors_of mc p tevs t gevs g ->
  table mc p (points_of_item fs) (merge_start st t g None) = Ok res -> exists ts gs evs,
    tracker_events_of tevs ts /\ Forall2 (delivered_as (player_names st)) (filter supported_game (at_loops 0 gevs)) gs /\
    interleaving (map tracker_item ts) (map game_item_event gs) evs /\ res = flat_map (point_spec fs) (states_before mc st evs).
Proof. intros mc p fs. exact (commands_collected mc p _ (points_of_item fs) (point_spec fs) (points_step mc fs)). Qed.
Print Assumptions C80_points_partial.
Example C80_example : starts ex_init ex_details ex_balance ex_start /\ sectors_of ex_mc P87702 r_tevs r_t r_gevs r_g /\
  table ex_mc P87702 (points_of_item 5) r_iter = Ok
    [mk_point_row 0 (Some "ana") 256 (Some 40) (Some 0) "" 100 200 (-5) 1 None "SCV" 4 0 5;
     mk_point_row 0 (Some "ana") 256 (Some 40) (Some 0) "" 100 200 (-5) 1 None "Drone" 4 0 5].
Proof. split; [exact ex_starts|]. split; [exact r_sectors|]. vm_compute. reflexivity. Qed.

(** C81, false: the target is looked up under its whole tag instead of its
    index, so that a known unit remains without name. *)
Theorem C81_target_refuted : exists mc p fs init d b st tevs t gevs g res ts r, starts init d b st /\ sectors_of mc p tevs t gevs g /\
  table mc p (targets_of_item fs) (merge_start st t g None) = Ok res /\ tracker_events_of tevs ts /\ In r res /\
  tr_tag r = unit_tag 8 1 /\ tr_loop r = 5 /\ tr_target r = "" /\
  In (1, TUnitBorn (mk_unit_born 8 1 "Drone" 1 1 11 21 (Some 7) (Some 1) (Some "Train"))) ts /\
  Forall (fun e => fst e <= 5 -> forall x, snd e = TUnitDied x -> ud_index x <> 8) ts.
Proof.
  exists ex_mc, P87702, 5, ex_init, ex_details, ex_balance, ex_start, r_tevs, r_t, r_gevs, r_g. eexists. exists r_ts. eexists.
  split; [exact ex_starts|]. split; [exact r_sectors|]. split; [vm_compute; reflexivity|].
  split; [exact r_events|].
  split; [left; reflexivity|]. split; [reflexivity|]. split; [reflexivity|]. split; [reflexivity|]. split; [apply (nth_error_In _ 3); reflexivity|].
  repeat (apply Forall_cons; [intros Hl x Hx; cbn in Hl, Hx; try discriminate; injection Hx as <-; cbn; lia|]). apply Forall_nil.
Qed.
Print Assumptions C81_target_refuted.
(** One row for every command with an ability at a unit and every selected unit. *)
Theorem C81_targets_partial : forall mc p fs init d b st tevs t gevs g res, starts init d b st -> sectors_of mc p tevs t gevs g ->
  table mc p (targets_of_item fs) (merge_start st t g None) = Ok res -> exists ts gs evs,
    tracker_events_of tevs ts /\ Forall2 (delivered_as (player_names st)) (filter supported_game (at_loops 0 gevs)) gs /\
    interleaving (map tracker_item ts) (map game_item_event gs) evs /\ res = flat_map (target_spec fs) (states_before mc st evs).
Proof. intros mc p fs. exact (commands_collected mc p _ (targets_of_item fs) (target_spec fs) (targets_step mc fs)). Qed.
Print Assumptions C81_targets_partial.
Example C81_example : starts ex_init ex_details ex_balance ex_start /\ sectors_of ex_mc P87702 r_tevs r_t r_gevs r_g /\
  map tr_unit (rows_of (table ex_mc P87702 (targets_of_item 5) r_iter)) = ["SCV"; "Drone"].
Proof. split; [exact ex_starts|]. split; [exact r_sectors|]. vm_compute. reflexivity. Qed.
