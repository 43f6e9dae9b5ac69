(** * C31-C48, C70: the replay state *)
From Verif Require Import Base F32 F32Facts Tags Events Maps Balance Lobby Convert State StateSpec StateFacts StateSteps StateProofs StateEvents StateMore StateExample F32Round CoordFacts.
From Coq Require Import Permutation Sorted.
#[local] Open Scope string_scope.
#[local] Open Scope Z_scope.
#[local] Open Scope list_scope.

(** C31. *)
Theorem C31_units_indexed : forall mc st i u, reachable mc st -> unit_of st i = Some u -> su_index u = i.
Proof. exact units_indexed. Qed.
Print Assumptions C31_units_indexed.
Example C31_example : exists u, reachable ex_mc ex_state /\ unit_of ex_state 8 = Some u /\ su_index u = 8 /\ su_name u = "SCV".
Proof. eexists. split; [exact ex_reachable|]. split; [vm_compute; reflexivity|]. split; vm_compute; reflexivity. Qed.

(** C32. *)
Theorem C32_registered : forall mc st0 evs st its i, history mc st0 evs st its -> (unit_of st i <> None <-> alive i evs).
Proof. exact registered_alive. Qed.
Print Assumptions C32_registered.
Theorem C32_game_events : forall mc st gl uid n e st' it i, handle_transition mc st (EGame gl uid n e) = Ok (st', it) ->
  (unit_of st' i <> None <-> unit_of st i <> None).
Proof. exact game_registered. Qed.
Print Assumptions C32_game_events.
Example C32_example : history ex_mc ex_start ex_events ex_state (snd (ex_run ex_events)) /\ unit_of ex_state 7 <> None /\ unit_of ex_state 11 = None /\
  unit_of (fst (ex_step (ex_died 9 7 None))) 7 = None.
Proof. split; [exact ex_history|]. split; [vm_compute; discriminate|]. split; vm_compute; reflexivity. Qed.

(** C33. *)
Theorem C33_died : forall mc st gl e, reachable mc st -> exists st' it,
  handle_transition mc st (ETracker gl (TUnitDied e)) = Ok (st', it) /\
  it_event it = ETracker gl (TUnitDied e) /\
  it_hint it = match unit_of st (ud_index e) with
    | Some u => HUnregistered (match ud_killer_index e with Some k => if k =? ud_index e then None else unit_of st k | None => None end) u
    | None => HNone
    end /\
  forall i, unit_of st' i = if i =? ud_index e then None else unit_of st i.
Proof. exact r_died. Qed.
Print Assumptions C33_died.
Example C33_example : exists k u, unit_of ex_state 9 = Some k /\ unit_of ex_state 7 = Some u /\
  it_hint (snd (ex_step (ex_died 9 7 (Some 9)))) = HUnregistered (Some k) u.
Proof. eexists _, _. split; [vm_compute; reflexivity|]. split; [vm_compute; reflexivity|]. vm_compute; reflexivity. Qed.

(** C34.  False: the groups hold unit tags, and the handler removes the index. *)
Theorem C34_groups_refuted : exists mc st gl e st' it uid g, reachable mc st /\
  handle_transition mc st (ETracker gl (TUnitDied e)) = Ok (st', it) /\ unit_of st (ud_index e) <> None /\
  In (unit_tag (ud_index e) (ud_recycle e)) (group_of st' uid g).
Proof.
  exists ex_mc, ex_state, 9, (mk_unit_died 7 1 None 10 20 None None), (fst (ex_step (ex_died 9 7 None))), (snd (ex_step (ex_died 9 7 None))), 0, 3.
  split; [exact ex_reachable|]. split; [vm_compute; reflexivity|]. split; [vm_compute; discriminate|]. vm_compute. left. reflexivity.
Qed.
Print Assumptions C34_groups_refuted.
(** What does hold: the groups lose exactly the tags equal to the index, and the
    dead unit is never listed among the registered units of any selection.
    Missing: the removal of the tag itself. *)
Theorem C34_groups_partial : forall mc st gl e st' it, reachable mc st -> handle_transition mc st (ETracker gl (TUnitDied e)) = Ok (st', it) ->
  (forall uid g, 0 <= g -> group_of st' uid g = filter (fun x => negb (x =? ud_index e)) (group_of st uid g)) /\
  (forall l u, In u (units_at st' l) -> su_index u <> ud_index e).
Proof. exact r_died_groups. Qed.
Print Assumptions C34_groups_partial.

(** C35.  False for a UnitInit naming a registered unit: the hint carries a
    fresh unit instead of the stored one. *)
Theorem C35_hint_refuted : exists mc st gl e st' it u v, reachable mc st /\
  handle_transition mc st (ETracker gl (TUnitInit e)) = Ok (st', it) /\ it_hint it = HRegistered u None /\
  unit_of st' (ui_index e) = Some v /\ su_init_loop u <> su_init_loop v /\ su_selected u <> su_selected v /\ su_radius u <> su_radius v.
Proof.
  pose (e := mk_unit_init 8 1 "SCV" 1 1 30 40). pose (r := ex_step (ETracker 9 (TUnitInit e))).
  exists ex_mc, ex_state, 9, e, (fst r), (snd r). eexists _, _. split; [exact ex_reachable|]. split; [vm_compute; reflexivity|].
  split; [vm_compute; reflexivity|]. split; [vm_compute; reflexivity|]. split; [vm_compute; discriminate|]. split; vm_compute; discriminate.
Qed.
Print Assumptions C35_hint_refuted.
(** The rest: every handler changes only the unit it names.  Missing: the hint of
    a UnitInit naming a registered unit. *)
Theorem C35_init_partial : forall mc st gl e, exists st' it,
  handle_transition mc st (ETracker gl (TUnitInit e)) = Ok (st', it) /\
  it_event it = ETracker gl (TUnitInit e) /\
  (forall j, j <> ui_index e -> unit_of st' j = unit_of st j) /\
  exists u, unit_of st' (ui_index e) = Some u /\ su_loop u = gl /\ su_name u = ui_name e /\ su_is_init u = true /\
    su_pos u = (f32_of_int (ui_x e), f32_of_int (ui_y e), f32_zero) /\
    match unit_of st (ui_index e) with
    | None => it_hint it = HRegistered u None /\ su_user u = Some (ui_control e) /\ su_init_loop u = gl /\ su_player u = player_name_of (st_users st) (ui_control e)
    | Some old => su_user u = su_user old /\ su_init_loop u = su_init_loop old /\ su_radius u = su_radius old /\ su_cmd u = su_cmd old /\ su_selected u = su_selected old
    end.
Proof. exact init_effect. Qed.
Print Assumptions C35_init_partial.
Theorem C35_born : forall mc st gl e, exists st' it,
  handle_transition mc st (ETracker gl (TUnitBorn e)) = Ok (st', it) /\
  it_event it = ETracker gl (TUnitBorn e) /\
  (forall j, j <> ub_index e -> unit_of st' j = if match ub_creator_index e with Some c => c =? j | None => false end
                                               then option_map (set_loop gl) (unit_of st j) else unit_of st j) /\
  exists u creator, unit_of st' (ub_index e) = Some u /\ it_hint it = HRegistered u creator /\ su_loop u = gl /\
    creator = match ub_creator_index e with Some c => option_map (set_loop gl) (unit_of st c) | None => None end /\
    match unit_of st (ub_index e) with
    | None => su_user u = Some (ub_control e) /\ su_init_loop u = gl /\ su_name u = ub_name e /\ su_is_init u = false /\
        su_pos u = (f32_of_int (ub_x e), f32_of_int (ub_y e), f32_zero) /\ su_player u = player_name_of (st_users st) (ub_control e)
    | Some old => su_ability u = ub_creator_ability e /\ su_user u = su_user old /\ su_name u = su_name old /\ su_pos u = su_pos old /\
        su_init_loop u = su_init_loop old /\ su_radius u = su_radius old /\ su_cmd u = su_cmd old /\ su_selected u = su_selected old /\ su_is_init u = su_is_init old
    end.
Proof. exact born_effect. Qed.
Print Assumptions C35_born.
Theorem C35_type_change : forall mc st gl e, exists st' it,
  handle_transition mc st (ETracker gl (TUnitTypeChange e)) = Ok (st', it) /\
  it_event it = ETracker gl (TUnitTypeChange e) /\
  (forall j, j <> ut_index e -> unit_of st' j = unit_of st j) /\
  exists u, unit_of st' (ut_index e) = Some u /\ su_loop u = gl /\ su_name u = ut_name e /\ su_radius u = unit_radius (st_balance st) (ut_name e) /\
    match unit_of st (ut_index e) with
    | None => it_hint it = HNone /\ su_user u = None /\ su_player u = None
    | Some old => it_hint it = HRegistered u (Some old) /\ su_user u = su_user old /\ su_init_loop u = su_init_loop old /\ su_pos u = su_pos old /\
        su_cmd u = su_cmd old /\ su_selected u = su_selected old /\ su_is_init u = su_is_init old
    end.
Proof. exact type_effect. Qed.
Print Assumptions C35_type_change.
Theorem C35_done : forall mc st gl e, exists st' it,
  handle_transition mc st (ETracker gl (TUnitDone e)) = Ok (st', it) /\
  it_event it = ETracker gl (TUnitDone e) /\
  (forall j, j <> un_index e -> unit_of st' j = unit_of st j) /\
  match unit_of st (un_index e) with
  | None => it_hint it = HNone /\ st' = st
  | Some old => exists u, unit_of st' (un_index e) = Some u /\ it_hint it = HRegistered u None /\ su_loop u = gl /\ su_is_init u = false /\
      su_radius u = unit_radius (st_balance st) (su_name old) /\
      su_name u = su_name old /\ su_user u = su_user old /\ su_init_loop u = su_init_loop old /\ su_pos u = su_pos old /\ su_cmd u = su_cmd old /\ su_selected u = su_selected old
  end.
Proof. exact done_effect. Qed.
Print Assumptions C35_done.
Example C35_example : exists u, it_hint (snd (ex_step (ETracker 9 (TUnitBorn (mk_unit_born 12 1 "SCV" 1 1 3 4 (Some 7) (Some 1) None))))) = HRegistered u (option_map (set_loop 9) (unit_of ex_state 7)) /\
  su_index u = 12 /\ unit_of ex_state 7 <> None.
Proof. eexists. split; [vm_compute; reflexivity|]. split; [vm_compute; reflexivity|]. vm_compute; discriminate. Qed.

(** C36.  False for a unit born without a previous UnitInit. *)
Theorem C36_ability_refuted : exists mc st gl e st' it u, reachable mc st /\ ub_creator_ability e = Some "TrainSCV" /\
  handle_transition mc st (ETracker gl (TUnitBorn e)) = Ok (st', it) /\ unit_of st' (ub_index e) = Some u /\ su_ability u = None.
Proof.
  pose (e := mk_unit_born 12 1 "SCV" 1 1 3 4 (Some 7) (Some 1) (Some "TrainSCV")). pose (r := ex_step (ETracker 9 (TUnitBorn e))).
  exists ex_mc, ex_state, 9, e, (fst r), (snd r). eexists. split; [exact ex_reachable|]. split; [reflexivity|]. split; [vm_compute; reflexivity|].
  split; [vm_compute; reflexivity|]. vm_compute; reflexivity.
Qed.
Print Assumptions C36_ability_refuted.
(** It holds when the unit was registered already, and never otherwise. *)
Theorem C36_ability_partial : forall mc st gl e st' it u, handle_transition mc st (ETracker gl (TUnitBorn e)) = Ok (st', it) ->
  unit_of st' (ub_index e) = Some u ->
  su_ability u = match unit_of st (ub_index e) with Some _ => ub_creator_ability e | None => None end.
Proof. exact born_ability. Qed.
Print Assumptions C36_ability_partial.
Example C36_example : exists u, unit_of (fst (ex_step (ETracker 9 (TUnitBorn (mk_unit_born 8 1 "SCV" 1 1 3 4 (Some 7) (Some 1) (Some "TrainSCV")))))) 8 = Some u /\ su_ability u = Some "TrainSCV".
Proof. eexists. split; [vm_compute; reflexivity|]. vm_compute; reflexivity. Qed.

(** C37. *)
Theorem C37_eleven_groups : forall mc st uid us, reachable mc st -> user_of st uid = Some us -> length (us_groups us) = 11%nat.
Proof. exact r_groups. Qed.
Print Assumptions C37_eleven_groups.
Theorem C37_same_users : forall mc st0 evs st its uid, history mc st0 evs st its -> (user_of st uid <> None <-> user_of st0 uid <> None).
Proof. exact users_known. Qed.
Print Assumptions C37_same_users.
Example C37_example : exists us, user_of ex_state 4 = Some us /\ length (us_groups us) = 11%nat.
Proof. eexists. split; [vm_compute; reflexivity|]. vm_compute; reflexivity. Qed.

(** C38.  False: group indices 11 to 15 fit the wire format and panic. *)
Theorem C38_no_panic_refuted : exists mc st gl uid n e, reachable mc st /\ 0 <= cg_index e < 16 /\
  handle_transition mc st (EGame gl uid n (GControlGroupUpdate e)) = Panic.
Proof. exists ex_mc, ex_state, 9, 0, None, (mk_control 11 GSet SMNone). split; [exact ex_reachable|]. split; [split; [discriminate|reflexivity]|]. vm_compute; reflexivity. Qed.
Print Assumptions C38_no_panic_refuted.
(** Exactly when they panic: a known user and an index above 10.  Missing: those. *)
Theorem C38_control_partial : forall mc st gl uid n e, reachable mc st -> 0 <= cg_index e ->
  (cg_index e <= 10 \/ user_of st uid = None <-> exists st' it, handle_transition mc st (EGame gl uid n (GControlGroupUpdate e)) = Ok (st', it)) /\
  (10 < cg_index e -> user_of st uid <> None -> handle_transition mc st (EGame gl uid n (GControlGroupUpdate e)) = Panic).
Proof. exact r_control_total. Qed.
Print Assumptions C38_control_partial.
Theorem C38_selection_partial : forall mc st gl uid n e, reachable mc st -> 0 <= sd_group e ->
  (sd_group e <= 10 \/ user_of st uid = None <-> exists st' it, handle_transition mc st (EGame gl uid n (GSelectionDelta e)) = Ok (st', it)) /\
  (10 < sd_group e -> user_of st uid <> None -> handle_transition mc st (EGame gl uid n (GSelectionDelta e)) = Panic).
Proof. exact r_delta_total. Qed.
Print Assumptions C38_selection_partial.
Example C38_example : handle_transition ex_mc ex_state (EGame 9 4 None (GSelectionDelta (mk_selection 15 0 SMNone [] []))) = Panic /\
  exists r, handle_transition ex_mc ex_state (EGame 9 4 None (GSelectionDelta (mk_selection 9 0 SMNone [] [1]))) = Ok r.
Proof. split; [vm_compute; reflexivity|]. eexists. vm_compute; reflexivity. Qed.

(** C39. *)
Theorem C39_copy : forall mc st gl uid n e st' it, reachable mc st -> 0 <= cg_index e <= 10 -> user_of st uid <> None ->
  handle_transition mc st (EGame gl uid n (GControlGroupUpdate e)) = Ok (st', it) ->
  (forall v, v <> uid -> user_of st' v = user_of st v) /\
  match cg_update e with
  | GSet => group_of st' uid (cg_index e) = selection st uid /\
      forall g, 0 <= g -> g <> cg_index e -> group_of st' uid g = group_of st uid g
  | GClear => group_of st' uid (cg_index e) = [] /\
      forall g, 0 <= g -> g <> cg_index e -> group_of st' uid g = group_of st uid g
  | GRecall => selection st' uid = group_of st uid (cg_index e) /\
      forall g, 0 <= g -> g <> 10 -> group_of st' uid g = group_of st uid g
  | _ => True
  end.
Proof. exact r_control_copy. Qed.
Print Assumptions C39_copy.
Example C39_example : selection ex_state 0 = [unit_tag 8 1] /\ selection (fst (ex_step (ex_control 9 0 3 GRecall))) 0 = [unit_tag 7 1; unit_tag 8 1] /\
  group_of (fst (ex_step (ex_control 9 0 3 GSet))) 0 3 = [unit_tag 8 1] /\ group_of (fst (ex_step (ex_control 9 0 3 GClear))) 0 3 = [].
Proof. repeat split; vm_compute; reflexivity. Qed.

(** C40. *)
Theorem C40_append : forall mc st gl uid n e st' it, reachable mc st -> 0 <= cg_index e <= 10 -> user_of st uid <> None ->
  cg_update e = GAppend ->
  handle_transition mc st (EGame gl uid n (GControlGroupUpdate e)) = Ok (st', it) ->
  (forall x, In x (group_of st' uid (cg_index e)) <-> In x (group_of st uid (cg_index e)) \/ In x (selection st uid)) /\
  StronglySorted Z.lt (group_of st' uid (cg_index e)) /\
  forall g, 0 <= g -> g <> cg_index e -> group_of st' uid g = group_of st uid g.
Proof. exact r_control_append. Qed.
Print Assumptions C40_append.
Example C40_example : group_of (fst (ex_step (ex_control 9 0 3 GAppend))) 0 3 = [unit_tag 7 1; unit_tag 8 1] /\
  group_of (fst (ex_step (ex_control 9 0 4 GAppend))) 0 4 = [unit_tag 8 1].
Proof. split; vm_compute; reflexivity. Qed.

(** C41.  False: the loop stops before group 9. *)
Theorem C41_steal_refuted : exists mc st gl uid n e st' it x, reachable mc st /\ cg_index e = 1 /\ cg_update e = GSetAndSteal /\
  handle_transition mc st (EGame gl uid n (GControlGroupUpdate e)) = Ok (st', it) /\ In x (selection st uid) /\ In x (group_of st' uid 9).
Proof.
  pose (e := mk_control 1 GSetAndSteal SMNone). pose (r := ex_step (EGame 9 0 None (GControlGroupUpdate e))).
  exists ex_mc, ex_state, 9, 0, None, e, (fst r), (snd r), (unit_tag 8 1). split; [exact ex_reachable|]. split; [reflexivity|]. split; [reflexivity|].
  split; [vm_compute; reflexivity|]. split; [vm_compute; left; reflexivity|]. vm_compute. right. left. reflexivity.
Qed.
Print Assumptions C41_steal_refuted.
(** It holds for the groups 0 to 8 (missing: group 9), and the announced group
    gets the selection or the union with it. *)
Theorem C41_steal_partial : forall mc st gl uid n e st' it, reachable mc st -> 0 <= cg_index e <= 10 -> user_of st uid <> None ->
  (cg_update e = GSetAndSteal \/ cg_update e = GAppendAndSteal) ->
  handle_transition mc st (EGame gl uid n (GControlGroupUpdate e)) = Ok (st', it) ->
  (forall g x, 0 <= g <= 8 -> g <> cg_index e -> (In x (group_of st' uid g) <-> In x (group_of st uid g) /\ ~ In x (selection st uid))) /\
  (forall g, 9 <= g -> g <> cg_index e -> group_of st' uid g = group_of st uid g) /\
  (cg_update e = GSetAndSteal -> group_of st' uid (cg_index e) = selection st uid) /\
  (cg_update e = GAppendAndSteal -> StronglySorted Z.lt (group_of st' uid (cg_index e)) /\
     forall x, In x (group_of st' uid (cg_index e)) <-> In x (group_of st uid (cg_index e)) \/ In x (selection st uid)).
Proof. exact r_control_steal. Qed.
Print Assumptions C41_steal_partial.
Example C41_example : group_of ex_state 0 3 = [unit_tag 7 1; unit_tag 8 1] /\ group_of (fst (ex_step (ex_control 9 0 1 GSetAndSteal))) 0 3 = [unit_tag 7 1] /\
  group_of (fst (ex_step (ex_control 9 0 1 GAppendAndSteal))) 0 1 = [unit_tag 8 1].
Proof. repeat split; vm_compute; reflexivity. Qed.

(** C42.  What a delta of the active group does to each registered unit. *)
Theorem C42_selection : forall mc st gl uid n e st' it, sd_group e = 10 ->
  handle_transition mc st (EGame gl uid n (GSelectionDelta e)) = Ok (st', it) ->
  forall i u, unit_of st i = Some u -> exists u', unit_of st' i = Some u' /\ same_identity u u' /\ su_cmd u' = su_cmd u /\
    (~ In i (indices (selection st uid)) -> ~ In i (indices (sd_tags e)) -> u' = u) /\
    (In i (indices (selection st uid)) \/ In i (indices (sd_tags e)) -> su_loop u' = gl) /\
    (In i (indices (sd_tags e)) -> su_selected u' = true) /\
    (In i (indices (selection st uid)) -> ~ In i (indices (sd_tags e)) -> su_selected u' = false) /\
    (In i (indices (sd_tags e)) -> su_selected u = false -> su_radius u' = f32_mul (su_radius u) f32_two) /\
    (In i (indices (sd_tags e)) -> ~ In i (indices (selection st uid)) -> su_selected u = true -> su_radius u' = su_radius u) /\
    (In i (indices (selection st uid)) -> ~ In i (indices (sd_tags e)) -> su_selected u = true -> su_radius u' = f32_mul (su_radius u) f32_half) /\
    (In i (indices (selection st uid)) -> ~ In i (indices (sd_tags e)) -> su_selected u = false -> su_radius u' = su_radius u) /\
    (In i (indices (selection st uid)) -> In i (indices (sd_tags e)) -> su_selected u = true -> su_radius u' = f32_mul (f32_mul (su_radius u) f32_half) f32_two).
Proof. exact delta_unit. Qed.
Print Assumptions C42_selection.
(** Selecting and deselecting gives the radius back. *)
Theorem C42_round_trip : forall mc st gl1 gl2 uid n1 n2 e1 e2 st1 it1 st2 it2 i u,
  user_of st uid <> None -> unit_of st i = Some u -> su_selected u = false ->
  f32_valid (su_radius u) = true -> f32_doublable (su_radius u) = true ->
  sd_group e1 = 10 -> sd_group e2 = 10 -> In i (indices (sd_tags e1)) -> ~ In i (indices (sd_tags e2)) ->
  handle_transition mc st (EGame gl1 uid n1 (GSelectionDelta e1)) = Ok (st1, it1) ->
  handle_transition mc st1 (EGame gl2 uid n2 (GSelectionDelta e2)) = Ok (st2, it2) ->
  exists u1 u2, unit_of st1 i = Some u1 /\ su_selected u1 = true /\ su_radius u1 = f32_mul (su_radius u) f32_two /\
    unit_of st2 i = Some u2 /\ su_selected u2 = false /\ su_radius u2 = su_radius u.
Proof. exact delta_round_trip. Qed.
Print Assumptions C42_round_trip.
(** Deltas of other groups touch no unit. *)
Theorem C42_other_groups : forall mc st gl uid n e st' it, sd_group e <> 10 ->
  handle_transition mc st (EGame gl uid n (GSelectionDelta e)) = Ok (st', it) -> st_units st' = st_units st.
Proof. exact delta_other_units. Qed.
Print Assumptions C42_other_groups.
Example C42_example : exists u st1 it1 st2 it2, unit_of ex_state 7 = Some u /\ su_selected u = false /\ f32_valid (su_radius u) = true /\ f32_doublable (su_radius u) = true /\
  handle_transition ex_mc ex_state (ex_select 9 0 [unit_tag 7 1; unit_tag 7 1]) = Ok (st1, it1) /\
  handle_transition ex_mc st1 (ex_select 10 0 []) = Ok (st2, it2) /\ option_map su_radius (unit_of st2 7) = Some (su_radius u) /\ option_map su_radius (unit_of st1 7) <> Some (su_radius u).
Proof.
  eexists _, _, _, _, _. split; [vm_compute; reflexivity|]. split; [vm_compute; reflexivity|]. split; [vm_compute; reflexivity|]. split; [vm_compute; reflexivity|].
  split; [vm_compute; reflexivity|]. split; [vm_compute; reflexivity|]. split; vm_compute; [reflexivity|discriminate].
Qed.

(** C43.  False: a unit selected before and after is listed as it was in
    between, unmarked (here with the stable sort of small vectors). *)
Theorem C43_hint_refuted : exists mc st gl uid n e st' it l u v, sorts mc /\ reachable mc st /\ sd_group e = 10 /\
  handle_transition mc st (EGame gl uid n (GSelectionDelta e)) = Ok (st', it) /\ it_hint it = HSelection l /\ In u l /\
  unit_of st' (su_index u) = Some v /\ su_selected v = true /\ su_selected u = false.
Proof.
  pose (e := mk_selection 10 0 SMNone [] [unit_tag 8 1]). pose (r := ex_step (EGame 9 0 None (GSelectionDelta e))).
  exists ex_mc, ex_state, 9, 0, None, e, (fst r), (snd r). eexists _, _, _. split; [exact ex_sorts|]. split; [exact ex_reachable|]. split; [reflexivity|].
  split; [vm_compute; reflexivity|]. split; [vm_compute; reflexivity|]. split; [left; reflexivity|]. split; [vm_compute; reflexivity|]. split; vm_compute; reflexivity.
Qed.
Print Assumptions C43_hint_refuted.
(** Whatever the sort: the hint lists, in strict index order, exactly the units
    whose mark was looked at, and each unit that is not in both selections is
    listed as stored.  Missing: units in both. *)
Theorem C43_hint_partial : forall mc st gl uid n e st' it, sorts mc -> reachable mc st -> sd_group e = 10 ->
  handle_transition mc st (EGame gl uid n (GSelectionDelta e)) = Ok (st', it) ->
  exists l, it_hint it = HSelection l /\ StronglySorted (fun a b => su_index a < su_index b) l /\
    (forall i, In i (map su_index l) <-> exists u, unit_of st i = Some u /\
       ((In i (indices (selection st uid)) /\ su_selected u = true) \/ (In i (indices (sd_tags e)) /\ su_selected u = false))) /\
    (forall u, In u l -> ~ (In (su_index u) (indices (selection st uid)) /\ In (su_index u) (indices (sd_tags e))) -> unit_of st' (su_index u) = Some u).
Proof. exact delta_hint. Qed.
Print Assumptions C43_hint_partial.
Example C43_example : exists l, it_hint (snd (ex_step (ex_select 9 0 [unit_tag 9 1; unit_tag 7 1; unit_tag 9 1]))) = HSelection l /\ map su_index l = [7; 8; 9].
Proof. eexists. split; [vm_compute; reflexivity|]. vm_compute; reflexivity. Qed.

(** C44.  False for a command without ability: no unit of the selection gets it. *)
Theorem C44_commands_refuted : exists mc st gl uid n c st' it i u, reachable mc st /\ In i (indices (selection st uid)) /\ unit_of st i = Some u /\
  handle_transition mc st (EGame gl uid n (GCmd c)) = Ok (st', it) /\ su_loop u <> gl /\ unit_of st' i = Some u /\ hint_units (it_hint it) = Some [].
Proof.
  pose (c := mk_cmd 256 None (CDPoint (mk_coord 1 2 3)) 1 None None). pose (r := ex_step (EGame 9 0 None (GCmd c))).
  exists ex_mc, ex_state, 9, 0, None, c, (fst r), (snd r), 8. eexists. split; [exact ex_reachable|]. split; [vm_compute; left; reflexivity|].
  split; [vm_compute; reflexivity|]. split; [vm_compute; reflexivity|]. split; [vm_compute; discriminate|]. split; vm_compute; reflexivity.
Qed.
Print Assumptions C44_commands_refuted.
(** Commands with an ability, and target updates with a known target, reach
    exactly the registered units of the selection.  Missing: the others, which
    reach none. *)
Theorem C44_commands_partial : forall mc st gl uid n e, reachable mc st -> effective st e -> exists st' it,
  handle_transition mc st (EGame gl uid n e) = Ok (st', it) /\
  st_users st' = st_users st /\
  (forall i, ~ In i (indices (selection st uid)) -> unit_of st' i = unit_of st i) /\
  (forall i u, In i (indices (selection st uid)) -> unit_of st i = Some u ->
     exists u', unit_of st' i = Some u' /\ su_loop u' = gl /\ same_but_cmd u u' /\ ordered st e u u') /\
  hint_units (it_hint it) = Some (units_at st' (indices (selection st uid))).
Proof. exact r_commands. Qed.
Print Assumptions C44_commands_partial.
Theorem C44_other_commands : forall mc st gl uid n e st' it,
  (match e with GCmd c => cm_abil c = None | GCmdUpdateTargetUnit t => update_target st t = None | _ => False end) ->
  handle_transition mc st (EGame gl uid n e) = Ok (st', it) ->
  st' = st /\ match hint_units (it_hint it) with Some l => l = [] | None => it_hint it = HNone end.
Proof. exact command_ineffective. Qed.
Print Assumptions C44_other_commands.
Example C44_example : exists l u, effective ex_state (GCmd (mk_cmd 256 (Some (mk_abil 40 "" 0 None)) CDNone 1 None None)) /\
  hint_units (it_hint (snd (ex_step (EGame 9 0 None (GCmd (mk_cmd 256 (Some (mk_abil 40 "" 0 None)) CDNone 1 None None)))))) = Some l /\
  l = [u] /\ su_index u = 8 /\ su_loop u = 9 /\ uc_abil (su_cmd u) = Some (mk_abil 40 "move.Move" 0 None).
Proof. eexists _, _. split; [discriminate|]. split; [vm_compute; reflexivity|]. split; [reflexivity|]. repeat split; vm_compute; reflexivity. Qed.

(** C45.  False: the target is looked up by its whole tag, but units are
    registered by index. *)
Theorem C45_target_refuted : exists mc st gl uid n c t st' it u, reachable mc st /\ cm_data c = CDUnit t /\ unit_of st (unit_tag_index (tu_tag t)) = Some u /\
  handle_transition mc st (EGame gl uid n (GCmd c)) = Ok (st', it) /\ exists l c', it_hint it = HAbilities l c' None.
Proof.
  pose (t := mk_target 0 0 (unit_tag 9 1) 0 None None (mk_coord 0 0 0)).
  pose (c := mk_cmd 256 (Some (mk_abil 40 "" 0 None)) (CDUnit t) 1 None None). pose (r := ex_step (EGame 9 0 None (GCmd c))).
  exists ex_mc, ex_state, 9, 0, None, c, t, (fst r), (snd r). eexists. split; [exact ex_reachable|]. split; [reflexivity|].
  split; [vm_compute; reflexivity|]. split; [vm_compute; reflexivity|]. eexists _, _. vm_compute; reflexivity.
Qed.
Print Assumptions C45_target_refuted.
(** A Cmd reports the unit registered under the number of the tag (missing: the
    one registered under the index of the tag); CmdUpdateTargetUnit reports
    either. *)
Theorem C45_target_partial : forall mc st gl uid n c st' it, handle_transition mc st (EGame gl uid n (GCmd c)) = Ok (st', it) ->
  exists l c', it_hint it = HAbilities l c' (match cm_data c with CDUnit t => unit_of st (tu_tag t) | _ => None end).
Proof. exact cmd_target. Qed.
Print Assumptions C45_target_partial.
Theorem C45_update_target : forall mc st gl uid n t st' it, handle_transition mc st (EGame gl uid n (GCmdUpdateTargetUnit t)) = Ok (st', it) ->
  match update_target st t with Some x => exists l, it_hint it = HTargetUnits l x | None => it_hint it = HNone end.
Proof. exact update_target_hint. Qed.
Print Assumptions C45_update_target.
Example C45_example : exists l x, it_hint (snd (ex_step (EGame 9 0 None (GCmdUpdateTargetUnit (mk_target 0 0 (unit_tag 9 1) 0 None None (mk_coord 0 0 0)))))) = HTargetUnits l x /\ su_index x = 9.
Proof. eexists _, _. split; [vm_compute; reflexivity|]. vm_compute; reflexivity. Qed.

(** C46. *)
Theorem C46_game_isolation : forall mc st gl uid n e st' it v, handle_transition mc st (EGame gl uid n e) = Ok (st', it) -> v <> uid ->
  user_of st' v = user_of st v.
Proof. exact game_isolation. Qed.
Print Assumptions C46_game_isolation.
Theorem C46_own_lobby : forall mc st gl uid n e st' it us', handle_transition mc st (EGame gl uid n e) = Ok (st', it) -> user_of st' uid = Some us' ->
  exists us, user_of st uid = Some us /\ us_lobby us' = us_lobby us.
Proof. exact game_own_lobby. Qed.
Print Assumptions C46_own_lobby.
Theorem C46_tracker : forall mc st gl e st' it v g, reachable mc st -> 0 <= g -> handle_transition mc st (ETracker gl e) = Ok (st', it) ->
  (exists keep, group_of st' v g = filter keep (group_of st v g)) /\
  option_map us_camera (user_of st' v) = option_map us_camera (user_of st v).
Proof. exact r_tracker_isolation. Qed.
Print Assumptions C46_tracker.
Example C46_example : exists st1 it1, handle_transition ex_mc ex_state (ex_select 9 4 [unit_tag 9 1]) = Ok (st1, it1) /\
  selection st1 4 = [unit_tag 9 1] /\ user_of st1 0 = user_of ex_state 0 /\ user_of st1 0 <> None.
Proof. eexists _, _. split; [vm_compute; reflexivity|]. split; [vm_compute; reflexivity|]. split; [vm_compute; reflexivity|]. vm_compute; discriminate. Qed.

(** C47. *)
Theorem C47_camera : forall mc st0 evs st its uid us, history mc st0 evs st its -> user_of st uid = Some us ->
  us_camera us = match last_some (camera_target uid) evs with Some p => p | None => mk_point 0 0 end.
Proof. exact camera_last. Qed.
Print Assumptions C47_camera.
Example C47_example : option_map us_camera (user_of ex_state 0) = Some (mk_point 5 6) /\ option_map us_camera (user_of ex_state 4) = Some (mk_point 0 0).
Proof. split; vm_compute; reflexivity. Qed.

(** C48. *)
Theorem C48_names : forall mc st0 evs st its gl, history mc st0 evs st its ->
  (forall x, exists n, names_player evs st (ug_player_id x) n /\
     handle_transition mc st (ETracker gl (TUpgrade x)) = Ok (st, mk_item (ETracker gl (TUpgrade (mk_upgrade (ug_player_id x) n (ug_name x) (ug_count x)))) HNone)) /\
  (forall x st' it, unit_of st (ub_index x) = None -> handle_transition mc st (ETracker gl (TUnitBorn x)) = Ok (st', it) ->
     exists u, unit_of st' (ub_index x) = Some u /\ su_user u = Some (ub_control x) /\ names_player evs st (ub_control x) (su_player u)) /\
  (forall x st' it, unit_of st (ui_index x) = None -> handle_transition mc st (ETracker gl (TUnitInit x)) = Ok (st', it) ->
     exists u, unit_of st' (ui_index x) = Some u /\ su_user u = Some (ui_control x) /\ names_player evs st (ui_control x) (su_player u)).
Proof. exact r_names. Qed.
Print Assumptions C48_names.
Theorem C48_names_unique : forall evs st p n n',
  (forall u v s t, user_of st u <> None -> user_of st v <> None -> last_some (announced u) evs = Some (p, s) -> last_some (announced v) evs = Some (p, t) -> u = v) ->
  names_player evs st p n -> names_player evs st p n' -> n = n'.
Proof. exact names_unique. Qed.
Print Assumptions C48_names_unique.
Theorem C48_order : forall users users' p, NoDup (map fst users) ->
  (forall u v us vs, In (u, us) users -> In (v, vs) users -> ld_setup_player (us_lobby us) = Some p -> ld_setup_player (us_lobby vs) = Some p -> u = v) ->
  Permutation users users' -> player_name_of users p = player_name_of users' p.
Proof. exact names_order. Qed.
Print Assumptions C48_order.
(** The lobby data of a user change only in the two ids a setup event announces. *)
Theorem C48_setup : forall mc st0 evs st its uid us, history mc st0 evs st its -> user_of st uid = Some us ->
  exists us0, user_of st0 uid = Some us0 /\
  (ld_setup_player (us_lobby us), ld_setup_slot (us_lobby us)) = match last_some (announced uid) evs with Some (p, s) => (Some p, s) | None => (None, None) end /\
  ld_player (us_lobby us) = ld_player (us_lobby us0) /\ ld_slot (us_lobby us) = ld_slot (us_lobby us0) /\ ld_title (us_lobby us) = ld_title (us_lobby us0) /\
  ld_description (us_lobby us) = ld_description (us_lobby us0) /\ ld_time_utc (us_lobby us) = ld_time_utc (us_lobby us0) /\ ld_time_offset (us_lobby us) = ld_time_offset (us_lobby us0) /\
  ld_init_name (us_lobby us) = ld_init_name (us_lobby us0) /\ ld_init_clan (us_lobby us) = ld_init_clan (us_lobby us0) /\ ld_handles (us_lobby us) = ld_handles (us_lobby us0) /\
  ld_sha256 (us_lobby us) = ld_sha256 (us_lobby us0) /\ ld_file (us_lobby us) = ld_file (us_lobby us0) /\ ld_fs_id (us_lobby us) = ld_fs_id (us_lobby us0) /\ ld_datetime (us_lobby us) = ld_datetime (us_lobby us0).
Proof. exact setup_last. Qed.
Print Assumptions C48_setup.
Example C48_example : names_player ex_events ex_state 2 (Some "bob") /\ names_player ex_events ex_state 1 (Some "ana") /\
  it_event (snd (ex_step (ETracker 9 (TUpgrade (mk_upgrade 2 None "Stimpack" 1))))) = ETracker 9 (TUpgrade (mk_upgrade 2 (Some "bob") "Stimpack" 1)).
Proof.
  split; [|split; [|vm_compute; reflexivity]].
  - eexists 4, _, _. split; [vm_compute; reflexivity|]. split; [vm_compute; reflexivity|]. vm_compute; reflexivity.
  - eexists 0, _, _. split; [vm_compute; reflexivity|]. split; [vm_compute; reflexivity|]. vm_compute; reflexivity.
Qed.

(** C70. *)
Theorem C70_positions : forall mc st gl e st' it, handle_transition mc st (ETracker gl (TUnitPosition e)) = Ok (st', it) ->
  exists l, to_unit_positions_vec (mc_build mc) (up_first e) (up_items e) = Ok l /\
    st_users st' = st_users st /\ it_event it = ETracker gl (TUnitPosition e) /\
    it_hint it = HPositions (units_at st' (map up_tag l)) /\
    forall i, unit_of st' i = option_map (fun u => match last_position l i with Some p => set_loop gl (set_pos (position_of p) u) | None => u end) (unit_of st i).
Proof. exact position_effect. Qed.
Print Assumptions C70_positions.
Example C70_example : exists u l, it_hint (snd (ex_step (ETracker 9 (TUnitPosition (mk_unit_positions 7 [0; 10; 11; 1; 12; 13; 92; 1; 1]))))) = HPositions l /\
  map su_index l = [7; 8] /\ unit_of (fst (ex_step (ETracker 9 (TUnitPosition (mk_unit_positions 7 [0; 10; 11; 1; 12; 13; 92; 1; 1]))))) 8 = Some u /\
  su_pos u = (f32_of_int 12, f32_of_int 13, f32_zero) /\ su_loop u = 9.
Proof. eexists _, _. split; [vm_compute; reflexivity|]. split; [vm_compute; reflexivity|]. split; [vm_compute; reflexivity|]. split; vm_compute; reflexivity. Qed.
(** The announced numbers are quarters, exactly up to 2^24 of them. *)
Theorem C70_quarter : forall mc st gl e st' it l i p u, handle_transition mc st (ETracker gl (TUnitPosition e)) = Ok (st', it) ->
  to_unit_positions_vec (mc_build mc) (up_first e) (up_items e) = Ok l -> last_position l i = Some p -> - 2 ^ 24 <= up_x p <= 2 ^ 24 -> - 2 ^ 24 <= up_y p <= 2 ^ 24 ->
  unit_of st' i = Some u -> exists x y, su_pos u = (x, y, f32_zero) /\ 4 * fval x = up_x p * 2 ^ 149 /\ 4 * fval y = up_y p * 2 ^ 149.
Proof.
  intros mc st gl e st' it l i p u Hh Hl Hp Hx Hy Hu. apply position_effect in Hh as (l' & Hl' & _ & _ & _ & Hi). assert (l' = l) by congruence. subst l'.
  rewrite Hi, Hp in Hu. destruct (unit_of st i) as [u0|]; cbn [option_map] in Hu; [|discriminate]. assert (E : su_pos u = position_of p) by (injection Hu as <-; reflexivity).
  unfold position_of in E. eexists. eexists. split; [exact E|]. split; apply div_4; assumption.
Qed.
Print Assumptions C70_quarter.
