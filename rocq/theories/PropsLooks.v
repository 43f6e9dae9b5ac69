(** * C102, C103: how units look and which are marked *)
From Verif Require Import Base F32 F32Facts Tags Events Maps Balance Lobby Convert State StateSpec StateFacts StateSteps StateProofs StateEvents StateMore StateExample LookSpec LookFacts.
#[local] Open Scope string_scope.
#[local] Open Scope Z_scope.
#[local] Open Scope list_scope.

Definition l_state (evs : list sc2_event) : state := fst (ex_run evs).
Lemma l_history : forall evs, run ex_mc ex_start evs = Ok (ex_run evs) -> history ex_mc ex_start evs (l_state evs) (snd (ex_run evs)).
Proof. intros evs E. split; [exists ex_init, ex_details, ex_balance; exact ex_starts|]. rewrite E. unfold l_state. destruct (ex_run evs). reflexivity. Qed.
Lemma l_plain : plain_radii ex_balance.
Proof. intros n u r E. unfold ex_balance in E. cbn [sget] in E. destruct (String.eqb _ _); [|discriminate]. injection E as <-. cbn [bu_radius]. intros Q. injection Q as <-. split; vm_compute; reflexivity. Qed.

(** C102.  False: a UnitInit that names a registered unit gives it the new name
    but leaves the colour and the size of the old type. *)
Theorem C102_renamed_refuted : exists mc st0 evs st its i u, history mc st0 evs st its /\ plain_radii (st_balance st0) /\ unit_of st i = Some u /\
  ~ colour_of (su_name u) (su_user u) (su_color u) /\ ~ type_radius (st_balance st0) (su_name u) (su_radius u) /\ su_selected u = false.
Proof.
  pose (evs := ex_events ++ [ETracker 9 (TUnitInit (mk_unit_init 7 1 "Overlord" 1 1 30 40))]).
  exists ex_mc, ex_start, evs, (l_state evs), (snd (ex_run evs)), 7. eexists. split; [apply l_history; vm_compute; reflexivity|]. split; [exact l_plain|]. split; [vm_compute; reflexivity|].
  split; [intros Hc; apply colour_one in Hc; vm_compute in Hc; discriminate|]. split; [intros Hr; apply radius_one in Hr; vm_compute in Hr; discriminate|reflexivity].
Qed.
Print Assumptions C102_renamed_refuted.
(** A unit that changes its type while it is selected is left with half the
    radius of the type once it is deselected. *)
Theorem C102_halved_refuted : exists mc st0 evs st its i u r, history mc st0 evs st its /\ plain_radii (st_balance st0) /\ unit_of st i = Some u /\ su_selected u = false /\
  type_radius (st_balance st0) (su_name u) r /\ su_radius u = f32_div r (f32_of_int 2) /\ su_radius u <> r.
Proof.
  pose (evs := ex_events ++ [ETracker 9 (TUnitTypeChange (mk_unit_type 8 1 "Drone")); ex_select 10 0 []]).
  exists ex_mc, ex_start, evs, (l_state evs), (snd (ex_run evs)), 8. eexists _, _. split; [apply l_history; vm_compute; reflexivity|]. split; [exact l_plain|]. split; [vm_compute; reflexivity|].
  split; [reflexivity|]. split; [apply radius_one; reflexivity|]. split; vm_compute; [reflexivity|discriminate].
Qed.
Print Assumptions C102_halved_refuted.
(** It holds as long as no registered unit is initialised again and none changes
    its type or is finished while it is selected. *)
Theorem C102_looks_partial : forall mc st0 evs st its i u, history mc st0 evs st its -> plain_radii (st_balance st0) -> throughout mc st0 evs undisturbed ->
  unit_of st i = Some u -> looks (st_balance st0) u.
Proof. exact units_look. Qed.
Print Assumptions C102_looks_partial.
(** Every type has one colour and one radius. *)
Theorem C102_determined : forall b n p, (exists! c, colour_of n p c) /\ (exists! r, type_radius b n r).
Proof. exact look_determined. Qed.
Print Assumptions C102_determined.
Definition l_events : list sc2_event :=
  ex_events ++ [ETracker 9 (TUnitTypeChange (mk_unit_type 7 1 "CommandCenter")); ETracker 9 (TUnitInit (mk_unit_init 11 1 "Pylon" 2 2 3 4)); ETracker 10 (TUnitDone (mk_unit_done 11 1))].
Example C102_example : history ex_mc ex_start l_events (l_state l_events) (snd (ex_run l_events)) /\ plain_radii (st_balance ex_start) /\ throughout ex_mc ex_start l_events undisturbed.
Proof.
  split; [apply l_history; vm_compute; reflexivity|]. split; [exact l_plain|]. apply along_throughout. vm_compute. repeat split. all: intros u Q; injection Q as <-; reflexivity.
Qed.
Example C102_doubled : exists u, unit_of (l_state l_events) 8 = Some u /\ su_selected u = true /\ su_radius u = f32_div (f32_of_int 3) (f32_of_int 4) /\ su_color u = (244, 245, 248, 255).
Proof. eexists. split; [vm_compute; reflexivity|]. split; [reflexivity|]. split; vm_compute; reflexivity. Qed.

(** C103.  False in both directions.  A control group event that does not change
    the selection takes the marks away. *)
Theorem C103_group_refuted : exists mc st gl uid x st' it i u u', reachable mc st /\ cg_update x = GSet /\
  handle_transition mc st (EGame gl uid None (GControlGroupUpdate x)) = Ok (st', it) /\ selection st' uid = selection st uid /\
  unit_of st i = Some u /\ su_selected u = true /\ selected_by st' i uid /\ unit_of st' i = Some u' /\ su_selected u' = false.
Proof.
  pose (e := ex_control 6 0 3 GSet). exists ex_mc, ex_state, 6, 0, (mk_control 3 GSet SMNone), (fst (ex_step e)), (snd (ex_step e)), 8. eexists _, _.
  split; [exact ex_reachable|]. split; [reflexivity|]. split; [vm_compute; reflexivity|]. split; [vm_compute; reflexivity|]. split; [vm_compute; reflexivity|]. split; [reflexivity|].
  split; [vm_compute; auto|]. split; [vm_compute; reflexivity|]. reflexivity.
Qed.
Print Assumptions C103_group_refuted.
(** Of two users who have selected a unit, the first to deselect it takes the mark. *)
Theorem C103_shared_refuted : exists mc st gl uid v x st' it i u', reachable mc st /\ v <> uid /\ sd_group x = 10 /\ selected_by st i uid /\ selected_by st i v /\
  handle_transition mc st (EGame gl uid None (GSelectionDelta x)) = Ok (st', it) /\ selected_by st' i v /\ unit_of st' i = Some u' /\ su_selected u' = false.
Proof.
  pose (evs := ex_events ++ [ex_select 6 4 [unit_tag 8 1]]). pose (evs' := evs ++ [ex_select 7 4 []]).
  exists ex_mc, (l_state evs), 7, 4, 0, (mk_selection 10 0 SMNone [] []), (l_state evs'). eexists _, 8, _.
  split; [eexists _, _, _; apply l_history; vm_compute; reflexivity|]. split; [discriminate|]. split; [reflexivity|]. split; [vm_compute; auto|]. split; [vm_compute; auto|].
  split; [vm_compute; reflexivity|]. split; [vm_compute; auto|]. split; [vm_compute; reflexivity|]. reflexivity.
Qed.
Print Assumptions C103_shared_refuted.
(** A new unit with the index of a dead one that was selected is in the selection
    without a mark. *)
Theorem C103_reused_refuted : exists mc st gl x st' it v u', reachable mc st /\ unit_of st (ub_index x) = None /\ selected_by st (ub_index x) v /\
  handle_transition mc st (ETracker gl (TUnitBorn x)) = Ok (st', it) /\ selected_by st' (ub_index x) v /\ unit_of st' (ub_index x) = Some u' /\ su_selected u' = false.
Proof.
  pose (evs := ex_events ++ [ex_died 6 8 None]). pose (evs' := evs ++ [ex_born 7 8 "SCV" 1]).
  exists ex_mc, (l_state evs), 7, (mk_unit_born 8 1 "SCV" 1 1 10 20 None None None), (l_state evs'). eexists _, 0, _.
  split; [eexists _, _, _; apply l_history; vm_compute; reflexivity|]. split; [vm_compute; reflexivity|]. split; [vm_compute; auto|].
  split; [vm_compute; reflexivity|]. split; [vm_compute; auto|]. split; [vm_compute; reflexivity|]. reflexivity.
Qed.
Print Assumptions C103_reused_refuted.
(** A selection by a user who is not in the lobby marks units that nobody has
    selected. *)
Theorem C103_unknown_refuted : exists mc st i u, reachable mc st /\ unit_of st i = Some u /\ su_selected u = true /\ forall v, ~ selected_by st i v.
Proof.
  pose (evs := ex_events ++ [ex_select 6 9 [unit_tag 7 1]]). exists ex_mc, (l_state evs), 7. eexists. split; [eexists _, _, _; apply l_history; vm_compute; reflexivity|].
  split; [vm_compute; reflexivity|]. split; [reflexivity|]. intros v. unfold selected_by, selection, group_of.
  assert (E : st_users (l_state evs) = st_users ex_state) by (vm_compute; reflexivity). unfold user_of. rewrite E. clear E.
  assert (Hall : forallb (fun x => negb (existsb (Z.eqb 7) (indices (nth (Z.to_nat 10) (us_groups (snd x)) [])))) (st_users ex_state) = true) by (vm_compute; reflexivity).
  destruct (mget v (st_users ex_state)) as [us|] eqn:E; [|intros []]. apply mget_In in E. rewrite forallb_forall in Hall. specialize (Hall _ E). cbn [snd] in Hall. intros Hi.
  apply Bool.negb_true_iff in Hall. assert (X : existsb (Z.eqb 7) (indices (nth (Z.to_nat 10) (us_groups us) [])) = true) by (apply existsb_exists; exists 7; split; [exact Hi|reflexivity]). congruence.
Qed.
Print Assumptions C103_unknown_refuted.
(** Marked units are selected, when only users of the lobby select and no tag is
    lost to the index of a dead unit (C34). *)
Theorem C103_marked_partial : forall mc st0 evs st its i u, history mc st0 evs st its -> Forall numbered evs -> throughout mc st0 evs recorded ->
  unit_of st i = Some u -> su_selected u = true -> exists v, selected_by st i v.
Proof. exact marks_are_selected. Qed.
Print Assumptions C103_marked_partial.
(** Selected units are marked, when control groups are only recalled, users do not
    select the same units and new units do not get a selected index. *)
Theorem C103_selected_partial : forall mc st0 evs st its i u v, history mc st0 evs st its -> Forall numbered evs -> throughout mc st0 evs orderly ->
  unit_of st i = Some u -> selected_by st i v -> su_selected u = true /\ forall w, selected_by st i w -> w = v.
Proof. exact selected_are_marked. Qed.
Print Assumptions C103_selected_partial.
(** Two users, each with a selection; one of them recalls a group. *)
Definition l_marks : list sc2_event :=
  [ex_born 1 7 "SCV" 1; ex_born 1 8 "SCV" 1; ex_born 2 9 "Drone" 2; EGame 3 0 None (GSelectionDelta (mk_selection 3 0 SMNone [] [unit_tag 7 1])); ex_select 3 0 [unit_tag 8 1]; ex_select 3 4 [unit_tag 9 1]; ex_control 4 0 3 GRecall; ex_died 5 8 None].
Example C103_example : history ex_mc ex_start l_marks (l_state l_marks) (snd (ex_run l_marks)) /\ Forall numbered l_marks /\
  throughout ex_mc ex_start l_marks recorded /\ throughout ex_mc ex_start l_marks orderly /\ selected_by (l_state l_marks) 7 0 /\ selected_by (l_state l_marks) 9 4.
Proof.
  split; [apply l_history; vm_compute; reflexivity|]. split; [repeat constructor; vm_compute; discriminate|].
  split; [apply (throughout_mono _ _ _ (fun st e => recorded_b st e = true)); [exact recorded_ok|]; apply along_throughout; vm_compute; tauto|].
  split; [apply (throughout_mono _ _ _ (fun st e => orderly_b st e = true)); [exact orderly_ok|]; apply along_throughout; vm_compute; tauto|].
  split; vm_compute; auto.
Qed.
