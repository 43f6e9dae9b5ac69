(** * Proofs about single events *)
From Verif Require Import Base F32 F32Facts Tags Events Maps Balance Lobby Convert State StateFacts StateSpec StateSteps StateProofs.
From Coq Require Import Permutation Sorted.
#[local] Open Scope Z_scope.
#[local] Open Scope list_scope.

(** ** Deaths *)
Lemma died_total : forall mc st gl e, wf st -> exists st' it, handle_transition mc st (ETracker gl (TUnitDied e)) = Ok (st', it).
Proof.
  intros mc st gl e Hw. cbn [handle_transition handle_tracker_event]. unfold handle_unit_died.
  destruct (retain_total (ud_index e) (st_users st) Hw) as (users & E). rewrite E. cbn [obind].
  destruct (mget (ud_index e) (st_units st)); cbn [obind]; eauto.
Qed.
Lemma died_effect : forall mc st gl e st' it, handle_transition mc st (ETracker gl (TUnitDied e)) = Ok (st', it) ->
  it_event it = ETracker gl (TUnitDied e) /\
  it_hint it = match unit_of st (ud_index e) with
    | Some u => HUnregistered (match ud_killer_index e with Some k => if k =? ud_index e then None else unit_of st k | None => None end) u
    | None => HNone
    end /\
  forall i, unit_of st' i = if i =? ud_index e then None else unit_of st i.
Proof.
  intros mc st gl e st' it Hh. apply transition_tracker in Hh as (e' & h & Hh & ->). cbn [handle_tracker_event] in Hh.
  assert (Hu : forall i, unit_of st' i = if i =? ud_index e then None else unit_of st i).
  { intros i. rewrite (died_unit st gl e st' _ i Hh), (Z.eqb_sym i). reflexivity. }
  unfold handle_unit_died in Hh. apply obind_ok in Hh as (users & _ & Hh). unfold unit_of in *.
  destruct (mget (ud_index e) (st_units st)) as [u|] eqn:E; injection Hh as <- <- <-; (split; [reflexivity|]); (split; [|exact Hu]); [|reflexivity].
  cbn [it_hint]. f_equal. destruct (ud_killer_index e) as [k|]; [|reflexivity]. rewrite mget_mdel, Z.eqb_sym. reflexivity.
Qed.
Lemma group_of_get : forall st uid us g, user_of st uid = Some us -> group_of st uid g = group (us_groups us) g.
Proof. intros st uid us g E. unfold group_of. rewrite E. reflexivity. Qed.
Lemma group_of_none : forall st uid g, user_of st uid = None -> group_of st uid g = [].
Proof. intros st uid g E. unfold group_of. rewrite E. reflexivity. Qed.
(** The groups after a death: they lost exactly the value [unit_tag_index]. *)
Lemma died_groups : forall mc st gl e st' it uid g, wf st -> 0 <= g -> handle_transition mc st (ETracker gl (TUnitDied e)) = Ok (st', it) ->
  group_of st' uid g = filter (fun x => negb (x =? ud_index e)) (group_of st uid g).
Proof.
  intros mc st gl e st' it uid g Hw Hg Hh. apply transition_tracker in Hh as (e' & h & Hh & _).
  pose proof (tracker_users _ _ _ _ _ _ Hw Hh) as [[_ Hl] _]. specialize (Hl uid).
  destruct (user_of st uid) as [us|] eqn:E, (user_of st' uid) as [us'|] eqn:E'; try contradiction.
  - destruct Hl as (_ & _ & _ & Hl). rewrite (group_of_get _ _ _ _ E), (group_of_get _ _ _ _ E'). apply Hl, Hg.
  - rewrite (group_of_none _ _ _ E), (group_of_none _ _ _ E'). reflexivity.
Qed.

(** ** Births and the like *)
Lemma init_effect : forall mc st gl e, exists st' it,
  handle_transition mc st (ETracker gl (TUnitInit e)) = Ok (st', it) /\
  it_event it = ETracker gl (TUnitInit e) /\
  (forall j, j <> ui_index e -> unit_of st' j = unit_of st j) /\
  exists u, unit_of st' (ui_index e) = Some u /\ su_loop u = gl /\ su_name u = ui_name e /\ su_is_init u = true /\
    su_pos u = (f32_of_int (ui_x e), f32_of_int (ui_y e), f32_zero) /\
    match unit_of st (ui_index e) with
    | None => it_hint it = HRegistered u None /\ su_user u = Some (ui_control e) /\ su_init_loop u = gl /\ su_player u = player_name_of (st_users st) (ui_control e)
    | Some old => su_user u = su_user old /\ su_init_loop u = su_init_loop old /\ su_radius u = su_radius old /\ su_cmd u = su_cmd old /\ su_selected u = su_selected old
    end.
Proof.
  intros mc st gl e. eexists _, _. split; [reflexivity|]. split; [reflexivity|]. split.
  - intros j Hj. etransitivity; [exact (init_unit st gl e j)|]. destruct (Z.eqb_spec (ui_index e) j); [congruence|reflexivity].
  - eexists. split; [etransitivity; [exact (init_unit st gl e (ui_index e))|]; rewrite Z.eqb_refl; reflexivity|].
    destruct (unit_of st (ui_index e)); repeat split.
Qed.
Lemma born_effect : forall mc st gl e, exists st' it,
  handle_transition mc st (ETracker gl (TUnitBorn e)) = Ok (st', it) /\
  it_event it = ETracker gl (TUnitBorn e) /\
  (forall j, j <> ub_index e -> unit_of st' j = if match ub_creator_index e with Some c => c =? j | None => false end
                                               then option_map (set_loop gl) (unit_of st j) else unit_of st j) /\
  exists u creator, unit_of st' (ub_index e) = Some u /\ it_hint it = HRegistered u creator /\ su_loop u = gl /\
    creator = match ub_creator_index e with Some c => option_map (set_loop gl) (unit_of st c) | None => None end /\
    match unit_of st (ub_index e) with
    | None => su_user u = Some (ub_control e) /\ su_init_loop u = gl /\ su_name u = ub_name e /\ su_is_init u = false /\
        su_pos u = (f32_of_int (ub_x e), f32_of_int (ub_y e), f32_zero) /\ su_player u = player_name_of (st_users st) (ub_control e)
    | Some old => su_ability u = ub_creator_ability e /\ su_user u = su_user old /\ su_name u = su_name old /\ su_pos u = su_pos old /\
        su_init_loop u = su_init_loop old /\ su_radius u = su_radius old /\ su_cmd u = su_cmd old /\ su_selected u = su_selected old /\ su_is_init u = su_is_init old
    end.
Proof.
  intros mc st gl e.
  pose proof (born_unit st gl e) as Hu. cbn [handle_transition handle_tracker_event].
  assert (Hh : exists creator st' u, handle_unit_born st gl e = (st', (TUnitBorn e, HRegistered u creator)) /\ unit_of st' (ub_index e) = Some u /\
     creator = match ub_creator_index e with Some c => option_map (set_loop gl) (unit_of st c) | None => None end).
  { unfold handle_unit_born, unit_of. destruct (ub_creator_index e) as [c|].
    - destruct (mget c (st_units st)) as [uc|]; (destruct (mget (ub_index e) _) as [u|] eqn:E; eexists _, _, _; (split; [reflexivity|]); (split; [cbn; rewrite mget_mset, Z.eqb_refl; reflexivity|reflexivity])).
    - destruct (mget (ub_index e) _) as [u|] eqn:E; eexists _, _, _; (split; [reflexivity|]); (split; [cbn; rewrite mget_mset, Z.eqb_refl; reflexivity|reflexivity]). }
  destruct Hh as (creator & st' & u & E & Hb & Hc). rewrite E in *. cbn [obind fst] in *.
  eexists _, _. split; [reflexivity|]. split; [reflexivity|]. split.
  - intros j Hj. rewrite Hu. destruct (Z.eqb_spec (ub_index e) j); [congruence|reflexivity].
  - exists u, creator. split; [exact Hb|]. split; [reflexivity|]. rewrite Hu, Z.eqb_refl in Hb. injection Hb as <-. unfold creator_touched.
    destruct (unit_of st (ub_index e)) as [old|]; destruct (match ub_creator_index e with Some c => c =? ub_index e | None => false end); cbn; repeat split; assumption.
Qed.
Lemma type_effect : forall mc st gl e, exists st' it,
  handle_transition mc st (ETracker gl (TUnitTypeChange e)) = Ok (st', it) /\
  it_event it = ETracker gl (TUnitTypeChange e) /\
  (forall j, j <> ut_index e -> unit_of st' j = unit_of st j) /\
  exists u, unit_of st' (ut_index e) = Some u /\ su_loop u = gl /\ su_name u = ut_name e /\ su_radius u = unit_radius (st_balance st) (ut_name e) /\
    match unit_of st (ut_index e) with
    | None => it_hint it = HNone /\ su_user u = None /\ su_player u = None
    | Some old => it_hint it = HRegistered u (Some old) /\ su_user u = su_user old /\ su_init_loop u = su_init_loop old /\ su_pos u = su_pos old /\
        su_cmd u = su_cmd old /\ su_selected u = su_selected old /\ su_is_init u = su_is_init old
    end.
Proof.
  intros mc st gl e. cbn [handle_transition handle_tracker_event]. pose proof (type_unit st gl e) as Hu.
  unfold handle_unit_type_change in *.
  change (mget (ut_index e) (st_units st)) with (unit_of st (ut_index e)) in *.
  destruct (unit_of st (ut_index e)) as [old|] eqn:E; cbn [obind fst] in *; eexists _, _; (split; [reflexivity|]); (split; [reflexivity|]);
   (split; [intros j Hj; rewrite Hu; destruct (Z.eqb_spec (ut_index e) j); [congruence|reflexivity]|]);
   (eexists; split; [rewrite Hu, Z.eqb_refl, E; reflexivity|]); repeat split.
Qed.
Lemma done_effect : forall mc st gl e, exists st' it,
  handle_transition mc st (ETracker gl (TUnitDone e)) = Ok (st', it) /\
  it_event it = ETracker gl (TUnitDone e) /\
  (forall j, j <> un_index e -> unit_of st' j = unit_of st j) /\
  match unit_of st (un_index e) with
  | None => it_hint it = HNone /\ st' = st
  | Some old => exists u, unit_of st' (un_index e) = Some u /\ it_hint it = HRegistered u None /\ su_loop u = gl /\ su_is_init u = false /\
      su_radius u = unit_radius (st_balance st) (su_name old) /\
      su_name u = su_name old /\ su_user u = su_user old /\ su_init_loop u = su_init_loop old /\ su_pos u = su_pos old /\ su_cmd u = su_cmd old /\ su_selected u = su_selected old
  end.
Proof.
  intros mc st gl e. cbn [handle_transition handle_tracker_event]. pose proof (done_unit st gl e) as Hu.
  unfold handle_unit_done in *. change (mget (un_index e) (st_units st)) with (unit_of st (un_index e)) in *.
  destruct (unit_of st (un_index e)) as [old|] eqn:E; cbn [obind fst] in *; eexists _, _; (split; [reflexivity|]); (split; [reflexivity|]).
  - split; [intros j Hj; rewrite Hu; destruct (Z.eqb_spec (un_index e) j); [congruence|reflexivity]|].
    eexists; split; [rewrite Hu, Z.eqb_refl, E; reflexivity|]. repeat split.
  - split; [reflexivity|]. split; reflexivity.
Qed.

(** ** Control groups *)
Lemma selection_after_units : forall st units uid, selection (with_units st units) uid = selection st uid.
Proof. reflexivity. Qed.
Lemma control_effect : forall mc st gl uid n e, wf st -> 0 <= cg_index e ->
  match user_of st uid with
  | Some _ =>
      if cg_index e <=? 10 then
        exists st' it, handle_transition mc st (EGame gl uid n (GControlGroupUpdate e)) = Ok (st', it) /\
          (forall v g, v <> uid -> group_of st' v g = group_of st v g) /\
          (forall us us', user_of st uid = Some us -> user_of st' uid = Some us' -> us_camera us' = us_camera us /\ us_lobby us' = us_lobby us) /\
          forall us g, user_of st uid = Some us -> 0 <= g -> group_of st' uid g = group_after (cg_update e) (cg_index e) (us_groups us) g
      else handle_transition mc st (EGame gl uid n (GControlGroupUpdate e)) = Panic
  | None => exists st' it, handle_transition mc st (EGame gl uid n (GControlGroupUpdate e)) = Ok (st', it) /\ st_users st' = st_users st
  end.
Proof.
  intros mc st gl uid n e Hw Hi. cbn [handle_transition handle_game_event]. rewrite update_control_group_eq.
  destruct (unmark_wf st gl uid Hw) as (units & ids & E & _). rewrite E. cbn [obind]. unfold change_groups. cbn [with_units st_users].
  fold (user_of st uid). destruct (user_of st uid) as [us|] eqn:Hu.
  2:{ cbn [obind]. destruct (cg_update e); cbn [obind]; try (eexists _, _; split; reflexivity).
      unfold active_units. cbn [with_units st_users]. fold (user_of st uid). rewrite Hu. cbn [obind].
      match goal with |- context [mark_selected_units ?s ?g ?t] => pose proof (mark_frame s g t) as Hm; destruct (mark_selected_units s g t) as [st3 l3] end.
      destruct (Hm _ _ eq_refl) as (Hus & _). cbn [obind]. eexists _, _; split; [reflexivity|exact Hus]. }
  pose proof (update_groups_ok (cg_update e) (cg_index e) (us_groups us) (wf_get _ _ _ Hw Hu) Hi) as Hg.
  destruct (cg_index e <=? 10); [|rewrite Hg; reflexivity].
  destruct Hg as (gs & Eg & Hl & Hgs). rewrite Eg. cbn [obind].
  assert (Hfin : forall st2 ev h, st_users st2 = mset uid (set_groups us gs) (st_users st) ->
     exists st' it, (do (st3, r) <- Ok (st2, (ev, h)); let '(x, h0) := r in Ok (st3, mk_item (EGame gl uid n x) h0)) = Ok (st', it) /\
          (forall v g, v <> uid -> group_of st' v g = group_of st v g) /\
          (forall us0 us', Some us = Some us0 -> user_of st' uid = Some us' -> us_camera us' = us_camera us0 /\ us_lobby us' = us_lobby us0) /\
          forall us0 g, Some us = Some us0 -> 0 <= g -> group_of st' uid g = group_after (cg_update e) (cg_index e) (us_groups us0) g).
  { intros st2 ev h Es. eexists _, _. split; [reflexivity|]. unfold group_of, user_of. rewrite Es. split; [|split].
    - intros v g Hv. rewrite mget_mset. destruct (Z.eqb_spec uid v); [congruence|reflexivity].
    - intros us0 us' E0. injection E0 as <-. rewrite mget_mset, Z.eqb_refl. intros E1. injection E1 as <-. split; reflexivity.
    - intros us0 g E0 Hg. injection E0 as <-. rewrite mget_mset, Z.eqb_refl. cbn [us_groups set_groups]. apply Hgs, Hg. }
  destruct (cg_update e); try (apply Hfin; reflexivity).
  unfold active_units. cbn [with_units with_users st_users]. rewrite mget_mset, Z.eqb_refl. cbn [us_groups set_groups].
  rewrite group_get_eq, Hl. change (Z.to_nat active_group <? 11)%nat with true. cbn [obind].
  match goal with |- context [mark_selected_units ?s ?g ?t] => pose proof (mark_frame s g t) as Hm; destruct (mark_selected_units s g t) as [st3 l3] end.
  destruct (Hm _ _ eq_refl) as (Hus & _). cbn [obind]. apply Hfin. exact Hus.
Qed.
Lemma append_In : forall g a x, In x (dedup_z (sort_z (g ++ a))) <-> In x g \/ In x a.
Proof.
  intros g a x. unfold dedup_z. split.
  - intros Hx. apply dedup_incl in Hx. apply (proj1 (sort_z_In _ _)) in Hx. apply in_app_or, Hx.
  - intros Hx. apply in_or_app in Hx. apply (proj2 (sort_z_In _ _)) in Hx. apply (dedup_keys _ (fun z => z)) in Hx as (b & Hb & <-). exact Hb.
Qed.
Lemma append_sorted : forall g a, StronglySorted Z.lt (dedup_z (sort_z (g ++ a))).
Proof. intros g a. unfold dedup_z. apply (dedup_sorted Z (fun z => z)). apply sort_z_sorted. Qed.

(** ** Selection deltas *)
Lemma delta_total : forall mc st gl uid n e, wf st -> 0 <= sd_group e -> user_of st uid = None \/ sd_group e <= 10 ->
  exists st' it, handle_transition mc st (EGame gl uid n (GSelectionDelta e)) = Ok (st', it).
Proof.
  intros mc st gl uid n e Hw H0 Hi. cbn [handle_transition handle_game_event]. unfold handle_selection_delta.
  assert (Hc : forall st1, st_users st1 = st_users st -> exists st2, change_groups st1 uid (fun gs => group_set gs (sd_group e) (sd_tags e)) = Ok st2).
  { intros st1 E. unfold change_groups. rewrite E. fold (user_of st uid). destruct (user_of st uid) as [us|] eqn:Hu; [|eauto].
    destruct Hi as [Hi|Hi]; [discriminate|]. rewrite group_set_eq, (wf_get _ _ _ Hw Hu).
    destruct (Nat.ltb_spec (Z.to_nat (sd_group e)) 11); [|lia]. cbn [obind]. eauto. }
  destruct (sd_group e =? active_group).
  - destruct (unmark_wf st gl uid Hw) as (units & ids & -> & _). cbn [obind].
    destruct (mark_selected_units (with_units st units) gl (sd_tags e)) as [st1 l] eqn:Em. cbn [obind].
    destruct (Hc st1) as (st2 & ->); [apply mark_frame in Em as (-> & _); reflexivity|]. cbn [obind]. eauto.
  - cbn [obind]. destruct (Hc st eq_refl) as (st2 & ->). cbn [obind]. eauto.
Qed.
Lemma delta_panics : forall mc st gl uid n e us, wf st -> user_of st uid = Some us -> 10 < sd_group e ->
  handle_transition mc st (EGame gl uid n (GSelectionDelta e)) = Panic.
Proof.
  intros mc st gl uid n e us Hw Hu Hi. cbn [handle_transition handle_game_event]. unfold handle_selection_delta.
  destruct (Z.eqb_spec (sd_group e) active_group) as [E|_]; [unfold active_group in E; lia|]. cbn [obind].
  unfold change_groups. fold (user_of st uid). rewrite Hu, group_set_eq, (wf_get _ _ _ Hw Hu).
  destruct (Nat.ltb_spec (Z.to_nat (sd_group e)) 11); [lia|]. reflexivity.
Qed.
(** The units after a delta of the active group. *)
Lemma delta_units : forall mc st gl uid n e st' it, sd_group e = 10 ->
  handle_transition mc st (EGame gl uid n (GSelectionDelta e)) = Ok (st', it) ->
  exists units1 ids1 units2 ids2,
    acts (on_named (selection st uid) (select_one gl false f32_half)) (st_units st) units1 /\
    acts (on_named (sd_tags e) (select_one gl true f32_two)) units1 units2 /\ st_units st' = units2 /\
    it_hint it = HSelection (dedup_by su_index (mc_sort mc (stored_units units1 ids1 ++ stored_units units2 ids2))) /\
    NoDup ids1 /\ NoDup ids2 /\
    (forall i, In i ids1 <-> named (selection st uid) i = true /\ exists u, mget i (st_units st) = Some u /\ su_selected u = true) /\
    (forall i, In i ids2 <-> named (sd_tags e) i = true /\ exists u, mget i units1 = Some u /\ su_selected u = false).
Proof.
  intros mc st gl uid n e st' it Hg Hh. apply transition_game in Hh as (e' & h & Hh & ->). cbn [handle_game_event] in Hh.
  unfold handle_selection_delta in Hh. rewrite Hg in Hh. change (10 =? active_group) with true in Hh. cbn [obind] in Hh.
  apply obind_ok in Hh as ([st1 upd] & H1 & Hh). apply obind_ok in Hh as (st2 & H2 & Hh).
  apply obind_ok in H1 as ([sta la] & Ha & H1). apply unmark_ok in Ha as (units1 & ids1 & -> & -> & S1).
  unfold mark_selected_units in H1. cbn [with_units st_units] in H1. destruct (select_loop gl true f32_two (sd_tags e) units1) as [units2 ids2] eqn:S2.
  injection H1 as <- <-. injection Hh as <- <- <-. apply change_groups_ok in H2 as (Hu & _).
  apply select_loop_acts in S1 as (A1 & N1 & I1). apply select_loop_acts in S2 as (A2 & N2 & I2).
  exists units1, ids1, units2, ids2. repeat split; try assumption; try (apply I1); try (apply I2); auto.
Qed.
