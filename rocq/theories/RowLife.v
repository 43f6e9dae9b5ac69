(** * What the tracker events say about a unit: proofs *)
From Verif Require Import Base Types F32 Tags Events Maps Lobby Balance Convert ConvertSpec Stream Iterators Dispatch StreamSpec State StateFacts StateSpec StateSteps StateProofs StateEvents StateMore Merge MergeSpec MergeFacts DetailsData Rows RowSpec RowFacts.
#[local] Open Scope string_scope.
#[local] Open Scope Z_scope.
#[local] Open Scope list_scope.

(** ** Player names *)
Lemma mset_keys : forall A l k (a : A), mget k l <> None -> map fst (mset k a l) = map fst l.
Proof.
  intros A l k a. induction l as [|[k' a'] l IH]; cbn [mget mset]; [congruence|]. destruct (Z.eqb_spec k' k) as [->|Hn]; intros H; cbn [map fst]; [reflexivity|]. rewrite IH by exact H. reflexivity.
Qed.
Lemma step_keys : forall mc st e st' i, wf st -> handle_transition mc st e = Ok (st', i) -> map fst (st_users st') = map fst (st_users st).
Proof.
  intros mc st [gl e|gl uid n e] st' i Hw Hh.
  - apply transition_tracker in Hh as (e' & h & Hh & _). apply tracker_users in Hh; [|exact Hw]. destruct e; try (rewrite Hh; reflexivity).
    + destruct Hh as [[K _] _]. exact K.
    + subst st'. unfold handle_player_setup. destruct (se_user_id e) as [u|]; [|reflexivity]. destruct (mget u (st_users st)) eqn:E; [|reflexivity].
      cbn [with_users st_users]. apply mset_keys. congruence.
  - apply transition_game in Hh as (e' & h & Hh & _). apply game_frame in Hh as (_ & _ & _ & K & _). exact K.
Qed.
Lemma history_keys : forall mc st0 evs st its, history mc st0 evs st its -> map fst (st_users st) = map fst (st_users st0).
Proof.
  intros mc st0 evs. induction evs as [|e evs IH] using rev_ind; intros st its Hh.
  - destruct Hh as [_ Hr]. cbn in Hr. injection Hr as <- _. reflexivity.
  - apply history_snoc in Hh as (st1 & its1 & it & Hh & He & _). rewrite <- (IH _ _ Hh). eapply step_keys; [eapply history_wf; exact Hh|exact He].
Qed.
Lemma announced_tracker : forall uid evs, last_some (announced uid) (map tracker_item (tracker_part evs)) = last_some (announced uid) evs.
Proof.
  intros uid evs. induction evs as [|e evs IH] using rev_ind; [reflexivity|]. rewrite tracker_part_app, map_app, last_some_snoc.
  destruct e as [l x|l u n x]; cbn [tracker_part flat_map app map].
  - rewrite last_some_snoc. unfold tracker_item at 1. cbn [fst snd]. rewrite IH. reflexivity.
  - rewrite app_nil_r, IH. reflexivity.
Qed.
Lemma player_named_ok : forall mc st0 evs st its p, history mc st0 evs st its -> player_name_of (st_users st) p = player_named st0 (tracker_part evs) p.
Proof.
  intros mc st0 evs st its p Hh. unfold player_named.
  assert (Hl : forall uid us, mget uid (st_users st) = Some us -> exists us0, mget uid (st_users st0) = Some us0 /\
    pd_name (ld_player (us_lobby us)) = pd_name (ld_player (us_lobby us0)) /\ ld_setup_player (us_lobby us) = option_map fst (last_some (announced uid) evs)).
  { intros uid us Hu. destruct (lobby_last _ _ _ _ _ _ _ Hh Hu) as (us0 & E0 & E). exists us0. split; [exact E0|]. rewrite E.
    destruct (last_some (announced uid) evs) as [[q s]|]; [split; reflexivity|]. split; [reflexivity|].
    destruct Hh as [(init & d & b & Hs) _]. destruct (start_user _ _ _ _ _ _ Hs E0) as (l & ps & -> & _ & Hp & Hi). apply (lobby_setup_none _ _ _ _ Hp Hi). }
  pose proof (history_keys _ _ _ _ _ Hh) as Hk. pose proof (history_wf _ _ _ _ _ Hh) as [Hd _].
  assert (Hin : forall uid us us0, In (uid, us) (st_users st) -> In (uid, us0) (st_users st0) -> pd_name (ld_player (us_lobby us)) = pd_name (ld_player (us_lobby us0)) /\ ld_setup_player (us_lobby us) = option_map fst (last_some (announced uid) evs)).
  { intros uid us us0 Hu H0. destruct (Hl uid us) as (us1 & E1 & E); [apply In_mget; assumption|]. rewrite (In_mget (st_users st0) uid us0) in E1; [|rewrite <- Hk; exact Hd|exact H0].
    injection E1 as <-. exact E. }
  clear Hl Hd Hh. revert Hk Hin. generalize (st_users st) as us, (st_users st0) as us0. induction us as [|[k u] us IH]; intros [|[k0 u0] us0] Hk Hin; cbn [map fst] in Hk; try discriminate; [reflexivity|].
  injection Hk as -> Hk. cbn [player_name_of find fst]. destruct (Hin k0 u u0) as [En Es]; [left; reflexivity|left; reflexivity|].
  rewrite (announced_tracker k0 evs), Es. specialize (IH us0 Hk ltac:(intros; eapply Hin; right; eassumption)).
  destruct (last_some (announced k0) evs) as [[q s]|]; cbn [option_map fst]; [|exact IH]. destruct (q =? p); [rewrite En; reflexivity|exact IH].
Qed.

(** ** Lives *)
Definition life_view (u : sc2_unit) : life := mk_life (su_name u) (su_user u) (su_player u) (su_pos u) (su_ability u).
Lemma life_from_app : forall b st0 i l1 l2 before x, life_from b st0 i before x (l1 ++ l2) = life_from b st0 i (before ++ l1) (life_from b st0 i before x l1) l2.
Proof.
  intros b st0 i l1. induction l1 as [|e l1 IH]; intros l2 before x; cbn [app life_from]; [rewrite app_nil_r; reflexivity|]. rewrite IH, <- app_assoc. reflexivity.
Qed.
Lemma life_snoc : forall b st0 l e i, life_of b st0 (l ++ [e]) i = life_step b st0 i l (life_of b st0 l i) (snd e).
Proof. intros. unfold life_of. rewrite life_from_app. reflexivity. Qed.
Lemma props_view : forall b u, life_view (set_unit_props b u) = life_view u.
Proof. intros b u. reflexivity. Qed.
Lemma life_step_tracker : forall mc st0 evs st its l e st' it i, history mc st0 evs st its -> handle_transition mc st (ETracker l e) = Ok (st', it) ->
  option_map life_view (unit_of st' i) = life_step (mc_build mc) st0 i (tracker_part evs) (option_map life_view (unit_of st i)) e.
Proof.
  intros mc st0 evs st its l e st' it i Hh He. destruct e as [e|e|e|e|e|e|e|e|e|e]; try (cbn in He; injection He as <- _; reflexivity).
  - apply transition_tracker in He as (e' & h & He & _). cbn [handle_tracker_event] in He. apply fst_of in He. subst st'. rewrite born_unit. cbn [life_step].
    unfold creator_touched. destruct (Z.eqb_spec (ub_index e) i) as [<-|Hn].
    + destruct (unit_of st (ub_index e)) as [u|]; destruct (match ub_creator_index e with Some c => c =? ub_index e | None => false end); cbn [option_map]; try reflexivity;
        rewrite props_view; unfold life_view; cbn; rewrite (player_named_ok _ _ _ _ _ _ Hh); reflexivity.
    + destruct (match ub_creator_index e with Some c => c =? i | None => false end); [|reflexivity]. destruct (unit_of st i); reflexivity.
  - apply transition_tracker in He as (e' & h & He & _). cbn [handle_tracker_event] in He. rewrite (died_unit _ _ _ _ _ i He). cbn [life_step]. destruct (ud_index e =? i); reflexivity.
  - apply transition_tracker in He as (e' & h & He & _). cbn [handle_tracker_event] in He. apply fst_of in He. subst st'. rewrite type_unit. cbn [life_step].
    destruct (ut_index e =? i); [|reflexivity]. cbn [option_map]. rewrite props_view. destruct (unit_of st i); reflexivity.
  - apply transition_tracker in He as (e' & h & He & _). cbn [handle_tracker_event] in He. apply fst_of in He. subst st'. rewrite init_unit. cbn [life_step].
    destruct (ui_index e =? i); [|reflexivity]. cbn [option_map]. destruct (unit_of st i) as [u|]; cbn [option_map]; [reflexivity|]. rewrite props_view. unfold life_view. cbn.
    rewrite (player_named_ok _ _ _ _ _ _ Hh). reflexivity.
  - apply transition_tracker in He as (e' & h & He & _). cbn [handle_tracker_event] in He. apply fst_of in He. subst st'. rewrite done_unit. cbn [life_step].
    destruct (un_index e =? i); [|reflexivity]. destruct (unit_of st i); reflexivity.
  - destruct (position_effect _ _ _ _ _ _ He) as (ps & Ep & _ & _ & _ & Hu). rewrite Hu. cbn [life_step]. rewrite Ep. destruct (unit_of st i) as [u|]; [|reflexivity]. cbn [option_map].
    destruct (last_position ps i); reflexivity.
  - apply transition_tracker in He as (e' & h & He & _). cbn [handle_tracker_event] in He. injection He as <- _ _. cbn [life_step]. unfold unit_of, handle_player_setup.
    destruct (se_user_id e) as [u|]; [destruct (mget u (st_users st))|]; reflexivity.
Qed.
Lemma life_ok : forall mc st0 evs st its, history mc st0 evs st its -> forall i, option_map life_view (unit_of st i) = life_of (mc_build mc) st0 (tracker_part evs) i.
Proof.
  intros mc st0 evs. induction evs as [|e evs IH] using rev_ind; intros st its Hh i.
  - destruct Hh as [(init & d & b & Hs) Hr]. cbn in Hr. injection Hr as <- _. apply starts_wf in Hs as (_ & Hu & _). unfold unit_of. rewrite Hu. reflexivity.
  - apply history_snoc in Hh as (st1 & its1 & it & Hh & He & _). rewrite tracker_part_app. destruct e as [l e|l u n e]; cbn [tracker_part flat_map app].
    + rewrite life_snoc, <- (IH _ _ Hh i). cbn [snd]. eapply life_step_tracker; eassumption.
    + rewrite app_nil_r, <- (IH _ _ Hh i). apply transition_game in He as (e' & h & He & _). apply game_frame in He as (_ & Hk & _).
      pose proof (units_kept_unit st1 st i Hk) as Hi. destruct (unit_of st1 i) as [a|], (unit_of st i) as [c|]; try contradiction; [|reflexivity].
      cbn [option_map]. unfold life_view. destruct Hi as (_ & -> & -> & -> & -> & _ & -> & _). reflexivity.
Qed.

(** ** The tables of deaths and births *)
Lemma died_rows_ok : forall mc fs, tracker_rows mc (died_of_item fs) (fun st0 => died_spec (mc_build mc) st0 fs).
Proof.
  intros mc fs. split.
  - intros st0 evs st its l e st' it Hh He. unfold died_of_item, died_spec. rewrite (tracker_item_event _ _ _ _ _ _ He). cbn [fst snd]. destruct e; try reflexivity.
    apply transition_tracker in He as (e' & h & He & ->). cbn [handle_tracker_event it_hint] in *. unfold handle_unit_died in He. apply obind_ok in He as (users & _ & He).
    pose proof (life_ok _ _ _ _ _ Hh) as L. rewrite <- (L (ud_index e)). change (mget (ud_index e) (st_units st)) with (unit_of st (ud_index e)) in He.
    destruct (unit_of st (ud_index e)) as [u|] eqn:Eu; injection He as _ _ <-; cbn [option_map opt_list died_row_new lf_name life_view]; [|reflexivity]. do 2 f_equal.
    destruct (ud_killer_index e) as [k|]; [|reflexivity]. rewrite mget_mdel, Z.eqb_sym. destruct (k =? ud_index e); [reflexivity|]. rewrite <- (L k).
    unfold unit_of. destruct (mget k (st_units st)); reflexivity.
  - intros st l u n e st' it Hh. unfold died_of_item. destruct (game_item _ _ _ _ _ _ _ _ Hh) as (e' & ->). reflexivity.
Qed.
Lemma died_table : forall mc p fs init d b st tevs t gevs g res, starts init d b st -> sectors_of mc p tevs t gevs g ->
  table mc p (died_of_item fs) (merge_start st t g None) = Ok res ->
  exists ts, tracker_events_of tevs ts /\ res = rows_from (died_spec (mc_build mc) st fs) [] ts.
Proof. intros mc p fs. apply (tracker_table mc p), died_rows_ok. Qed.
Lemma born_rows_ok : forall mc fs, tracker_rows mc (born_of_item fs) (fun st0 => born_spec (mc_build mc) st0 fs).
Proof.
  intros mc fs. split.
  - intros st0 evs st its l e st' it Hh He. unfold born_of_item, born_spec. rewrite (tracker_item_event _ _ _ _ _ _ He). cbn [fst snd].
    pose proof (life_ok _ _ _ _ _ Hh) as L. destruct e; try reflexivity.
    + assert (Hu : option_map life_view (unit_of st' (ub_index e)) = life_step (mc_build mc) st0 (ub_index e) (tracker_part evs) (option_map life_view (unit_of st (ub_index e))) (TUnitBorn e)) by (eapply life_step_tracker; eassumption).
      destruct (born_effect mc st l e) as (st2 & it2 & E2 & _ & _ & u & cr & Eu & Eh & _ & Ec & _). rewrite E2 in He. injection He as -> ->. rewrite Eh. cbn [born_row_of_born opt_list].
      rewrite <- (L (ub_index e)). rewrite Eu in Hu. cbn [life_step option_map] in Hu. rewrite Z.eqb_refl in Hu. injection Hu as Hu. apply (f_equal lf_player) in Hu. cbn [lf_player life_view] in Hu. do 2 f_equal.
      * subst cr. destruct (ub_creator_index e) as [c|]; [|reflexivity]. rewrite <- (L c). destruct (unit_of st c); reflexivity.
      * rewrite Hu. destruct (unit_of st (ub_index e)); reflexivity.
    + apply transition_tracker in He as (e' & h & He & ->). cbn [handle_tracker_event it_hint] in *. injection He as He. unfold handle_unit_type_change in He.
      rewrite <- (L (ut_index e)). change (mget (ut_index e) (st_units st)) with (unit_of st (ut_index e)) in He.
      destruct (unit_of st (ut_index e)) as [u|] eqn:Eu; injection He as _ _ <-; reflexivity.
    + apply transition_tracker in He as (e' & h & He & ->). cbn [handle_tracker_event it_hint] in *. injection He as He. unfold handle_unit_done in He.
      rewrite <- (L (un_index e)). change (mget (un_index e) (st_units st)) with (unit_of st (un_index e)) in He.
      destruct (unit_of st (un_index e)) as [u|] eqn:Eu; injection He as _ _ <-; reflexivity.
  - intros st l u n e st' it Hh. unfold born_of_item. destruct (game_item _ _ _ _ _ _ _ _ Hh) as (e' & ->). reflexivity.
Qed.
Lemma born_table : forall mc p fs init d b st tevs t gevs g res, starts init d b st -> sectors_of mc p tevs t gevs g ->
  table mc p (born_of_item fs) (merge_start st t g None) = Ok res ->
  exists ts, tracker_events_of tevs ts /\ res = rows_from (born_spec (mc_build mc) st fs) [] ts.
Proof. intros mc p fs. apply (tracker_table mc p), born_rows_ok. Qed.
