(** * Selections, commands, cameras and names *)
From Verif Require Import Base F32 F32Facts Tags Events Maps Balance Lobby Convert State StateFacts StateSpec StateSteps StateProofs StateEvents.
From Coq Require Import Permutation Sorted.
#[local] Open Scope Z_scope.
#[local] Open Scope list_scope.

(** ** Users *)
Lemma users_known : forall mc st0 evs st its uid, history mc st0 evs st its ->
  (user_of st uid <> None <-> user_of st0 uid <> None).
Proof.
  intros mc st0 evs st its uid [(init & d & b & Hs) Hr]. apply starts_wf in Hs as (Hw & _).
  enough (Hp : wf st /\ (user_of st uid <> None <-> user_of st0 uid <> None)) by apply Hp.
  eapply (run_ind' mc (fun s => wf s /\ (user_of s uid <> None <-> user_of st0 uid <> None))); [| |exact Hr].
  - split; [exact Hw|tauto].
  - intros st1 e st2 it _ [W1 H1] Hh. split; [eapply step_wf; eauto|]. rewrite <- H1.
    assert (Hk : map fst (st_users st2) = map fst (st_users st1)).
    { destruct e as [gl e|gl u n e].
      - apply transition_tracker in Hh as (e' & h & Hh & _). apply tracker_users in Hh; [|exact W1].
        destruct e; try (rewrite Hh; reflexivity); [apply Hh|]. subst st2. unfold handle_player_setup.
        destruct (se_user_id e) as [u|]; [|reflexivity]. destruct (mget u (st_users st1)) eqn:E; [|reflexivity].
        apply mset_keys. congruence.
      - apply transition_game in Hh as (e' & h & Hh & _). apply game_frame in Hh as (_ & _ & Hh). apply Hh. }
    unfold user_of. rewrite !mget_None. rewrite Hk. tauto.
Qed.

(** ** Selection deltas *)
Lemma delta_users : forall mc st gl uid n e st' it, 0 <= sd_group e -> handle_transition mc st (EGame gl uid n (GSelectionDelta e)) = Ok (st', it) ->
  user_of st uid <> None ->
  group_of st' uid (sd_group e) = sd_tags e /\ forall g, 0 <= g -> g <> sd_group e -> group_of st' uid g = group_of st uid g.
Proof.
  intros mc st gl uid n e st' it H0 Hh Hu. apply transition_game in Hh as (e' & h & Hh & ->). cbn [handle_game_event] in Hh.
  unfold handle_selection_delta in Hh.
  apply obind_ok in Hh as ([st1 upd] & H1 & Hh). apply obind_ok in Hh as (st2 & H2 & Hh). injection Hh as <- <- <-.
  assert (E1 : st_users st1 = st_users st).
  { destruct (sd_group e =? active_group); [|injection H1 as <- <-; reflexivity].
    apply obind_ok in H1 as ([sta la] & Ha & H1). apply unmark_frame in Ha as (Ea & _).
    destruct (mark_selected_units sta gl (sd_tags e)) as [stb lb] eqn:Em. apply mark_frame in Em as (Eb & _). injection H1 as <- <-. congruence. }
  apply change_groups_ok in H2 as (_ & _ & H2). unfold group_of, user_of in *. rewrite E1 in H2.
  destruct (mget uid (st_users st)) as [us|] eqn:Hus; [|congruence]. destruct H2 as (gs & Hg & E2).
  apply group_set_ok in Hg as (_ & _ & Hg). rewrite E2, mget_mset, Z.eqb_refl. cbn [us_groups set_groups].
  fold (group gs (sd_group e)). fold (group (us_groups us)). split.
  - unfold group in *. rewrite Hg by lia. rewrite Z.eqb_refl. reflexivity.
  - intros g Hg0 Hn. specialize (Hg g H0 Hg0). unfold group in Hg. rewrite Hg. destruct (Z.eqb_spec (sd_group e) g); [congruence|reflexivity].
Qed.
(** A delta of another group touches no unit. *)
Lemma delta_other_units : forall mc st gl uid n e st' it, sd_group e <> 10 -> handle_transition mc st (EGame gl uid n (GSelectionDelta e)) = Ok (st', it) ->
  st_units st' = st_units st.
Proof.
  intros mc st gl uid n e st' it H0 Hh. apply transition_game in Hh as (e' & h & Hh & ->). cbn [handle_game_event] in Hh.
  unfold handle_selection_delta in Hh. destruct (Z.eqb_spec (sd_group e) active_group) as [E|_]; [contradiction|]. cbn [obind] in Hh.
  apply obind_ok in Hh as (st2 & H2 & Hh). injection Hh as <- <- <-. apply change_groups_ok in H2 as (E & _). exact E.
Qed.
Lemma named_spec : forall tags i, named tags i = true <-> In i (indices tags).
Proof. intros tags i. apply named_map. Qed.
Lemma named_false : forall tags i, named tags i = false <-> ~ In i (indices tags).
Proof. intros tags i. rewrite <- named_spec. destruct (named tags i); intuition congruence. Qed.
(** What a delta of the active group does to each unit. *)
Lemma delta_unit : forall mc st gl uid n e st' it, sd_group e = 10 ->
  handle_transition mc st (EGame gl uid n (GSelectionDelta e)) = Ok (st', it) ->
  forall i u, unit_of st i = Some u -> exists u', unit_of st' i = Some u' /\ same_identity u u' /\ su_cmd u' = su_cmd u /\
    (~ In i (indices (selection st uid)) -> ~ In i (indices (sd_tags e)) -> u' = u) /\
    (In i (indices (selection st uid)) \/ In i (indices (sd_tags e)) -> su_loop u' = gl) /\
    (In i (indices (sd_tags e)) -> su_selected u' = true) /\
    (In i (indices (selection st uid)) -> ~ In i (indices (sd_tags e)) -> su_selected u' = false) /\
    (In i (indices (sd_tags e)) -> su_selected u = false -> su_radius u' = f32_mul (su_radius u) f32_two) /\
    (In i (indices (sd_tags e)) -> ~ In i (indices (selection st uid)) -> su_selected u = true -> su_radius u' = su_radius u) /\
    (In i (indices (selection st uid)) -> ~ In i (indices (sd_tags e)) -> su_selected u = true -> su_radius u' = f32_mul (su_radius u) f32_half) /\
    (In i (indices (selection st uid)) -> ~ In i (indices (sd_tags e)) -> su_selected u = false -> su_radius u' = su_radius u) /\
    (In i (indices (selection st uid)) -> In i (indices (sd_tags e)) -> su_selected u = true -> su_radius u' = f32_mul (f32_mul (su_radius u) f32_half) f32_two).
Proof.
  intros mc st gl uid n e st' it Hg Hh i u Hu. destruct (delta_units _ _ _ _ _ _ _ _ Hg Hh) as (u1 & ids1 & u2 & ids2 & A1 & A2 & E2 & _).
  unfold unit_of in *. rewrite E2, A2, A1, Hu. cbn [option_map]. eexists. split; [reflexivity|].
  unfold on_named. destruct (named (selection st uid) i) eqn:N1; destruct (named (sd_tags e) i) eqn:N2;
    rewrite <- !named_spec, N1, N2; unfold select_one;
    destruct (su_selected u) eqn:Es; cbn [Bool.eqb su_selected set_loop set_selected su_loop su_radius su_cmd]; rewrite ?Es; cbn [Bool.eqb su_selected set_loop set_selected su_loop su_radius su_cmd];
    repeat split; intros; try reflexivity; try congruence; try (exfalso; congruence); intuition congruence.
Qed.
Lemma delta_round_trip : forall mc st gl1 gl2 uid n1 n2 e1 e2 st1 it1 st2 it2 i u,
  user_of st uid <> None -> unit_of st i = Some u -> su_selected u = false ->
  f32_valid (su_radius u) = true -> f32_doublable (su_radius u) = true ->
  sd_group e1 = 10 -> sd_group e2 = 10 -> In i (indices (sd_tags e1)) -> ~ In i (indices (sd_tags e2)) ->
  handle_transition mc st (EGame gl1 uid n1 (GSelectionDelta e1)) = Ok (st1, it1) ->
  handle_transition mc st1 (EGame gl2 uid n2 (GSelectionDelta e2)) = Ok (st2, it2) ->
  exists u1 u2, unit_of st1 i = Some u1 /\ su_selected u1 = true /\ su_radius u1 = f32_mul (su_radius u) f32_two /\
    unit_of st2 i = Some u2 /\ su_selected u2 = false /\ su_radius u2 = su_radius u.
Proof.
  intros mc st gl1 gl2 uid n1 n2 e1 e2 st1 it1 st2 it2 i u Hus Hu Hs Hv Hd G1 G2 I1 I2 H1 H2.
  destruct (delta_unit _ _ _ _ _ _ _ _ G1 H1 i u Hu) as (u1 & E1 & _ & _ & _ & _ & S1 & _ & R1 & _).
  assert (Hsel : selection st1 uid = sd_tags e1) by (unfold selection; rewrite <- G1; apply (fun Hx => delta_users _ _ _ _ _ _ _ _ Hx H1 Hus); rewrite G1; discriminate).
  destruct (delta_unit _ _ _ _ _ _ _ _ G2 H2 i u1 E1) as (u2 & E2 & _ & _ & _ & _ & _ & S2 & _ & _ & R2 & _).
  rewrite Hsel in *. exists u1, u2. rewrite (S1 I1) in *. rewrite (R1 I1 Hs) in *.
  split; [exact E1|]. split; [reflexivity|]. split; [reflexivity|]. split; [exact E2|]. split; [apply S2; assumption|].
  rewrite R2 by auto. apply (f32_double_half _ Hv Hd).
Qed.
(** What the hint of a delta lists. *)
Lemma sorted_units_NoDup : forall l, StronglySorted (fun a b : sc2_unit => su_index a < su_index b) l -> NoDup (map su_index l).
Proof.
  induction l as [|a l IH]; intros Hs; [constructor|]. inversion Hs as [|x y Hs' Hf]; subst. cbn. constructor; [|auto].
  intros Hi. apply in_map_iff in Hi as (b & E & Hb). rewrite Forall_forall in Hf. specialize (Hf b Hb). lia.
Qed.
Lemma delta_hint : forall mc st gl uid n e st' it, sorts mc -> reachable mc st -> sd_group e = 10 ->
  handle_transition mc st (EGame gl uid n (GSelectionDelta e)) = Ok (st', it) ->
  exists l, it_hint it = HSelection l /\ StronglySorted (fun a b => su_index a < su_index b) l /\
    (forall i, In i (map su_index l) <-> exists u, unit_of st i = Some u /\
       ((In i (indices (selection st uid)) /\ su_selected u = true) \/ (In i (indices (sd_tags e)) /\ su_selected u = false))) /\
    (forall u, In u l -> ~ (In (su_index u) (indices (selection st uid)) /\ In (su_index u) (indices (sd_tags e))) -> unit_of st' (su_index u) = Some u).
Proof.
  intros mc st gl uid n e st' it Hso Hre Hg Hh.
  destruct (delta_units _ _ _ _ _ _ _ _ Hg Hh) as (u1 & ids1 & u2 & ids2 & A1 & A2 & E2 & Eh & N1 & N2 & I1 & I2).
  assert (Hinv : forall i u, mget i (st_units st) = Some u -> su_index u = i) by (intros i u; apply (units_indexed mc st i u Hre)).
  assert (Hi1 : forall i u, mget i u1 = Some u -> su_index u = i).
  { intros i u Hu. rewrite A1 in Hu. destruct (mget i (st_units st)) as [w|] eqn:E; [|discriminate]. cbn in Hu. injection Hu as <-.
    transitivity (su_index w); [|apply Hinv, E]. apply (on_named_identity (select_one gl false f32_half) (selection st uid) i w (select_one_identity gl false f32_half)). }
  assert (Hi2 : forall i u, mget i u2 = Some u -> su_index u = i).
  { intros i u Hu. rewrite A2 in Hu. destruct (mget i u1) as [w|] eqn:E; [|discriminate]. cbn in Hu. injection Hu as <-.
    transitivity (su_index w); [|apply Hi1, E]. apply (on_named_identity (select_one gl true f32_two) (sd_tags e) i w (select_one_identity gl true f32_two)). }
  set (raw := stored_units u1 ids1 ++ stored_units u2 ids2) in *. destruct (Hso raw) as [Hp Hsd].
  exists (dedup_by su_index (mc_sort mc raw)). split; [exact Eh|]. split; [apply dedup_sorted, Hsd|].
  assert (Hraw : forall u, In u raw <-> (In (su_index u) ids1 /\ mget (su_index u) u1 = Some u) \/ (In (su_index u) ids2 /\ mget (su_index u) u2 = Some u)).
  { intros u. unfold raw. rewrite in_app_iff, !stored_units_In. split.
    - intros [(i & Hi & Hu)|(i & Hi & Hu)]; [left; rewrite (Hi1 _ _ Hu)|right; rewrite (Hi2 _ _ Hu)]; auto.
    - intros [[Hi Hu]|[Hi Hu]]; [left|right]; exists (su_index u); auto. }
  assert (Hids : forall i, In i (map su_index raw) <-> In i ids1 \/ In i ids2).
  { intros i. rewrite in_map_iff. split.
    - intros (u & <- & Hu). apply Hraw in Hu. intuition.
    - intros Hi. assert (Hex : exists u, mget i (st_units st) = Some u).
      { destruct Hi as [Hi|Hi]; [apply I1 in Hi as (_ & u & Hu & _); eauto|]. apply I2 in Hi as (_ & u & Hu & _).
        rewrite A1 in Hu. destruct (mget i (st_units st)); [eauto|discriminate]. }
      destruct Hex as (u & Hu). destruct Hi as [Hi|Hi].
      + exists (on_named (selection st uid) (select_one gl false f32_half) i u).
        assert (Ew : mget i u1 = Some (on_named (selection st uid) (select_one gl false f32_half) i u)) by (rewrite A1, Hu; reflexivity).
        pose proof (Hi1 _ _ Ew) as Ei. split; [exact Ei|]. apply Hraw. left. rewrite Ei. auto.
      + destruct (mget i u2) as [w|] eqn:Ew; [|rewrite A2, A1, Hu in Ew; discriminate]. exists w.
        pose proof (Hi2 _ _ Ew) as Ei. split; [exact Ei|]. apply Hraw. right. rewrite Ei. auto. }
  split.
  - intros i. transitivity (In i (map su_index raw)).
    + rewrite !in_map_iff. split.
      * intros (u & E & Hu). exists u. split; [exact E|]. apply dedup_incl in Hu. eapply Permutation_in; [exact Hp|exact Hu].
      * intros (u & E & Hu). apply (Permutation_in _ (Permutation_sym Hp)) in Hu. apply (dedup_keys _ su_index) in Hu as (w & Hw & Ew).
        exists w. split; [congruence|exact Hw].
    + rewrite Hids, I1, I2. setoid_rewrite named_spec. split.
      * intros [(Hi & u & Hu & Hs)|(Hi & u & Hu & Hs)]; [exists u; auto|]. rewrite A1 in Hu.
        destruct (mget i (st_units st)) as [w|] eqn:Ew; [|discriminate]. exists w. split; [exact Ew|]. cbn in Hu. injection Hu as <-.
        unfold on_named in Hs. destruct (named (selection st uid) i) eqn:En; [|right; auto]. apply named_spec in En.
        destruct (su_selected w) eqn:Esw; [left|right]; auto.
      * intros (u & Hu & Hc).
        destruct (su_selected u) eqn:Es; [left|right].
        -- destruct Hc as [[Hi _]|[_ Hx]]; [|discriminate]. split; [exact Hi|]. exists u. auto.
        -- destruct Hc as [[_ Hx]|[Hi _]]; [discriminate|]. split; [exact Hi|]. eexists. rewrite A1. unfold unit_of in Hu. rewrite Hu. split; [reflexivity|].
           unfold on_named, select_one. destruct (named (selection st uid) i); [|exact Es]. rewrite Es. exact Es.
  - intros u Hu Hn. apply dedup_incl in Hu. apply (Permutation_in _ Hp) in Hu. apply Hraw in Hu. unfold unit_of. rewrite E2.
    destruct Hu as [[Hi Hu]|[Hi Hu]]; [|exact Hu]. rewrite A2, Hu. cbn [option_map]. f_equal. unfold on_named.
    destruct (named (sd_tags e) (su_index u)) eqn:En; [|reflexivity]. apply named_spec in En. apply I1 in Hi as (Hi & _). apply named_spec in Hi.
    exfalso. auto.
Qed.

(** ** Commands *)
Lemma on_selected : forall st st' tags f gl (P : sc2_unit -> sc2_unit -> Prop), acts (on_named tags f) (st_units st) (st_units st') ->
  (forall u, same_but_cmd u (f u) /\ su_loop (f u) = gl /\ P u (f u)) ->
  (forall i, ~ In i (indices tags) -> unit_of st' i = unit_of st i) /\
  (forall i u, In i (indices tags) -> unit_of st i = Some u -> exists u', unit_of st' i = Some u' /\ su_loop u' = gl /\ same_but_cmd u u' /\ P u u').
Proof.
  intros st st' tags f gl P A Hf. unfold unit_of. split.
  - intros i Hi. rewrite A. unfold on_named. apply named_false in Hi. rewrite Hi. destruct (mget i (st_units st)); reflexivity.
  - intros i u Hi Hu. rewrite A, Hu. cbn [option_map]. unfold on_named. apply named_spec in Hi. rewrite Hi.
    exists (f u). split; [reflexivity|]. destruct (Hf u) as (B & C & D). auto.
Qed.
Lemma commands_effect : forall mc st gl uid n e st' it, effective st e ->
  handle_transition mc st (EGame gl uid n e) = Ok (st', it) ->
  st_users st' = st_users st /\
  (forall i, ~ In i (indices (selection st uid)) -> unit_of st' i = unit_of st i) /\
  (forall i u, In i (indices (selection st uid)) -> unit_of st i = Some u ->
     exists u', unit_of st' i = Some u' /\ su_loop u' = gl /\ same_but_cmd u u' /\ ordered st e u u') /\
  hint_units (it_hint it) = Some (units_at st' (indices (selection st uid))).
Proof.
  intros mc st gl uid n e st' it He Hh. apply transition_game in Hh as (e' & h & Hh & ->). destruct e; try contradiction; cbn [handle_game_event] in Hh; cbn [it_hint].
  - unfold handle_cmd in Hh. apply obind_ok in Hh as (tags & Ha & Hh). apply active_units_ok in Ha. subst tags.
    destruct (cmd_loop _ _ _ _ _ _) as [units [cmd' l]] eqn:El. injection Hh as <- <- <-. cbn [effective] in He.
    apply cmd_loop_acts in El as (A & B & _); [|exact He]. split; [reflexivity|].
    destruct (cm_abil e) as [a|] eqn:Ea; [|contradiction].
    destruct (on_selected st (with_units st units) _ _ gl (ordered st (GCmd e)) A) as [P1 P2].
    { intros u. split; [repeat split|]. split; [reflexivity|]. exists a. split; [exact Ea|].
      unfold commanded, with_ability. rewrite Ea. cbn.
      unfold unit_of. destruct (cm_data e) as [|c|t|z]; repeat split. }
    split; [exact P1|]. split; [exact P2|]. cbn [hint_units]. f_equal. rewrite B. exact (stored_units_at (with_units st units) _).
  - unfold handle_update_target_point in Hh. apply obind_ok in Hh as (tags & Ha & Hh). apply active_units_ok in Ha. subst tags.
    destruct (target_loop _ _ _) as [units l] eqn:El. injection Hh as <- <- <-.
    apply target_loop_acts in El as (A & B); [|reflexivity]. split; [reflexivity|].
    destruct (on_selected st (with_units st units) _ _ gl (ordered st (GCmdUpdateTargetPoint target)) A) as [P1 P2]; [intros u; repeat split; eexists; repeat split|].
    split; [exact P1|]. split; [exact P2|]. cbn [hint_units]. f_equal. rewrite B. exact (stored_units_at (with_units st units) _).
  - unfold handle_update_target_unit in Hh. cbn [effective] in He. unfold update_target, unit_of in He.
    destruct (match mget (tu_tag target) (st_units st) with Some x => Some x | None => mget (unit_tag_index (tu_tag target)) (st_units st) end) as [tg|]; [|congruence].
    apply obind_ok in Hh as (tags & Ha & Hh). apply active_units_ok in Ha. subst tags.
    destruct (target_loop _ _ _) as [units l] eqn:El. injection Hh as <- <- <-.
    apply target_loop_acts in El as (A & B); [|reflexivity]. split; [reflexivity|].
    destruct (on_selected st (with_units st units) _ _ gl (ordered st (GCmdUpdateTargetUnit target)) A) as [P1 P2]; [intros u; repeat split; eexists; repeat split|].
    split; [exact P1|]. split; [exact P2|]. cbn [hint_units]. f_equal. rewrite B. exact (stored_units_at (with_units st units) _).
Qed.
Lemma command_total : forall mc st gl uid n e, wf st ->
  (match e with GCmd _ | GCmdUpdateTargetPoint _ | GCmdUpdateTargetUnit _ => True | _ => False end) ->
  exists st' it, handle_transition mc st (EGame gl uid n e) = Ok (st', it).
Proof.
  intros mc st gl uid n e Hw He. pose proof (active_units_wf st uid Hw) as Ha.
  destruct e; try contradiction; cbn [handle_transition handle_game_event].
  - unfold handle_cmd. rewrite Ha. cbn [obind]. destruct (cmd_loop _ _ _ _ _ _) as [u [c l]]. cbn [obind]. eauto.
  - unfold handle_update_target_point. rewrite Ha. cbn [obind]. destruct (target_loop _ _ _) as [u l]. cbn [obind]. eauto.
  - unfold handle_update_target_unit.
    destruct (match mget (tu_tag target) (st_units st) with Some x => Some x | None => mget (unit_tag_index (tu_tag target)) (st_units st) end); [|cbn [obind]; eauto].
    rewrite Ha. cbn [obind]. destruct (target_loop _ _ _) as [u l]. cbn [obind]. eauto.
Qed.
(** Commands that reach no unit. *)
Lemma command_ineffective : forall mc st gl uid n e st' it,
  (match e with GCmd c => cm_abil c = None | GCmdUpdateTargetUnit t => update_target st t = None | _ => False end) ->
  handle_transition mc st (EGame gl uid n e) = Ok (st', it) ->
  st' = st /\ match hint_units (it_hint it) with Some l => l = [] | None => it_hint it = HNone end.
Proof.
  intros mc st gl uid n e st' it He Hh. apply transition_game in Hh as (e' & h & Hh & ->). destruct e; try contradiction; cbn [handle_game_event] in Hh; cbn [it_hint].
  - unfold handle_cmd in Hh. apply obind_ok in Hh as (tags & _ & Hh). rewrite cmd_loop_none in Hh by exact He. injection Hh as <- <- <-.
    split; [destruct st; reflexivity|reflexivity].
  - unfold handle_update_target_unit in Hh. unfold update_target, unit_of in He. rewrite He in Hh. injection Hh as <- <- <-. split; reflexivity.
Qed.
Lemma cmd_target : forall mc st gl uid n c st' it, handle_transition mc st (EGame gl uid n (GCmd c)) = Ok (st', it) ->
  exists l c', it_hint it = HAbilities l c' (match cm_data c with CDUnit t => unit_of st (tu_tag t) | _ => None end).
Proof.
  intros mc st gl uid n c st' it Hh. apply transition_game in Hh as (e' & h & Hh & ->). cbn [handle_game_event] in Hh. unfold handle_cmd in Hh.
  apply obind_ok in Hh as (tags & _ & Hh). destruct (cmd_loop _ _ _ _ _ _) as [units [c' l]]. injection Hh as <- <- <-. cbn [it_hint]. eauto.
Qed.
Lemma update_target_hint : forall mc st gl uid n t st' it, handle_transition mc st (EGame gl uid n (GCmdUpdateTargetUnit t)) = Ok (st', it) ->
  match update_target st t with Some x => exists l, it_hint it = HTargetUnits l x | None => it_hint it = HNone end.
Proof.
  intros mc st gl uid n t st' it Hh. apply transition_game in Hh as (e' & h & Hh & ->). cbn [handle_game_event] in Hh. unfold handle_update_target_unit in Hh.
  unfold update_target, unit_of.
  destruct (match mget (tu_tag t) (st_units st) with Some x => Some x | None => mget (unit_tag_index (tu_tag t)) (st_units st) end) as [tg|].
  - apply obind_ok in Hh as (tags & _ & Hh). destruct (target_loop _ _ _) as [units l]. injection Hh as <- <- <-. cbn [it_hint]. eauto.
  - injection Hh as <- <- <-. reflexivity.
Qed.

(** ** Isolation *)
Lemma game_isolation : forall mc st gl uid n e st' it v, handle_transition mc st (EGame gl uid n e) = Ok (st', it) -> v <> uid ->
  user_of st' v = user_of st v.
Proof. intros mc st gl uid n e st' it v Hh Hv. apply transition_game in Hh as (e' & h & Hh & _). apply game_frame in Hh as (_ & _ & Hh & _). apply Hh, Hv. Qed.
Lemma game_own_lobby : forall mc st gl uid n e st' it us', handle_transition mc st (EGame gl uid n e) = Ok (st', it) -> user_of st' uid = Some us' ->
  exists us, user_of st uid = Some us /\ us_lobby us' = us_lobby us.
Proof.
  intros mc st gl uid n e st' it us' Hh Hu. apply transition_game in Hh as (e' & h & Hh & _). apply game_frame in Hh as (_ & _ & _ & _ & Hh).
  destruct (user_of st uid) as [us|] eqn:E.
  - destruct Hh as (us2 & E2 & El & _). exists us. split; [reflexivity|]. congruence.
  - unfold user_of in *. rewrite Hh in Hu. congruence.
Qed.
Lemma tracker_isolation : forall mc st gl e st' it v g, wf st -> 0 <= g -> handle_transition mc st (ETracker gl e) = Ok (st', it) ->
  (exists keep, group_of st' v g = filter keep (group_of st v g)) /\
  option_map us_camera (user_of st' v) = option_map us_camera (user_of st v).
Proof.
  intros mc st gl e st' it v g Hw H0 Hh. pose proof Hh as Hh0. apply transition_tracker in Hh as (e' & h & Hh & _).
  pose proof (tracker_users _ _ _ _ _ _ Hw Hh) as Hu.
  assert (Hid : forall g : list Z, g = filter (fun _ => true) g) by (induction g0 as [|x l IH]; [reflexivity|cbn; f_equal; exact IH]).
  assert (Hsame : st_users st' = st_users st -> (exists keep, group_of st' v g = filter keep (group_of st v g)) /\
    option_map us_camera (user_of st' v) = option_map us_camera (user_of st v)).
  { intros E. unfold group_of, user_of. rewrite E. split; [exists (fun _ => true); apply Hid|reflexivity]. }
  destruct e; try (apply Hsame, Hu).
  - split; [eexists; eapply died_groups; eauto|]. destruct Hu as [[_ Hu] _]. specialize (Hu v).
    destruct (user_of st v), (user_of st' v); try contradiction; [|reflexivity]. cbn. f_equal. apply Hu.
  - subst st'. unfold group_of. rewrite setup_user.
    destruct (se_user_id e) as [u|]; [destruct (u =? v)|]; destruct (user_of st v) as [us|]; (split; [exists (fun _ => true); apply Hid|reflexivity]).
Qed.

(** ** Cameras *)
Lemma last_some_snoc : forall A B (f : A -> option B) l a, last_some f (l ++ [a]) = match f a with Some b => Some b | None => last_some f l end.
Proof.
  intros A B f l a. induction l as [|x l IH]; cbn [last_some app]; [destruct (f a); reflexivity|]. rewrite IH. destruct (f a); reflexivity.
Qed.
Lemma filter_map_out_In : forall A B (f : A -> outcome (option B)) l bs b, filter_map_out f l = Ok bs -> (In b bs <-> exists a, In a l /\ f a = Ok (Some b)).
Proof.
  intros A B f. induction l as [|a l IH]; intros bs b Hl; cbn [filter_map_out] in Hl.
  - injection Hl as <-. split; [intros []|intros (a & [] & _)].
  - apply obind_ok in Hl as (o & Ho & Hl). apply obind_ok in Hl as (bs' & Hbs & Hl). injection Hl as <-.
    specialize (IH _ b Hbs). transitivity (o = Some b \/ In b bs').
    + destruct o as [y|]; cbn [In]; intuition congruence.
    + rewrite IH. split.
      * intros [->|(x & Hx & Ex)]; [exists a|exists x]; cbn [In]; auto.
      * intros (x & [<-|Hx] & Ex); [left; congruence|right; exists x; auto].
Qed.
Lemma lobby_setup_none : forall init d players p, lobby_details_of init d = Ok players -> In p players -> ld_setup_player p = None /\ ld_setup_slot p = None.
Proof.
  intros init d players p Hl Hp. apply (proj1 (filter_map_out_In _ _ _ _ _ p Hl)) in Hp as (x & _ & Hx). unfold lobby_of in Hx.
  destruct (slot_loop _ _ _); [|discriminate]. destruct (nth_error _ _); [|discriminate]. injection Hx as <-. split; reflexivity.
Qed.
Lemma initial_users_In : forall players ps acc, (forall k u, In (k, u) acc -> exists l, u = new_user l /\ ls_user_id (ld_slot l) = Some k /\ In l players) ->
  (forall p, In p ps -> In p players) -> forall k u, In (k, u) (fold_left insert_player ps acc) -> exists l, u = new_user l /\ ls_user_id (ld_slot l) = Some k /\ In l players.
Proof.
  intros players. induction ps as [|p ps IH]; intros acc Hacc Hps k u Hk; [apply (Hacc _ _ Hk)|].
  cbn [fold_left] in Hk. eapply IH; [| |exact Hk].
  - intros k0 u0 Hk0. unfold insert_player in Hk0. destruct (ls_user_id (ld_slot p)) as [q|] eqn:Eq; [|apply Hacc, Hk0].
    apply mset_In in Hk0 as [E|Hk0]; [|apply Hacc, Hk0]. injection E as -> ->. exists p. split; [reflexivity|]. split; [exact Eq|]. apply Hps. left. reflexivity.
  - intros p' Hp'. apply Hps. right. exact Hp'.
Qed.
Lemma start_user : forall init d b st uid us, starts init d b st -> user_of st uid = Some us -> exists l players, us = new_user l /\
  ls_user_id (ld_slot l) = Some uid /\ lobby_details_of init d = Ok players /\ In l players.
Proof.
  intros init d b st uid us (st1 & Hi & _ & _ & Hp) Hu. unfold user_of in Hu. apply mget_In in Hu. apply (Permutation_in _ Hp) in Hu.
  unfold initial_state in Hi. apply obind_ok in Hi as (players & Hl & Hi). injection Hi as <-. cbn [st_users] in Hu.
  destruct (initial_users_In players players [] ltac:(intros k u []) ltac:(auto) _ _ Hu) as (l & -> & A & B).
  exists l, players. auto.
Qed.
(** The camera and the announced ids of a user after one event. *)
Lemma camera_step : forall mc st e st' it uid, wf st -> handle_transition mc st e = Ok (st', it) ->
  option_map us_camera (user_of st' uid) = match user_of st uid, camera_target uid e with
    | Some us, Some p => Some p | Some us, None => Some (us_camera us) | None, _ => None end.
Proof.
  intros mc st [gl e|gl u n e] st' it uid Hw Hh.
  - destruct (tracker_isolation _ _ _ _ _ _ uid 0 Hw ltac:(lia) Hh) as [_ E]. rewrite E. cbn [camera_target]. destruct (user_of st uid); reflexivity.
  - destruct (Z.eq_dec u uid) as [->|Hn].
    2:{ rewrite (game_isolation _ _ _ _ _ _ _ _ uid Hh) by congruence.
        assert (Hc : camera_target uid (EGame gl u n e) = None) by (destruct e; cbn [camera_target]; try reflexivity; destruct (Z.eqb_spec u uid); congruence).
        rewrite Hc. destruct (user_of st uid); reflexivity. }
    assert (Hmv : forall p, option_map us_camera (user_of (move_camera st uid p) uid) = match user_of st uid with Some _ => Some p | None => None end).
    { intros p. unfold move_camera, user_of. destruct (mget uid (st_users st)) eqn:E; cbn [with_users st_users]; [rewrite mget_mset, Z.eqb_refl|rewrite E]; reflexivity. }
    assert (Hu : st_users st' = st_users st -> option_map us_camera (user_of st' uid) = match user_of st uid with Some us => Some (us_camera us) | None => None end).
    { intros E. unfold user_of. rewrite E. destruct (mget uid (st_users st)); reflexivity. }
    apply transition_game in Hh as (e' & h & Hh & _).
    destruct e; cbn [handle_game_event camera_target] in *; rewrite ?Z.eqb_refl;
      try (injection Hh as <- <- <-; rewrite Hu by reflexivity; destruct (user_of st uid); reflexivity).
    + unfold handle_camera_save in Hh. injection Hh as <- <- <-. rewrite Hmv. destruct (user_of st uid); reflexivity.
    + unfold handle_cmd in Hh. apply obind_ok in Hh as (tags & _ & Hh). destruct (cmd_loop _ _ _ _ _ _) as [units [c' l]]. injection Hh as <- <- <-.
      rewrite Hu by reflexivity. destruct (user_of st uid); reflexivity.
    + unfold handle_selection_delta in Hh. apply obind_ok in Hh as ([st1 upd] & H1 & Hh). apply obind_ok in Hh as (st2 & H2 & Hh). injection Hh as <- <- <-.
      assert (E1 : st_users st1 = st_users st).
      { destruct (sd_group e =? active_group); [|injection H1 as <- <-; reflexivity].
        apply obind_ok in H1 as ([sta la] & Ha & H1). apply unmark_frame in Ha as (Ea & _).
        destruct (mark_selected_units sta gl (sd_tags e)) as [stb lb] eqn:Em. apply mark_frame in Em as (Eb & _). injection H1 as <- <-. congruence. }
      apply change_groups_ok in H2 as (_ & _ & H2). unfold user_of in *. rewrite E1 in H2. destruct (mget uid (st_users st)) as [us|] eqn:Eu.
      * destruct H2 as (gs & _ & ->). rewrite mget_mset, Z.eqb_refl. reflexivity.
      * subst st2. rewrite E1, Eu. reflexivity.
    + rewrite update_control_group_eq in Hh. apply obind_ok in Hh as ([st1 upd] & H1 & Hh). apply obind_ok in Hh as (st2 & H2 & Hh).
      apply unmark_frame in H1 as (E1 & _). apply change_groups_ok in H2 as (_ & _ & H2).
      assert (E2 : option_map us_camera (mget uid (st_users st2)) = option_map us_camera (mget uid (st_users st))).
      { unfold user_of in H2. rewrite E1 in H2. destruct (mget uid (st_users st)) as [us|] eqn:Eu.
        - destruct H2 as (gs & _ & ->). rewrite mget_mset, Z.eqb_refl. reflexivity.
        - subst st2. rewrite E1, Eu. reflexivity. }
      assert (E3 : st_users st' = st_users st2).
      { destruct (cg_update e); try (injection Hh as <- <- <-; reflexivity).
        apply obind_ok in Hh as (sel & _ & Hh). destruct (mark_selected_units st2 gl sel) as [st3 l3] eqn:Em. injection Hh as <- <- <-.
        apply mark_frame in Em as (E3 & _). exact E3. }
      unfold user_of. rewrite E3, E2. destruct (mget uid (st_users st)); reflexivity.
    + unfold handle_camera_update in Hh. injection Hh as <- <- <-. destruct (cu_target e) as [p|]; [rewrite Hmv; destruct (user_of st uid); reflexivity|].
      rewrite Hu by reflexivity. destruct (user_of st uid); reflexivity.
    + unfold handle_update_target_point in Hh. apply obind_ok in Hh as (tags & _ & Hh). destruct (target_loop _ _ _) as [units l]. injection Hh as <- <- <-.
      rewrite Hu by reflexivity. destruct (user_of st uid); reflexivity.
    + unfold handle_update_target_unit in Hh.
      destruct (match mget (tu_tag target) (st_units st) with Some x => Some x | None => mget (unit_tag_index (tu_tag target)) (st_units st) end).
      * apply obind_ok in Hh as (tags & _ & Hh). destruct (target_loop _ _ _) as [units l]. injection Hh as <- <- <-.
        rewrite Hu by reflexivity. destruct (user_of st uid); reflexivity.
      * injection Hh as <- <- <-. destruct (user_of st uid); reflexivity.
Qed.
Lemma run_prefix_wf : forall mc st0 evs st its, wf st0 -> run mc st0 evs = Ok (st, its) -> wf st.
Proof. intros mc st0 evs st its Hw Hr. eapply (run_ind' mc wf); [exact Hw| |exact Hr]. intros. eapply step_wf; eauto. Qed.
Lemma camera_last : forall mc st0 evs st its uid us, history mc st0 evs st its -> user_of st uid = Some us ->
  us_camera us = match last_some (camera_target uid) evs with Some p => p | None => mk_point 0 0 end.
Proof.
  intros mc st0 evs st its uid us [(init & d & b & Hs) Hr]. revert st its us Hr.
  induction evs as [|e evs IH] using rev_ind; intros st its us Hr Hu.
  - cbn in Hr. injection Hr as <- <-. destruct (start_user _ _ _ _ _ _ Hs Hu) as (l & ps & -> & _). reflexivity.
  - apply run_snoc in Hr as (st1 & its1 & it & H1 & H2 & _). rewrite last_some_snoc.
    assert (W1 : wf st1) by (eapply run_prefix_wf; [apply (starts_wf _ _ _ _ Hs)|exact H1]).
    pose proof (camera_step _ _ _ _ _ uid W1 H2) as Hc. rewrite Hu in Hc. cbn in Hc.
    destruct (user_of st1 uid) as [us1|] eqn:E1; [|discriminate]. specialize (IH _ _ _ H1 E1).
    destruct (camera_target uid e); injection Hc as Hc; [exact Hc|]. rewrite Hc. exact IH.
Qed.

(** ** Player names *)
Lemma setup_step : forall mc st e st' it uid, wf st -> handle_transition mc st e = Ok (st', it) ->
  option_map us_lobby (user_of st' uid) = match user_of st uid, announced uid e with
    | Some us, Some (p, s) => Some (set_setup (us_lobby us) (Some p) s) | Some us, None => Some (us_lobby us) | None, _ => None end.
Proof.
  intros mc st [gl e|gl u n e] st' it uid Hw Hh.
  - apply transition_tracker in Hh as (e' & h & Hh & _). pose proof (tracker_users _ _ _ _ _ _ Hw Hh) as Hu.
    assert (Hsame : st_users st' = st_users st -> option_map us_lobby (user_of st' uid) = match user_of st uid with Some us => Some (us_lobby us) | None => None end).
    { intros E. unfold user_of. rewrite E. destruct (mget uid (st_users st)); reflexivity. }
    destruct e; cbn [announced]; try (rewrite Hsame by exact Hu; destruct (user_of st uid); reflexivity).
    + destruct Hu as [[_ Hu] _]. specialize (Hu uid). destruct (user_of st uid), (user_of st' uid); try contradiction; [|reflexivity]. cbn. f_equal. apply Hu.
    + subst st'. rewrite setup_user. destruct (se_user_id e) as [u|]; [destruct (u =? uid)|]; destruct (user_of st uid); reflexivity.
  - cbn [announced]. destruct (Z.eq_dec u uid) as [->|Hn].
    + destruct (user_of st' uid) as [us'|] eqn:E'.
      * destruct (game_own_lobby _ _ _ _ _ _ _ _ _ Hh E') as (us & E & El). rewrite E. cbn. congruence.
      * apply transition_game in Hh as (e' & h & Hh & _). apply game_frame in Hh as (_ & _ & _ & _ & Hh).
        destruct (user_of st uid); [|reflexivity]. destruct Hh as (us2 & E2 & _). congruence.
    + rewrite (game_isolation _ _ _ _ _ _ _ _ uid Hh) by congruence. destruct (user_of st uid); reflexivity.
Qed.
Lemma lobby_last : forall mc st0 evs st its uid us, history mc st0 evs st its -> user_of st uid = Some us ->
  exists us0, user_of st0 uid = Some us0 /\
  us_lobby us = match last_some (announced uid) evs with Some (p, s) => set_setup (us_lobby us0) (Some p) s | None => us_lobby us0 end.
Proof.
  intros mc st0 evs st its uid us [(init & d & b & Hs) Hr]. revert st its us Hr.
  induction evs as [|e evs IH] using rev_ind; intros st its us Hr Hu.
  - cbn in Hr. injection Hr as <- <-. exists us. split; [exact Hu|reflexivity].
  - apply run_snoc in Hr as (st1 & its1 & it & H1 & H2 & _). rewrite last_some_snoc.
    assert (W1 : wf st1) by (eapply run_prefix_wf; [apply (starts_wf _ _ _ _ Hs)|exact H1]).
    pose proof (setup_step _ _ _ _ _ uid W1 H2) as Hc. rewrite Hu in Hc. cbn in Hc.
    destruct (user_of st1 uid) as [us1|] eqn:E1; [|discriminate]. destruct (IH _ _ _ H1 E1) as (us0 & E0 & IHe). exists us0. split; [exact E0|].
    destruct (announced uid e) as [[p s]|]; injection Hc as Hc; [|congruence]. rewrite Hc, IHe.
    destruct (last_some (announced uid) evs) as [[p' s']|]; reflexivity.
Qed.
Lemma name_spec : forall users p, NoDup (map fst users) ->
  match player_name_of users p with
  | Some n => exists uid us, mget uid users = Some us /\ ld_setup_player (us_lobby us) = Some p /\ n = pd_name (ld_player (us_lobby us))
  | None => forall uid us, mget uid users = Some us -> ld_setup_player (us_lobby us) <> Some p
  end.
Proof.
  intros users p. induction users as [|[k us] users IH]; intros Hd; cbn [player_name_of mget]; [intros; discriminate|].
  cbn [map fst] in Hd. inversion Hd as [|x y Hx Hy]; subst. specialize (IH Hy).
  assert (Hlift : forall uid us0, mget uid users = Some us0 -> k <> uid).
  { intros uid us0 Hm <-. apply Hx. apply in_map_iff. exists (k, us0). split; [reflexivity|]. apply mget_In, Hm. }
  assert (Hrest : ld_setup_player (us_lobby us) <> Some p -> match player_name_of users p with
    | Some n => exists uid us0, (if k =? uid then Some us else mget uid users) = Some us0 /\ ld_setup_player (us_lobby us0) = Some p /\ n = pd_name (ld_player (us_lobby us0))
    | None => forall uid us0, (if k =? uid then Some us else mget uid users) = Some us0 -> ld_setup_player (us_lobby us0) <> Some p end).
  { intros Hne. destruct (player_name_of users p).
    - destruct IH as (uid & us0 & A & B & C). exists uid, us0. destruct (Z.eqb_spec k uid) as [E|_]; [exfalso; eapply Hlift; eauto|auto].
    - intros uid us0. destruct (k =? uid); [congruence|apply IH]. }
  destruct (ld_setup_player (us_lobby us)) as [q|] eqn:Eq; [|apply Hrest; discriminate].
  destruct (Z.eqb_spec q p) as [->|Hn]; [|apply Hrest; congruence]. exists k, us. rewrite Z.eqb_refl. auto.
Qed.
Lemma names_of : forall mc st0 evs st its p, history mc st0 evs st its -> names_player evs st p (player_name_of (st_users st) p).
Proof.
  intros mc st0 evs st its p Hh. pose proof (history_wf _ _ _ _ _ Hh) as [Hd _]. pose proof (name_spec (st_users st) p Hd) as Hn.
  assert (Hl : forall uid us, user_of st uid = Some us -> ld_setup_player (us_lobby us) = option_map fst (last_some (announced uid) evs)).
  { intros uid us Hu. destruct (lobby_last _ _ _ _ _ _ _ Hh Hu) as (us0 & E0 & E).
    rewrite E. destruct (last_some (announced uid) evs) as [[q s]|]; [reflexivity|].
    destruct Hh as [(init & d & b & Hs) _]. destruct (start_user _ _ _ _ _ _ Hs E0) as (l & ps & -> & _ & Hp & Hi). apply (lobby_setup_none _ _ _ _ Hp Hi). }
  unfold names_player. destruct (player_name_of (st_users st) p).
  - destruct Hn as (uid & us & A & B & C). rewrite (Hl uid us A) in B. destruct (last_some (announced uid) evs) as [[q t]|] eqn:E; [|discriminate].
    cbn in B. injection B as ->. exists uid, us, t. auto.
  - intros uid us t A B. apply (Hn uid us A). rewrite (Hl uid us A), B. reflexivity.
Qed.
Lemma names_unique : forall evs st p n n',
  (forall u v s t, user_of st u <> None -> user_of st v <> None -> last_some (announced u) evs = Some (p, s) -> last_some (announced v) evs = Some (p, t) -> u = v) ->
  names_player evs st p n -> names_player evs st p n' -> n = n'.
Proof.
  intros evs st p [n|] [n'|] Hq Hn Hn'; cbn [names_player] in *; [| | |reflexivity].
  - destruct Hn as (u & us & s & A & B & ->), Hn' as (v & vs & t & A' & B' & ->).
    assert (u = v) as <- by (eapply Hq; eauto; congruence). congruence.
  - destruct Hn as (u & us & s & A & B & _). exfalso. eapply Hn'; eauto.
  - destruct Hn' as (u & us & s & A & B & _). exfalso. eapply Hn; eauto.
Qed.
Lemma upgrade_named : forall mc st gl x, handle_transition mc st (ETracker gl (TUpgrade x)) =
  Ok (st, mk_item (ETracker gl (TUpgrade (mk_upgrade (ug_player_id x) (player_name_of (st_users st) (ug_player_id x)) (ug_name x) (ug_count x)))) HNone).
Proof. reflexivity. Qed.

(** ** Control groups, by kind of update *)
Lemma control_total : forall mc st gl uid n e, wf st -> 0 <= cg_index e ->
  (cg_index e <= 10 \/ user_of st uid = None <-> exists st' it, handle_transition mc st (EGame gl uid n (GControlGroupUpdate e)) = Ok (st', it)) /\
  (10 < cg_index e -> user_of st uid <> None -> handle_transition mc st (EGame gl uid n (GControlGroupUpdate e)) = Panic).
Proof.
  intros mc st gl uid n e Hw Hi. pose proof (control_effect mc st gl uid n e Hw Hi) as He.
  destruct (user_of st uid) as [us|].
  - destruct (Z.leb_spec (cg_index e) 10) as [Hl|Hl].
    + destruct He as (st' & it & E & _). rewrite E. split; [split; eauto|lia].
    + rewrite He. split; [|reflexivity]. split; [intros [Hx|Hx]; [lia|discriminate]|intros (st' & it & Hx); discriminate].
  - destruct He as (st' & it & E & _). rewrite E. split; [split; eauto|congruence].
Qed.
Lemma delta_total_iff : forall mc st gl uid n e, wf st -> 0 <= sd_group e ->
  (sd_group e <= 10 \/ user_of st uid = None <-> exists st' it, handle_transition mc st (EGame gl uid n (GSelectionDelta e)) = Ok (st', it)) /\
  (10 < sd_group e -> user_of st uid <> None -> handle_transition mc st (EGame gl uid n (GSelectionDelta e)) = Panic).
Proof.
  intros mc st gl uid n e Hw Hi. split.
  - split; [intros Hx; apply delta_total; tauto|]. intros (st' & it & E). destruct (user_of st uid) as [us|] eqn:Eu; [|auto]. left.
    destruct (Z_le_gt_dec (sd_group e) 10) as [Hl|Hl]; [exact Hl|]. rewrite (delta_panics mc st gl uid n e us Hw Eu) in E by lia. discriminate.
  - intros Hl Hu. destruct (user_of st uid) as [us|] eqn:Eu; [|congruence]. exact (delta_panics mc st gl uid n e us Hw Eu Hl).
Qed.
Lemma control_ok : forall mc st gl uid n e st' it, wf st -> 0 <= cg_index e <= 10 -> user_of st uid <> None ->
  handle_transition mc st (EGame gl uid n (GControlGroupUpdate e)) = Ok (st', it) ->
  exists us, user_of st uid = Some us /\ forall g, 0 <= g -> group_of st' uid g = group_after (cg_update e) (cg_index e) (us_groups us) g.
Proof.
  intros mc st gl uid n e st' it Hw Hi Hu Hh. pose proof (control_effect mc st gl uid n e Hw ltac:(lia)) as He.
  destruct (user_of st uid) as [us|] eqn:Eu; [|congruence]. destruct (Z.leb_spec (cg_index e) 10); [|lia].
  destruct He as (st2 & it2 & E & _ & _ & Hg). rewrite Hh in E. injection E as <- <-. exists us. split; [reflexivity|]. intros g Hg0. apply Hg; [reflexivity|exact Hg0].
Qed.
Lemma control_copy : forall mc st gl uid n e st' it, wf st -> 0 <= cg_index e <= 10 -> user_of st uid <> None ->
  handle_transition mc st (EGame gl uid n (GControlGroupUpdate e)) = Ok (st', it) ->
  (forall v, v <> uid -> user_of st' v = user_of st v) /\
  match cg_update e with
  | GSet => group_of st' uid (cg_index e) = selection st uid /\
      forall g, 0 <= g -> g <> cg_index e -> group_of st' uid g = group_of st uid g
  | GClear => group_of st' uid (cg_index e) = [] /\
      forall g, 0 <= g -> g <> cg_index e -> group_of st' uid g = group_of st uid g
  | GRecall => selection st' uid = group_of st uid (cg_index e) /\
      forall g, 0 <= g -> g <> 10 -> group_of st' uid g = group_of st uid g
  | _ => True
  end.
Proof.
  intros mc st gl uid n e st' it Hw Hi Hu Hh. split; [intros v Hv; eapply game_isolation; eauto|].
  destruct (control_ok _ _ _ _ _ _ _ _ Hw Hi Hu Hh) as (us & Eu & Hg). unfold selection.
  destruct (cg_update e); try exact I; (split; [rewrite Hg by lia|intros g Hg0 Hn; rewrite Hg by lia]);
    rewrite ?(group_of_get _ _ _ _ Eu); unfold group_after.
  all: try rewrite Z.eqb_refl; try reflexivity. all: destruct (Z.eqb_spec g (cg_index e)), (Z.eqb_spec g 10); try contradiction; reflexivity.
Qed.
Lemma without_In : forall sel g x, In x (without sel g) <-> In x g /\ ~ In x sel.
Proof.
  intros sel g x. unfold without. rewrite filter_In, negb_true_iff. split; intros [A B]; (split; [exact A|]).
  - intros Hx. assert (existsb (Z.eqb x) sel = true) by (apply existsb_exists; exists x; split; [exact Hx|apply Z.eqb_refl]). congruence.
  - apply not_true_is_false. intros Hx. apply existsb_exists in Hx as (y & Hy & E). apply Z.eqb_eq in E. subst y. contradiction.
Qed.
Lemma control_append : forall mc st gl uid n e st' it, wf st -> 0 <= cg_index e <= 10 -> user_of st uid <> None ->
  cg_update e = GAppend ->
  handle_transition mc st (EGame gl uid n (GControlGroupUpdate e)) = Ok (st', it) ->
  (forall x, In x (group_of st' uid (cg_index e)) <-> In x (group_of st uid (cg_index e)) \/ In x (selection st uid)) /\
  StronglySorted Z.lt (group_of st' uid (cg_index e)) /\
  forall g, 0 <= g -> g <> cg_index e -> group_of st' uid g = group_of st uid g.
Proof.
  intros mc st gl uid n e st' it Hw Hi Hu Ha Hh. destruct (control_ok _ _ _ _ _ _ _ _ Hw Hi Hu Hh) as (us & Eu & Hg). unfold selection.
  rewrite (Hg (cg_index e)) by lia. rewrite Ha in *. cbn [group_after] in *. unfold group_after in *. rewrite Z.eqb_refl in *.
  rewrite !(group_of_get _ _ _ _ Eu). split; [apply append_In|]. split; [apply append_sorted|].
  intros g Hg0 Hn. rewrite Hg by lia. rewrite (group_of_get _ _ _ _ Eu). destruct (Z.eqb_spec g (cg_index e)); [contradiction|reflexivity].
Qed.
(** Stealing: the groups 0..8 lose the selected units, group 9 and the
    selection do not. *)
Lemma control_steal : forall mc st gl uid n e st' it, wf st -> 0 <= cg_index e <= 10 -> user_of st uid <> None ->
  (cg_update e = GSetAndSteal \/ cg_update e = GAppendAndSteal) ->
  handle_transition mc st (EGame gl uid n (GControlGroupUpdate e)) = Ok (st', it) ->
  (forall g x, 0 <= g <= 8 -> g <> cg_index e -> (In x (group_of st' uid g) <-> In x (group_of st uid g) /\ ~ In x (selection st uid))) /\
  (forall g, 9 <= g -> g <> cg_index e -> group_of st' uid g = group_of st uid g) /\
  (cg_update e = GSetAndSteal -> group_of st' uid (cg_index e) = selection st uid) /\
  (cg_update e = GAppendAndSteal -> StronglySorted Z.lt (group_of st' uid (cg_index e)) /\
     forall x, In x (group_of st' uid (cg_index e)) <-> In x (group_of st uid (cg_index e)) \/ In x (selection st uid)).
Proof.
  intros mc st gl uid n e st' it Hw Hi Hu Ha Hh. destruct (control_ok _ _ _ _ _ _ _ _ Hw Hi Hu Hh) as (us & Eu & Hg). unfold selection.
  rewrite !(group_of_get _ _ _ _ Eu).
  assert (Hoth : forall g, 0 <= g -> g <> cg_index e -> group_of st' uid g = if g <? 9 then without (group (us_groups us) 10) (group (us_groups us) g) else group (us_groups us) g).
  { intros g Hg0 Hn. rewrite Hg by lia. unfold group_after. destruct (Z.eqb_spec g (cg_index e)); [contradiction|]. destruct Ha as [-> | ->]; reflexivity. }
  split; [|split; [|split]].
  - intros g x Hg8 Hn. rewrite Hoth by lia. rewrite (group_of_get _ _ _ _ Eu). destruct (Z.ltb_spec g 9); [|lia]. apply without_In.
  - intros g Hg9 Hn. rewrite Hoth by lia. rewrite (group_of_get _ _ _ _ Eu). destruct (Z.ltb_spec g 9); [lia|reflexivity].
  - intros E. rewrite Hg by lia. rewrite E. unfold group_after. rewrite Z.eqb_refl. reflexivity.
  - intros E. rewrite Hg by lia. rewrite E. unfold group_after. rewrite Z.eqb_refl. split; [apply append_sorted|].
    intros x. rewrite append_In. destruct (cg_index e <? 9); [|reflexivity]. rewrite without_In.
    destruct (in_dec Z.eq_dec x (group (us_groups us) 10)); tauto.
Qed.

(** ** Positions *)
Lemma position_loop_exact : forall gl l units units' ids, position_loop gl l units = (units', ids) ->
  acts (fun i u => match last_position l i with Some p => set_loop gl (set_pos (position_of p) u) | None => u end) units units' /\
  stored_units units' ids = stored_units units' (map up_tag l).
Proof.
  intros gl. induction l as [|p l IH]; intros units units' ids Hl; cbn [position_loop] in Hl.
  - injection Hl as <- <-. split; [apply acts_id|reflexivity].
  - destruct (mget (up_tag p) units) as [u|] eqn:Hu.
    + destruct (position_loop gl l _) as [w ids'] eqn:E. injection Hl as <- <-. apply IH in E as (A & B).
      assert (A' : acts (fun i u => match last_position (p :: l) i with Some p => set_loop gl (set_pos (position_of p) u) | None => u end) units w).
      { intros i. rewrite A, mget_mset. unfold last_position. cbn [last_some].
        destruct (Z.eqb_spec (up_tag p) i) as [<-|Hn]; [rewrite Hu; cbn [option_map]|].
        - destruct (last_some _ l); reflexivity.
        - destruct (last_some _ l); reflexivity. }
      split; [exact A'|]. cbn [map stored_units]. rewrite B. reflexivity.
    + apply IH in Hl as (A & B).
      assert (A' : acts (fun i u => match last_position (p :: l) i with Some p => set_loop gl (set_pos (position_of p) u) | None => u end) units units').
      { intros i. rewrite A. unfold last_position. cbn [last_some]. destruct (mget i units) as [u|] eqn:Eu; [|reflexivity]. cbn [option_map].
        destruct (Z.eqb_spec (up_tag p) i) as [<-|Hn]; [congruence|]. destruct (last_some _ l); reflexivity. }
      split; [exact A'|]. cbn [map stored_units]. rewrite A', Hu. cbn [option_map]. exact B.
Qed.
Lemma position_effect : forall mc st gl e st' it, handle_transition mc st (ETracker gl (TUnitPosition e)) = Ok (st', it) ->
  exists l, to_unit_positions_vec (mc_build mc) (up_first e) (up_items e) = Ok l /\
    st_users st' = st_users st /\ it_event it = ETracker gl (TUnitPosition e) /\
    it_hint it = HPositions (units_at st' (map up_tag l)) /\
    forall i, unit_of st' i = option_map (fun u => match last_position l i with Some p => set_loop gl (set_pos (position_of p) u) | None => u end) (unit_of st i).
Proof.
  intros mc st gl e st' it Hh. apply transition_tracker in Hh as (e' & h & Hh & ->). cbn [handle_tracker_event] in Hh. unfold handle_unit_position in Hh.
  apply obind_ok in Hh as (l & Hl & Hh). destruct (position_loop gl l (st_units st)) as [units ids] eqn:E. injection Hh as <- <- <-.
  apply position_loop_exact in E as (A & B). exists l. split; [exact Hl|]. split; [reflexivity|]. split; [reflexivity|]. cbn [it_hint].
  split; [|intros i; unfold unit_of; cbn [with_units st_units]; apply A]. f_equal. rewrite B. exact (stored_units_at (with_units st units) _).
Qed.

(** ** The statements, for reachable states *)
Lemma r_died : forall mc st gl e, reachable mc st -> exists st' it,
  handle_transition mc st (ETracker gl (TUnitDied e)) = Ok (st', it) /\
  it_event it = ETracker gl (TUnitDied e) /\
  it_hint it = match unit_of st (ud_index e) with
    | Some u => HUnregistered (match ud_killer_index e with Some k => if k =? ud_index e then None else unit_of st k | None => None end) u
    | None => HNone
    end /\
  forall i, unit_of st' i = if i =? ud_index e then None else unit_of st i.
Proof.
  intros mc st gl e Hr. destruct (died_total mc st gl e (reachable_wf _ _ Hr)) as (st' & it & E). exists st', it. split; [exact E|].
  exact (died_effect _ _ _ _ _ _ E).
Qed.
Lemma r_died_groups : forall mc st gl e st' it, reachable mc st -> handle_transition mc st (ETracker gl (TUnitDied e)) = Ok (st', it) ->
  (forall uid g, 0 <= g -> group_of st' uid g = filter (fun x => negb (x =? ud_index e)) (group_of st uid g)) /\
  (forall l u, In u (units_at st' l) -> su_index u <> ud_index e).
Proof.
  intros mc st gl e st' it Hr Hh. split; [intros uid g Hg; exact (died_groups _ _ _ _ _ _ _ _ (reachable_wf _ _ Hr) Hg Hh)|].
  intros l u Hu Hi. apply in_flat_map in Hu as (i & _ & Hi'). destruct (unit_of st' i) as [w|] eqn:E; [|destruct Hi'].
  destruct Hi' as [<-|[]]. pose proof (units_indexed _ _ _ _ (reachable_step _ _ _ _ _ Hr Hh) E) as Ei. destruct (died_effect _ _ _ _ _ _ Hh) as (_ & _ & Hd).
  rewrite Hd in E. rewrite <- Ei, Hi, Z.eqb_refl in E. discriminate.
Qed.
Lemma r_groups : forall mc st uid us, reachable mc st -> user_of st uid = Some us -> length (us_groups us) = 11%nat.
Proof. intros mc st uid us Hr. apply wf_get, (reachable_wf _ _ Hr). Qed.
Lemma r_control_total : forall mc st gl uid n e, reachable mc st -> 0 <= cg_index e ->
  (cg_index e <= 10 \/ user_of st uid = None <-> exists st' it, handle_transition mc st (EGame gl uid n (GControlGroupUpdate e)) = Ok (st', it)) /\
  (10 < cg_index e -> user_of st uid <> None -> handle_transition mc st (EGame gl uid n (GControlGroupUpdate e)) = Panic).
Proof. intros mc st gl uid n e Hr. apply control_total, (reachable_wf _ _ Hr). Qed.
Lemma r_delta_total : forall mc st gl uid n e, reachable mc st -> 0 <= sd_group e ->
  (sd_group e <= 10 \/ user_of st uid = None <-> exists st' it, handle_transition mc st (EGame gl uid n (GSelectionDelta e)) = Ok (st', it)) /\
  (10 < sd_group e -> user_of st uid <> None -> handle_transition mc st (EGame gl uid n (GSelectionDelta e)) = Panic).
Proof. intros mc st gl uid n e Hr. apply delta_total_iff, (reachable_wf _ _ Hr). Qed.
Lemma r_control_copy : forall mc st gl uid n e st' it, reachable mc st -> 0 <= cg_index e <= 10 -> user_of st uid <> None ->
  handle_transition mc st (EGame gl uid n (GControlGroupUpdate e)) = Ok (st', it) ->
  (forall v, v <> uid -> user_of st' v = user_of st v) /\
  match cg_update e with
  | GSet => group_of st' uid (cg_index e) = selection st uid /\
      forall g, 0 <= g -> g <> cg_index e -> group_of st' uid g = group_of st uid g
  | GClear => group_of st' uid (cg_index e) = [] /\
      forall g, 0 <= g -> g <> cg_index e -> group_of st' uid g = group_of st uid g
  | GRecall => selection st' uid = group_of st uid (cg_index e) /\
      forall g, 0 <= g -> g <> 10 -> group_of st' uid g = group_of st uid g
  | _ => True
  end.
Proof. intros mc st gl uid n e st' it Hr. apply control_copy, (reachable_wf _ _ Hr). Qed.
Lemma r_control_append : forall mc st gl uid n e st' it, reachable mc st -> 0 <= cg_index e <= 10 -> user_of st uid <> None ->
  cg_update e = GAppend ->
  handle_transition mc st (EGame gl uid n (GControlGroupUpdate e)) = Ok (st', it) ->
  (forall x, In x (group_of st' uid (cg_index e)) <-> In x (group_of st uid (cg_index e)) \/ In x (selection st uid)) /\
  StronglySorted Z.lt (group_of st' uid (cg_index e)) /\
  forall g, 0 <= g -> g <> cg_index e -> group_of st' uid g = group_of st uid g.
Proof. intros mc st gl uid n e st' it Hr. apply control_append, (reachable_wf _ _ Hr). Qed.
Lemma r_control_steal : forall mc st gl uid n e st' it, reachable mc st -> 0 <= cg_index e <= 10 -> user_of st uid <> None ->
  (cg_update e = GSetAndSteal \/ cg_update e = GAppendAndSteal) ->
  handle_transition mc st (EGame gl uid n (GControlGroupUpdate e)) = Ok (st', it) ->
  (forall g x, 0 <= g <= 8 -> g <> cg_index e -> (In x (group_of st' uid g) <-> In x (group_of st uid g) /\ ~ In x (selection st uid))) /\
  (forall g, 9 <= g -> g <> cg_index e -> group_of st' uid g = group_of st uid g) /\
  (cg_update e = GSetAndSteal -> group_of st' uid (cg_index e) = selection st uid) /\
  (cg_update e = GAppendAndSteal -> StronglySorted Z.lt (group_of st' uid (cg_index e)) /\
     forall x, In x (group_of st' uid (cg_index e)) <-> In x (group_of st uid (cg_index e)) \/ In x (selection st uid)).
Proof. intros mc st gl uid n e st' it Hr. apply control_steal, (reachable_wf _ _ Hr). Qed.
Lemma r_commands : forall mc st gl uid n e, reachable mc st -> effective st e -> exists st' it,
  handle_transition mc st (EGame gl uid n e) = Ok (st', it) /\
  st_users st' = st_users st /\
  (forall i, ~ In i (indices (selection st uid)) -> unit_of st' i = unit_of st i) /\
  (forall i u, In i (indices (selection st uid)) -> unit_of st i = Some u ->
     exists u', unit_of st' i = Some u' /\ su_loop u' = gl /\ same_but_cmd u u' /\ ordered st e u u') /\
  hint_units (it_hint it) = Some (units_at st' (indices (selection st uid))).
Proof.
  intros mc st gl uid n e Hr He. destruct (command_total mc st gl uid n e (reachable_wf _ _ Hr)) as (st' & it & E).
  { destruct e; try contradiction; exact I. }
  exists st', it. split; [exact E|]. exact (commands_effect _ _ _ _ _ _ _ _ He E).
Qed.
Lemma r_tracker_isolation : forall mc st gl e st' it v g, reachable mc st -> 0 <= g -> handle_transition mc st (ETracker gl e) = Ok (st', it) ->
  (exists keep, group_of st' v g = filter keep (group_of st v g)) /\
  option_map us_camera (user_of st' v) = option_map us_camera (user_of st v).
Proof. intros mc st gl e st' it v g Hr. apply tracker_isolation, (reachable_wf _ _ Hr). Qed.
(** Names given to units and upgrades. *)
Lemma r_names : forall mc st0 evs st its gl, history mc st0 evs st its ->
  (forall x, exists n, names_player evs st (ug_player_id x) n /\
     handle_transition mc st (ETracker gl (TUpgrade x)) = Ok (st, mk_item (ETracker gl (TUpgrade (mk_upgrade (ug_player_id x) n (ug_name x) (ug_count x)))) HNone)) /\
  (forall x st' it, unit_of st (ub_index x) = None -> handle_transition mc st (ETracker gl (TUnitBorn x)) = Ok (st', it) ->
     exists u, unit_of st' (ub_index x) = Some u /\ su_user u = Some (ub_control x) /\ names_player evs st (ub_control x) (su_player u)) /\
  (forall x st' it, unit_of st (ui_index x) = None -> handle_transition mc st (ETracker gl (TUnitInit x)) = Ok (st', it) ->
     exists u, unit_of st' (ui_index x) = Some u /\ su_user u = Some (ui_control x) /\ names_player evs st (ui_control x) (su_player u)).
Proof.
  intros mc st0 evs st its gl Hh. split; [|split].
  - intros x. eexists. split; [|apply upgrade_named]. apply (names_of _ _ _ _ _ _ Hh).
  - intros x st' it Hn Ht. destruct (born_effect mc st gl x) as (st2 & it2 & E & _ & _ & u & c & Hu & _ & _ & _ & Hm). rewrite Ht in E. injection E as <- <-.
    rewrite Hn in Hm. destruct Hm as (A & _ & _ & _ & _ & B). exists u. split; [exact Hu|]. split; [exact A|]. rewrite B. apply (names_of _ _ _ _ _ _ Hh).
  - intros x st' it Hn Ht. destruct (init_effect mc st gl x) as (st2 & it2 & E & _ & _ & u & Hu & _ & _ & _ & _ & Hm). rewrite Ht in E. injection E as <- <-.
    rewrite Hn in Hm. destruct Hm as (_ & A & _ & B). exists u. split; [exact Hu|]. split; [exact A|]. rewrite B. apply (names_of _ _ _ _ _ _ Hh).
Qed.
(** The name does not depend on the order of the users. *)
Lemma names_order : forall users users' p, NoDup (map fst users) ->
  (forall u v us vs, In (u, us) users -> In (v, vs) users -> ld_setup_player (us_lobby us) = Some p -> ld_setup_player (us_lobby vs) = Some p -> u = v) ->
  Permutation users users' -> player_name_of users p = player_name_of users' p.
Proof.
  intros users users' p Hd Hq Hp.
  assert (Hd' : NoDup (map fst users')) by (eapply Permutation_NoDup; [apply Permutation_map, Hp|exact Hd]).
  pose proof (name_spec users p Hd) as A. pose proof (name_spec users' p Hd') as B.
  destruct (player_name_of users p) as [n|], (player_name_of users' p) as [n'|]; [| | |reflexivity].
  - destruct A as (u & us & A1 & A2 & ->), B as (v & vs & B1 & B2 & ->).
    apply mget_In in A1. apply mget_In in B1. apply (Permutation_in _ (Permutation_sym Hp)) in B1.
    assert (u = v) as <- by (eapply Hq; eauto). apply In_mget in A1; [|exact Hd]. apply In_mget in B1; [|exact Hd]. congruence.
  - destruct A as (u & us & A1 & A2 & _). exfalso. apply (B u us); [|exact A2]. apply In_mget; [exact Hd'|]. eapply Permutation_in; [exact Hp|apply mget_In, A1].
  - destruct B as (u & us & A1 & A2 & _). exfalso. apply (A u us); [|exact A2]. apply In_mget; [exact Hd|]. eapply Permutation_in; [apply Permutation_sym, Hp|apply mget_In, A1].
Qed.
Lemma born_ability : forall mc st gl e st' it u, handle_transition mc st (ETracker gl (TUnitBorn e)) = Ok (st', it) ->
  unit_of st' (ub_index e) = Some u ->
  su_ability u = match unit_of st (ub_index e) with Some _ => ub_creator_ability e | None => None end.
Proof.
  intros mc st gl e st' it u Hh Hu. apply transition_tracker in Hh as (e' & h & Hh & _). cbn [handle_tracker_event] in Hh. apply fst_of in Hh. subst st'.
  rewrite born_unit, Z.eqb_refl in Hu. injection Hu as <-. unfold creator_touched.
  destruct (unit_of st (ub_index e)) as [w|]; destruct (match ub_creator_index e with Some c => c =? ub_index e | None => false end); reflexivity.
Qed.
(** What the lobby says of a user: as at the start, with the ids of the last
    setup. *)
Lemma setup_last : forall mc st0 evs st its uid us, history mc st0 evs st its -> user_of st uid = Some us ->
  exists us0, user_of st0 uid = Some us0 /\
  (ld_setup_player (us_lobby us), ld_setup_slot (us_lobby us)) = match last_some (announced uid) evs with Some (p, s) => (Some p, s) | None => (None, None) end /\
  ld_player (us_lobby us) = ld_player (us_lobby us0) /\ ld_slot (us_lobby us) = ld_slot (us_lobby us0) /\ ld_title (us_lobby us) = ld_title (us_lobby us0) /\
  ld_description (us_lobby us) = ld_description (us_lobby us0) /\ ld_time_utc (us_lobby us) = ld_time_utc (us_lobby us0) /\ ld_time_offset (us_lobby us) = ld_time_offset (us_lobby us0) /\
  ld_init_name (us_lobby us) = ld_init_name (us_lobby us0) /\ ld_init_clan (us_lobby us) = ld_init_clan (us_lobby us0) /\ ld_handles (us_lobby us) = ld_handles (us_lobby us0) /\
  ld_sha256 (us_lobby us) = ld_sha256 (us_lobby us0) /\ ld_file (us_lobby us) = ld_file (us_lobby us0) /\ ld_fs_id (us_lobby us) = ld_fs_id (us_lobby us0) /\ ld_datetime (us_lobby us) = ld_datetime (us_lobby us0).
Proof.
  intros mc st0 evs st its uid us Hh Hu. destruct (lobby_last _ _ _ _ _ _ _ Hh Hu) as (us0 & E0 & E). exists us0. split; [exact E0|].
  destruct Hh as [(init & d & b & Hs) _]. destruct (start_user _ _ _ _ _ _ Hs E0) as (l & ps & -> & _ & Hl & Hi). destruct (lobby_setup_none _ _ _ _ Hl Hi) as [N1 N2].
  rewrite E. destruct (last_some (announced uid) evs) as [[p s]|]; [repeat split|]. cbn [us_lobby new_user]. rewrite N1, N2. repeat split.
Qed.
