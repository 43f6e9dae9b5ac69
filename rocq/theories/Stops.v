(** C145: which events stop the program.  The specification names the events; the lemmas show that these, and
    no others, make [handle_transition] (src/state/mod.rs:276-310), [run] and the merged iterator panic. *)
From Coq Require Import ZArith Lia List Bool String.
From Verif Require Import Base Types Events Tags TagFacts Lobby State StateSpec StateFacts StateSteps StateProofs StateEvents StateMore.
From Verif Require Import Base VersionedSpec Types Maps Merge MergeSpec MergeFacts MergeStreams MergeProofs IteratorFacts IteratorStreams StreamSpec StreamFacts Dispatch Iterators Rows RowSpec RowFacts DamagedTables.
Import ListNotations.
Open Scope Z_scope.
Open Scope list_scope.

(** ** Specification *)
(** A position report whose running index, or one of whose coordinates times four, leaves [i32]. *)
Definition positions_overflow (first : Z) (items : list Z) : Prop :=
  exists k, (k < List.length items / 3)%nat /\
    ~ (- 2147483648 <= as_i32 first + deltas_upto items k < 2147483648 /\
       - 536870912 <= nth (3 * k + 1) items 0 < 536870912 /\ - 536870912 <= nth (3 * k + 2) items 0 < 536870912).
(** The event stops a program built with overflow checks ([Checked]) or without, when [known] are the users of the
    replay's state. *)
Definition stops (m : build) (known : Z -> Prop) (e : sc2_event) : Prop :=
  match e with
  | ETracker _ (TUnitPosition p) => m = Checked /\ positions_overflow (up_first p) (up_items p)
  | EGame _ uid _ (GSelectionDelta d) => known uid /\ 10 < sd_group d
  | EGame _ uid _ (GControlGroupUpdate c) => known uid /\ 10 < cg_index c
  | _ => False
  end.
Definition users_of (st : state) (uid : Z) : Prop := user_of st uid <> None.

(** ** Positions *)
Lemma ovf_stop : forall m z,
  (ovf_i32 m z = Panic /\ m = Checked /\ ~ - 2147483648 <= z < 2147483648) \/
  (exists v, ovf_i32 m z = Ok v /\ (m = Checked -> v = z /\ - 2147483648 <= z < 2147483648)).
Proof.
  intros m z. unfold ovf_i32. destruct (in_i32 z) eqn:E.
  - apply in_i32_true in E. right. eexists. split; [reflexivity|]. auto.
  - destruct m; [left|right; eexists; split; [reflexivity|discriminate]]. split; [reflexivity|]. split; [reflexivity|].
    intros H. apply in_i32_true in H. congruence.
Qed.
Lemma positions_stop : forall m n items u, (List.length items <= n)%nat ->
  (exists r, positions_loop m u items = Ok r /\
     (m = Checked -> forall k, (k < List.length items / 3)%nat -> - 2147483648 <= u + deltas_upto items k < 2147483648 /\
        - 536870912 <= nth (3 * k + 1) items 0 < 536870912 /\ - 536870912 <= nth (3 * k + 2) items 0 < 536870912)) \/
  (positions_loop m u items = Panic /\ m = Checked /\ exists k, (k < List.length items / 3)%nat /\
     ~ (- 2147483648 <= u + deltas_upto items k < 2147483648 /\
        - 536870912 <= nth (3 * k + 1) items 0 < 536870912 /\ - 536870912 <= nth (3 * k + 2) items 0 < 536870912)).
Proof.
  intros m n. induction n as [|n IH]; intros l u Hn.
  { destruct l; [|cbn in Hn; lia]. left. exists []. split; [reflexivity|]. intros _ k Hk. cbn in Hk. lia. }
  destruct l as [|d [|x [|y rest]]]; cbn [positions_loop];
    try (left; exists []; split; [reflexivity|]; intros _ k Hk; cbn in Hk; lia).
  assert (E3 : (List.length (d :: x :: y :: rest) / 3 = S (List.length rest / 3))%nat).
  { cbn [List.length]. replace (S (S (S (List.length rest)))) with (1 * 3 + List.length rest)%nat by lia.
    rewrite Nat.div_add_l by lia. lia. }
  rewrite E3.
  assert (E0 : deltas_upto (d :: x :: y :: rest) 0 = d) by (unfold deltas_upto; cbn; lia).
  assert (Hbad : m = Checked -> ~ (- 2147483648 <= u + d < 2147483648 /\ - 536870912 <= x < 536870912 /\ - 536870912 <= y < 536870912) ->
    m = Checked /\ exists k, (k < S (List.length rest / 3))%nat /\
     ~ (- 2147483648 <= u + deltas_upto (d :: x :: y :: rest) k < 2147483648 /\
        - 536870912 <= nth (3 * k + 1) (d :: x :: y :: rest) 0 < 536870912 /\ - 536870912 <= nth (3 * k + 2) (d :: x :: y :: rest) 0 < 536870912)).
  { intros Em Hb. split; [exact Em|]. exists 0%nat. rewrite E0. cbn [nth Nat.mul Nat.add]. split; [lia|exact Hb]. }
  destruct (ovf_stop m (u + d)) as [(-> & Em & H)|(u' & -> & H1)]; [right; split; [reflexivity|]; apply Hbad; [exact Em|]; lia|].
  destruct (ovf_stop m (x * 4)) as [(-> & Em & H)|(x' & -> & H2)]; [right; split; [reflexivity|]; apply Hbad; [exact Em|]; lia|].
  destruct (ovf_stop m (y * 4)) as [(-> & Em & H)|(y' & -> & H3)]; [right; split; [reflexivity|]; apply Hbad; [exact Em|]; lia|].
  cbn [obind]. destruct (IH rest u' ltac:(cbn [List.length] in Hn; lia)) as [(r & -> & Hr)|(-> & Em & k & Hk & Hb)]; cbn [obind].
  - left. eexists. split; [reflexivity|]. intros Em k Hk. destruct (H1 Em) as (-> & A1), (H2 Em) as (-> & A2), (H3 Em) as (-> & A3).
    destruct k as [|k]; [rewrite E0; cbn [nth Nat.mul Nat.add]; lia|].
    rewrite deltas_upto_S. replace (3 * S k + 1)%nat with (S (S (S (3 * k + 1))))%nat by lia.
    replace (3 * S k + 2)%nat with (S (S (S (3 * k + 2))))%nat by lia. cbn [nth].
    destruct (Hr Em k ltac:(lia)) as (A & B). split; [lia|exact B].
  - right. split; [reflexivity|]. split; [exact Em|]. destruct (H1 Em) as (-> & A1). exists (S k). split; [lia|].
    rewrite deltas_upto_S. replace (3 * S k + 1)%nat with (S (S (S (3 * k + 1))))%nat by lia.
    replace (3 * S k + 2)%nat with (S (S (S (3 * k + 2))))%nat by lia. cbn [nth]. intros (A & B). apply Hb. split; [lia|exact B].
Qed.
Lemma positions_stop_iff : forall m first items,
  (to_unit_positions_vec m first items = Panic /\ m = Checked /\ positions_overflow first items) \/
  (exists r, to_unit_positions_vec m first items = Ok r /\ ~ (m = Checked /\ positions_overflow first items)).
Proof.
  intros m first items. unfold to_unit_positions_vec.
  destruct (positions_stop m _ items (as_i32 first) (le_n _)) as [(r & E & Hr)|(E & Em & Hb)]; [right|left; split; [exact E|]; split; [exact Em|exact Hb]].
  exists r. split; [exact E|]. intros (Em & k & Hk & Hb). apply Hb, Hr; assumption.
Qed.

(** ** Groups *)
Lemma group_get_at : forall gs i, List.length gs = 11%nat -> group_get gs i = if 10 <? i then Panic else Ok (group gs i).
Proof. intros gs i Hg. rewrite group_get_eq, Hg. destruct (Nat.ltb_spec (Z.to_nat i) 11), (Z.ltb_spec 10 i); try reflexivity; lia. Qed.
Lemma group_set_at : forall gs i g, List.length gs = 11%nat -> group_set gs i g = if 10 <? i then Panic else Ok (list_set gs (Z.to_nat i) g).
Proof. intros gs i g Hg. rewrite group_set_eq, Hg. destruct (Nat.ltb_spec (Z.to_nat i) 11), (Z.ltb_spec 10 i); try reflexivity; lia. Qed.
Lemma update_groups_stop : forall upd i gs, List.length gs = 11%nat ->
  if 10 <? i then update_groups upd i gs = Panic else exists gs', update_groups upd i gs = Ok gs' /\ List.length gs' = 11%nat.
Proof.
  intros upd i gs Hl. destruct (steal_ok gs (group gs 10) Hl) as (gs1 & Es & Hl1 & _).
  assert (Ha : forall g, List.length g = 11%nat -> group_get g active_group = Ok (group g 10)) by (intros g Hg; apply (group_get_at g 10 Hg)).
  assert (Hs : forall g x, List.length g = 11%nat -> group_set g active_group x = Ok (list_set g 10 x)) by (intros g x Hg; apply (group_set_at g 10 x Hg)).
  assert (Hk : forall i (g : list (list Z)) x, List.length g = 11%nat -> List.length (list_set g i x) = 11%nat) by (intros j g x Hg; rewrite list_set_length; exact Hg).
  unfold update_groups, append_group. destruct (10 <? i) eqn:Ei; destruct upd; rewrite ?Ha by assumption; cbn [obind]; rewrite ?Es; cbn [obind]; rewrite ?Ha by assumption; cbn [obind];
    rewrite ?group_get_at by assumption; rewrite ?group_set_at by assumption; rewrite ?Ei; cbn [obind]; rewrite ?Hs by assumption; rewrite ?group_set_at by assumption; rewrite ?Ei; try reflexivity;
    eexists; (split; [reflexivity|]); apply Hk; assumption.
Qed.
Lemma control_stop : forall mc st gl uid n e, wf st ->
  (handle_transition mc st (EGame gl uid n (GControlGroupUpdate e)) = Panic /\ users_of st uid /\ 10 < cg_index e) \/
  (exists st' it, handle_transition mc st (EGame gl uid n (GControlGroupUpdate e)) = Ok (st', it) /\ ~ (users_of st uid /\ 10 < cg_index e)).
Proof.
  intros mc st gl uid n e Hw. unfold users_of. cbn [handle_transition handle_game_event]. rewrite update_control_group_eq.
  destruct (unmark_wf st gl uid Hw) as (units & ids & E & _). rewrite E. cbn [obind]. unfold change_groups. cbn [with_units st_users].
  fold (user_of st uid). destruct (user_of st uid) as [us|] eqn:Hu.
  2:{ right. cbn [obind]. destruct (cg_update e); cbn [obind]; try (eexists _, _; split; [reflexivity|tauto]).
      unfold active_units. cbn [with_units st_users]. fold (user_of st uid). rewrite Hu. cbn [obind].
      match goal with |- context [mark_selected_units ?s ?g ?t] => destruct (mark_selected_units s g t) as [st3 l3] end.
      cbn [obind]. eexists _, _; split; [reflexivity|tauto]. }
  pose proof (update_groups_stop (cg_update e) (cg_index e) (us_groups us) (wf_get _ _ _ Hw Hu)) as Hg.
  destruct (Z.ltb_spec 10 (cg_index e)) as [Hi|Hi].
  - left. rewrite Hg. cbn [obind]. split; [reflexivity|]. split; [discriminate|exact Hi].
  - right. destruct Hg as (gs & -> & Hl). cbn [obind].
    destruct (cg_update e); cbn [obind]; try (eexists _, _; split; [reflexivity|lia]).
    unfold active_units. cbn [with_units with_users st_users]. rewrite mget_mset, Z.eqb_refl. cbn [us_groups set_groups].
    rewrite (group_get_at gs active_group Hl). cbn [obind]. change (10 <? active_group) with false. cbn [obind].
    match goal with |- context [mark_selected_units ?s ?g ?t] => destruct (mark_selected_units s g t) as [st3 l3] end.
    cbn [obind]. eexists _, _; split; [reflexivity|lia].
Qed.
Lemma delta_stop : forall mc st gl uid n e, wf st ->
  (handle_transition mc st (EGame gl uid n (GSelectionDelta e)) = Panic /\ users_of st uid /\ 10 < sd_group e) \/
  (exists st' it, handle_transition mc st (EGame gl uid n (GSelectionDelta e)) = Ok (st', it) /\ ~ (users_of st uid /\ 10 < sd_group e)).
Proof.
  intros mc st gl uid n e Hw. unfold users_of. cbn [handle_transition handle_game_event]. unfold handle_selection_delta.
  assert (Hc : forall st1, st_users st1 = st_users st ->
    (change_groups st1 uid (fun gs => group_set gs (sd_group e) (sd_tags e)) = Panic /\ user_of st uid <> None /\ 10 < sd_group e) \/
    (exists st2, change_groups st1 uid (fun gs => group_set gs (sd_group e) (sd_tags e)) = Ok st2 /\ ~ (user_of st uid <> None /\ 10 < sd_group e))).
  { intros st1 E. unfold change_groups. rewrite E. fold (user_of st uid). destruct (user_of st uid) as [us|] eqn:Hu; [|right; eexists; split; [reflexivity|tauto]].
    rewrite (group_set_at _ _ _ (wf_get _ _ _ Hw Hu)). destruct (Z.ltb_spec 10 (sd_group e)); cbn [obind]; [left; split; [reflexivity|]; split; [discriminate|assumption]|].
    right. eexists; split; [reflexivity|lia]. }
  destruct (sd_group e =? active_group).
  - destruct (unmark_wf st gl uid Hw) as (units & ids & -> & _). cbn [obind].
    destruct (mark_selected_units (with_units st units) gl (sd_tags e)) as [st1 l] eqn:Em. cbn [obind].
    destruct (Hc st1) as [(-> & H)|(st2 & -> & H)]; [apply mark_frame in Em as (-> & _); reflexivity|left; split; [reflexivity|exact H]|right].
    cbn [obind]. eexists _, _. split; [reflexivity|exact H].
  - cbn [obind]. destruct (Hc st eq_refl) as [(-> & H)|(st2 & -> & H)]; [left; split; [reflexivity|exact H]|right].
    cbn [obind]. eexists _, _. split; [reflexivity|exact H].
Qed.

(** ** One event *)
Lemma step_stop : forall mc st e, wf st ->
  (handle_transition mc st e = Panic /\ stops (mc_build mc) (users_of st) e) \/
  (exists st' it, handle_transition mc st e = Ok (st', it) /\ ~ stops (mc_build mc) (users_of st) e).
Proof.
  intros mc st [gl e|gl uid n e] Hw.
  - destruct e as [x|x|x|x|x|x|x|x|x|x];
      try (right; cbn [handle_transition handle_tracker_event obind];
           try (match goal with |- context [let '(_, _) := ?c in _] => destruct c as [? [? ?]] end);
           eexists _, _; split; [reflexivity|intros []]; fail);
      try (right; unfold handle_transition, handle_tracker_event;
           match goal with |- context [Ok (?f _ _ _)] => destruct (f st gl x) as [st' [y h]] end;
           cbn [obind]; eexists _, _; split; [reflexivity|intros []]; fail);
      try (right; destruct (died_total mc st gl x Hw) as (st' & it & E); exists st', it; split; [exact E|intros []]; fail).
    cbn [stops]. cbn [handle_transition handle_tracker_event]. unfold handle_unit_position.
    destruct (positions_stop_iff (mc_build mc) (up_first x) (up_items x)) as [(-> & H)|(r & -> & H)]; [left; split; [reflexivity|exact H]|right].
    cbn [obind]. destruct (position_loop gl r (st_units st)) as [units ids]. cbn [obind]. eexists _, _. split; [reflexivity|exact H].
  - pose proof (command_total mc st gl uid n e Hw) as Hc.
    destruct e;
      try (right; destruct (Hc Logic.I) as (st' & it & E); exists st', it; split; [exact E|intros []]; fail);
      try (right; cbn [handle_transition handle_game_event handle_camera_save handle_camera_update obind]; eexists _, _; split; [reflexivity|intros []]; fail);
      cbn [stops]; [exact (delta_stop mc st gl uid n e Hw)|exact (control_stop mc st gl uid n e Hw)].
Qed.

(** ** Many events *)
Lemma users_step : forall mc st e st' it, wf st -> handle_transition mc st e = Ok (st', it) -> forall uid, users_of st' uid <-> users_of st uid.
Proof.
  intros mc st e st' it Hw Hh uid.
  assert (Hk : map fst (st_users st') = map fst (st_users st)).
  { destruct e as [gl e|gl u n e].
    - apply transition_tracker in Hh as (e' & h & Hh & _). apply tracker_users in Hh; [|exact Hw].
      destruct e; try (rewrite Hh; reflexivity); [apply Hh|]. subst st'. unfold handle_player_setup.
      destruct (se_user_id e) as [u|]; [|reflexivity]. destruct (mget u (st_users st)) eqn:E; [|reflexivity].
      apply mset_keys. congruence.
    - apply transition_game in Hh as (e' & h & Hh & _). apply game_frame in Hh as (_ & _ & Hh). apply Hh. }
  unfold users_of, user_of. rewrite !mget_None, Hk. tauto.
Qed.
Lemma stops_same : forall m k k' e, (forall u, k u <-> k' u) -> stops m k e <-> stops m k' e.
Proof. intros m k k' [gl e|gl u n e] H; destruct e; cbn [stops]; rewrite ?(H u); tauto. Qed.
Lemma stops_all_same : forall m k k' l, (forall u, k u <-> k' u) -> Exists (stops m k) l <-> Exists (stops m k') l.
Proof. intros m k k' l H. rewrite !Exists_exists. split; intros (x & Hx & Hs); exists x; (split; [exact Hx|]); apply (stops_same m k k' x H), Hs. Qed.
Lemma run_stop : forall mc evs st, wf st ->
  (run mc st evs = Panic /\ Exists (stops (mc_build mc) (users_of st)) evs) \/
  (exists st' its, run mc st evs = Ok (st', its) /\ ~ Exists (stops (mc_build mc) (users_of st)) evs).
Proof.
  intros mc. induction evs as [|e evs IH]; intros st Hw; cbn [run].
  { right. eexists _, _. split; [reflexivity|]. intros H. inversion H. }
  destruct (step_stop mc st e Hw) as [(E & H)|(st1 & it & E & H)]; rewrite E; cbn [obind].
  { left. split; [reflexivity|]. left. exact H. }
  pose proof (stops_all_same (mc_build mc) _ _ evs (users_step mc st e st1 it Hw E)) as Hs.
  destruct (IH st1 (step_wf _ _ _ _ _ Hw E)) as [(-> & H')|(st2 & is & -> & H')]; cbn [obind].
  - left. split; [reflexivity|]. right. apply Hs, H'.
  - right. eexists _, _. split; [reflexivity|]. intros Hx. inversion Hx as [? ? Hy|? ? Hy]; subst; [exact (H Hy)|exact (H' (proj2 Hs Hy))].
Qed.
Lemma play_stop : forall mc l st, wf st ->
  (play mc st l = Panic /\ Exists (stops (mc_build mc) (users_of st)) (present l)) \/
  (exists st' its, play mc st l = Ok (st', its) /\ ~ Exists (stops (mc_build mc) (users_of st)) (present l)).
Proof.
  intros mc. induction l as [|[e|] l IH]; intros st Hw; cbn [play present flat_map app].
  - right. eexists _, _. split; [reflexivity|]. intros H. inversion H.
  - destruct (step_stop mc st e Hw) as [(E & H)|(st1 & it & E & H)]; rewrite E; cbn [obind].
    { left. split; [reflexivity|]. left. exact H. }
    pose proof (stops_all_same (mc_build mc) _ _ (present l) (users_step mc st e st1 it Hw E)) as Hs.
    destruct (IH st1 (step_wf _ _ _ _ _ Hw E)) as [(-> & H')|(st2 & is & -> & H')]; cbn [obind].
    + left. split; [reflexivity|]. right. apply Hs, H'.
    + right. eexists _, _. split; [reflexivity|]. intros Hx. inversion Hx as [? ? Hy|? ? Hy]; subst; [exact (H Hy)|exact (H' (proj2 Hs Hy))].
  - destruct (IH st Hw) as [(-> & H')|(st2 & is & -> & H')]; cbn [obind].
    + left. split; [reflexivity|exact H'].
    + right. eexists _, _. split; [reflexivity|exact H'].
Qed.

(** ** Replays *)
Lemma interleaving_exists : forall A (P : A -> Prop) a b l, interleaving a b l -> Exists P l <-> Exists P a \/ Exists P b.
Proof.
  intros A P a b l H. induction H; rewrite ?Exists_cons, ?Exists_nil in *; try tauto.
Qed.
Lemma items_stop : forall mc st evs, wf st ->
  (items_of (run mc st evs) = Panic /\ Exists (stops (mc_build mc) (users_of st)) evs) \/
  (exists its, items_of (run mc st evs) = Ok its /\ ~ Exists (stops (mc_build mc) (users_of st)) evs).
Proof.
  intros mc st evs Hw. unfold items_of. destruct (run_stop mc evs st Hw) as [(-> & H)|(st' & its & -> & H)]; cbn [obind snd]; [left; auto|right; eauto].
Qed.
Lemma answers_stop : forall mc p init d b st t g, starts init d b st -> bytes_ok t -> bytes_ok g -> mc_build mc = Wrapping \/ no_run 9 t -> exists ta gs l,
  (forall n, tracker_calls (mc_build mc) p n (tracker_start t) = Ok (firstn n (ta ++ repeat None n))) /\
  (forall n, game_calls (mc_build mc) p (player_names st) n (game_start g) = Ok (firstn n (map Some gs ++ repeat None n))) /\
  interleaving (map tracker_item (present ta)) (map game_item_event gs) (present l) /\
  forall n, (answers_of (merge_calls mc p n (merge_start st t g None)) = Panic <-> Exists (stops (mc_build mc) (users_of st)) (present (firstn n l))) /\
    (~ Exists (stops (mc_build mc) (users_of st)) (present (firstn n l)) -> exists answers, answers_of (merge_calls mc p n (merge_start st t g None)) = Ok answers).
Proof.
  intros mc p init d b st t g Hst Ht Hg Hb. destruct (bytes_merged mc p init d b st t g Hst Ht Hg Hb) as (ta & gs & l & Dt & Dg & I & E).
  exists ta, gs, l. refine (conj Dt (conj Dg (conj I _))). intros n. rewrite E. destruct (starts_wf _ _ _ _ Hst) as (Hw & _).
  destruct (play_stop mc (firstn n l) st Hw) as [(-> & H)|(st' & its & -> & H)]; cbn [obind].
  - tauto.
  - split; [|intros _; eauto]. split; [discriminate|tauto].
Qed.
Lemma table_stop : forall mc p init d b st t g A (rows : item -> list A), starts init d b st -> bytes_ok t -> bytes_ok g -> mc_build mc = Wrapping \/ no_run 9 t -> exists k ta gs,
  tracker_calls (mc_build mc) p (S k) (tracker_start t) = Ok (ta ++ [None]) /\
  (forall n, game_calls (mc_build mc) p (player_names st) n (game_start g) = Ok (firstn n (map Some gs ++ repeat None n))) /\
  (table mc p rows (merge_start st t g None) = Panic <->
   Exists (stops (mc_build mc) (users_of st)) (map tracker_item (present ta)) \/ Exists (stops (mc_build mc) (users_of st)) (map game_item_event gs)) /\
  (table mc p rows (merge_start st t g None) <> Panic -> exists res, table mc p rows (merge_start st t g None) = Ok res).
Proof.
  intros mc p init d b st t g A rows Hst Ht Hg Hb. destruct (any_sectors mc p init d b st t g A rows Hst Ht Hg Hb) as (k & ta & gs & evs & Dt & Dg & I & E).
  exists k, ta, gs. refine (conj Dt (conj Dg _)). rewrite E. rewrite <- (interleaving_exists _ _ _ _ _ I). destruct (starts_wf _ _ _ _ Hst) as (Hw & _).
  destruct (items_stop mc st evs Hw) as [(-> & H)|(its & -> & H)]; cbn [obind].
  - split; [tauto|]. intros Hn. exfalso. apply Hn. reflexivity.
  - split; [|intros _; eauto]. split; [discriminate|tauto].
Qed.
Lemma r_step_stop : forall mc st e, reachable mc st ->
  (handle_transition mc st e = Panic <-> stops (mc_build mc) (users_of st) e) /\
  (~ stops (mc_build mc) (users_of st) e -> exists st' it, handle_transition mc st e = Ok (st', it)).
Proof.
  intros mc st e Hr. destruct (step_stop mc st e (reachable_wf _ _ Hr)) as [(E & H)|(st' & it & E & H)]; rewrite E; [tauto|].
  split; [|intros _; eauto]. split; [discriminate|tauto].
Qed.
Lemma r_run_stop : forall mc init d b st evs, starts init d b st ->
  (run mc st evs = Panic <-> Exists (stops (mc_build mc) (users_of st)) evs) /\
  (~ Exists (stops (mc_build mc) (users_of st)) evs -> exists st' its, run mc st evs = Ok (st', its)).
Proof.
  intros mc init d b st evs Hst. destruct (starts_wf _ _ _ _ Hst) as (Hw & _).
  destruct (run_stop mc evs st Hw) as [(E & H)|(st' & it & E & H)]; rewrite E; [tauto|].
  split; [|intros _; eauto]. split; [discriminate|tauto].
Qed.

(** ** With filters *)
Lemma filtered_runs : forall mc p names K l it, good it -> wf (mg_state it) -> scheduled mc p names it l ->
  (forall u, users_of (mg_state it) u <-> K u) -> ~ Exists (stops (mc_build mc) K) (present l) ->
  exists r it' l', merge_next mc p it = Ok (r, it') /\ good it' /\ wf (mg_state it') /\ scheduled mc p names it' l' /\
    (forall u, users_of (mg_state it') u <-> K u) /\ ~ Exists (stops (mc_build mc) K) (present l').
Proof.
  intros mc p names K. induction l as [|x l IH]; intros it Hg Hw Hs Hk Hn; rewrite (merge_unfold mc p it Hg); unfold round;
    destruct (advance_scheduled mc p names it _ Hs) as (it1 & Ea & Hs1); rewrite Ea; cbn [obind hd tl] in *;
    destruct (advance_facts mc p _ _ _ Hg Ea) as (Hg1 & _ & S1 & F1).
  - eexists _, _, _. split; [reflexivity|]. split; [exact Hg1|]. rewrite S1. split; [exact Hw|]. split; [exact Hs1|]. split; [exact Hk|exact Hn].
  - destruct x as [e|].
    2:{ eexists _, _, _. split; [reflexivity|]. split; [exact Hg1|]. rewrite S1. split; [exact Hw|]. split; [exact Hs1|]. split; [exact Hk|exact Hn]. }
    cbn [present flat_map app] in Hn. rewrite Exists_cons in Hn. rewrite S1.
    destruct (step_stop mc (mg_state it) e Hw) as [(_ & Hx)|(st & i & E & _)]; [exfalso; apply Hn; left; apply (stops_same _ _ _ _ Hk), Hx|].
    rewrite E. cbn [obind]. cbv zeta. change (mg_filters (with_state st it1)) with (mg_filters it1).
    pose proof (step_wf _ _ _ _ _ Hw E) as Hw2. pose proof (users_step mc _ _ _ _ Hw E) as Hu.
    assert (Hk2 : forall u, users_of st u <-> K u) by (intros u; rewrite (Hu u); apply Hk).
    assert (Hn2 : ~ Exists (stops (mc_build mc) K) (present l)) by tauto.
    assert (Hs2 : scheduled mc p names (with_state st it1) l).
    { destruct Hs1 as (Hnm & Hr). split; [|exact Hr]. intros u. cbn [with_state mg_state]. rewrite <- (Hnm u). rewrite S1. apply (step_names mc _ _ _ _ Hw E). }
    destruct (mg_filters it1) as [f|].
    + destruct (skip_event f (it_event i)).
      * apply IH; assumption.
      * destruct (max_reached (decrease_allowed f)); eexists _, _, l; (split; [reflexivity|]); split; try exact Hg1; cbn [with_filters with_state mg_state]; auto.
    + eexists _, _, l. split; [reflexivity|]. split; [exact Hg1|]. cbn [with_state mg_state]. auto.
Qed.
Lemma filtered_calls_run : forall mc p names K n l it, good it -> wf (mg_state it) -> scheduled mc p names it l ->
  (forall u, users_of (mg_state it) u <-> K u) -> ~ Exists (stops (mc_build mc) K) (present l) ->
  exists rs it', merge_calls mc p n it = Ok (rs, it').
Proof.
  intros mc p names K. induction n as [|n IH]; intros l it Hg Hw Hs Hk Hn; cbn [merge_calls]; [eauto|].
  destruct (filtered_runs mc p names K l it Hg Hw Hs Hk Hn) as (r & it1 & l1 & -> & Hg1 & Hw1 & Hs1 & Hk1 & Hn1). cbn [obind].
  destruct (IH l1 it1 Hg1 Hw1 Hs1 Hk1 Hn1) as (rs & it2 & ->). cbn [obind]. eauto.
Qed.
Lemma filters_run : forall mc p init d b st t g, starts init d b st -> bytes_ok t -> bytes_ok g -> mc_build mc = Wrapping \/ no_run 9 t -> exists ta gs,
  (forall n, tracker_calls (mc_build mc) p n (tracker_start t) = Ok (firstn n (ta ++ repeat None n))) /\
  (forall n, game_calls (mc_build mc) p (player_names st) n (game_start g) = Ok (firstn n (map Some gs ++ repeat None n))) /\
  (~ Exists (stops (mc_build mc) (users_of st)) (map tracker_item (present ta) ++ map game_item_event gs) ->
   forall f n, exists answers, answers_of (merge_calls mc p n (merge_start st t g f)) = Ok answers).
Proof.
  intros mc p init d b st t g Hst Ht Hg Hb. destruct (tracker_answers (mc_build mc) p t Ht Hb) as (evs & rest & _ & _ & ta & _ & Dt).
  destruct (game_describe (mc_build mc) p (player_names st) g Hg) as (gevs & r & gs & _ & _ & _ & Dg). exists ta, gs. refine (conj Dt (conj Dg _)).
  intros Hn f n. destruct (filtered_calls_run mc p (player_names st) (users_of st) n (schedule ta gs) (merge_start st t g f)) as (rs & it' & E).
  - now apply start_good.
  - apply (starts_wf _ _ _ _ Hst).
  - now apply start_scheduled.
  - reflexivity.
  - rewrite (interleaving_exists _ _ _ _ _ (schedule_interleaving ta gs)). rewrite Exists_app in Hn. exact Hn.
  - rewrite E. exists rs. reflexivity.
Qed.
