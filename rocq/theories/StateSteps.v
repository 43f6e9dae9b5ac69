(** * What each event does to the state *)
From Verif Require Import Base F32 Tags Events Maps Balance Lobby Convert State StateFacts StateSpec.
From Coq Require Import Permutation Sorted.
#[local] Open Scope Z_scope.
#[local] Open Scope list_scope.

(** ** Well-formed users *)
Definition wf_users (users : list (Z * user_state)) : Prop :=
  NoDup (map fst users) /\ Forall (fun x => length (us_groups (snd x)) = 11%nat) users.
Definition wf (st : state) : Prop := wf_users (st_users st).

Lemma wf_get : forall st uid us, wf st -> user_of st uid = Some us -> length (us_groups us) = 11%nat.
Proof.
  intros st uid us [_ Hf] Hu. apply mget_In in Hu. rewrite Forall_forall in Hf. apply (Hf _ Hu).
Qed.
Lemma mset_In : forall A l k (a : A) x, In x (mset k a l) -> x = (k, a) \/ In x l.
Proof.
  intros A l k a x. induction l as [|[k0 a0] l IH]; cbn [mset]; intros Hx.
  - destruct Hx as [<-|[]]. left. reflexivity.
  - destruct (k0 =? k); destruct Hx as [<-|Hx]; [left; reflexivity|right; right; exact Hx|right; left; reflexivity|].
    destruct (IH Hx) as [->|Hi]; [left; reflexivity|right; right; exact Hi].
Qed.
Lemma mset_NoDup : forall A l k (a : A), NoDup (map fst l) -> NoDup (map fst (mset k a l)).
Proof.
  intros A l k a. induction l as [|[k0 a0] l IH]; intros Hd; cbn [mset map fst].
  - repeat constructor. intros [].
  - cbn [map fst] in Hd. inversion Hd as [|x y Hx Hy]; subst. destruct (Z.eqb_spec k0 k) as [->|Hn]; cbn [map fst]; [constructor; assumption|].
    constructor; [|apply IH, Hy]. intros Hi. apply in_map_iff in Hi as ([k1 a1] & E & Hi). cbn in E. subst k1.
    apply mset_In in Hi as [E|Hi]; [congruence|]. apply Hx. apply in_map_iff. exists (k0, a1). auto.
Qed.
Lemma wf_mset : forall users uid us, wf_users users -> length (us_groups us) = 11%nat -> wf_users (mset uid us users).
Proof.
  intros users uid us [Hd Hf] Hl. split; [apply mset_NoDup, Hd|]. apply Forall_forall. intros x Hx.
  apply mset_In in Hx as [->|Hx]; [exact Hl|]. rewrite Forall_forall in Hf. apply Hf, Hx.
Qed.
Lemma initial_users_wf : forall players, wf_users (initial_users players).
Proof.
  intros players. unfold initial_users. assert (H0 : wf_users []) by (split; constructor).
  revert H0. generalize (@nil (Z * user_state)). induction players as [|p players IH]; intros l Hl; [exact Hl|].
  cbn [fold_left]. apply IH. unfold insert_player. destruct (ls_user_id (ld_slot p)); [|exact Hl]. apply wf_mset; [exact Hl|reflexivity].
Qed.
Lemma starts_wf : forall init d b st, starts init d b st -> wf st /\ st_units st = [] /\ st_balance st = b.
Proof.
  intros init d b st (st1 & Hi & Hu & Hb & Hp). unfold initial_state in Hi.
  apply obind_ok in Hi as (players & Hl & Hi). injection Hi as <-. cbn in *. split; [|auto].
  destruct (initial_users_wf players) as [Hd Hf]. split.
  - eapply Permutation_NoDup; [|exact Hd]. apply Permutation_map, Permutation_sym, Hp.
  - eapply Permutation_Forall; [apply Permutation_sym, Hp|exact Hf].
Qed.

(** ** The users after a game event *)
(** Only [uid] may have changed, and not his lobby data. *)
Definition user_change (uid : Z) (st st' : state) : Prop :=
  (forall v, v <> uid -> user_of st' v = user_of st v) /\
  map fst (st_users st') = map fst (st_users st) /\
  match user_of st uid with
  | None => st_users st' = st_users st
  | Some us => exists us', user_of st' uid = Some us' /\ us_lobby us' = us_lobby us /\ (length (us_groups us) = 11%nat -> length (us_groups us') = 11%nat) /\ st_users st' = mset uid us' (st_users st)
  end.
Lemma mset_same : forall A l k (a : A), mget k l = Some a -> mset k a l = l.
Proof.
  intros A l k a. induction l as [|[k0 a0] l IH]; intros Hg; cbn [mset mget] in *; [discriminate|].
  destruct (Z.eqb_spec k0 k) as [->|Hn]; [congruence|]. rewrite IH by exact Hg. reflexivity.
Qed.
Lemma user_change_refl : forall uid st st', st_users st' = st_users st -> user_change uid st st'.
Proof.
  intros uid st st' E. split; [intros v _; unfold user_of; rewrite E; reflexivity|]. split; [rewrite E; reflexivity|].
  unfold user_of. rewrite E. destruct (mget uid (st_users st)) as [us|] eqn:Hu; [|reflexivity].
  exists us. split; [reflexivity|]. split; [reflexivity|]. split; [auto|]. symmetry. apply mset_same, Hu.
Qed.
Lemma user_change_set : forall uid st st' us us', user_of st uid = Some us -> us_lobby us' = us_lobby us ->
  (length (us_groups us) = 11%nat -> length (us_groups us') = 11%nat) ->
  st_users st' = mset uid us' (st_users st) -> user_change uid st st'.
Proof.
  intros uid st st' us us' Hu Hl Hg E. split; [|split].
  - intros v Hv. unfold user_of. rewrite E, mget_mset. destruct (Z.eqb_spec uid v); [congruence|reflexivity].
  - rewrite E. apply mset_keys. unfold user_of in Hu. congruence.
  - rewrite Hu. exists us'. split; [unfold user_of; rewrite E, mget_mset, Z.eqb_refl; reflexivity|auto].
Qed.
Lemma user_change_wf : forall uid st st', wf st -> user_change uid st st' -> wf st'.
Proof.
  intros uid st st' Hw (_ & _ & Hc). destruct (user_of st uid) as [us|] eqn:Hu.
  - destruct Hc as (us' & _ & _ & Hg & E). unfold wf. rewrite E. apply wf_mset; [exact Hw|]. apply Hg. eapply wf_get; eauto.
  - unfold wf. rewrite Hc. exact Hw.
Qed.

(** ** The pieces *)
Lemma active_units_ok : forall st uid tags, active_units st uid = Ok tags -> tags = selection st uid.
Proof.
  intros st uid tags Ha. unfold active_units, selection, group_of, user_of in *.
  destruct (mget uid (st_users st)); [|congruence]. apply group_get_ok in Ha as [_ ->]. reflexivity.
Qed.
Lemma active_units_wf : forall st uid, wf st -> active_units st uid = Ok (selection st uid).
Proof.
  intros st uid Hw. destruct (active_units st uid) as [tags| |] eqn:E.
  - f_equal. apply active_units_ok, E.
  - unfold active_units in E. destruct (mget uid (st_users st)) as [us|]; [|discriminate]. rewrite group_get_eq in E.
    destruct (_ <? _)%nat; discriminate.
  - unfold active_units in E. destruct (mget uid (st_users st)) as [us|] eqn:Hu; [|discriminate]. rewrite group_get_eq in E.
    rewrite (wf_get st uid us Hw Hu) in E. discriminate.
Qed.
Lemma unmark_ok : forall st gl uid st' l, unmark_previously_selected_units st gl uid = Ok (st', l) ->
  exists units ids, st' = with_units st units /\ l = stored_units units ids /\
  select_loop gl false f32_half (selection st uid) (st_units st) = (units, ids).
Proof.
  intros st gl uid st' l Hu. unfold unmark_previously_selected_units in Hu. apply obind_ok in Hu as (tags & Ha & Hu).
  apply active_units_ok in Ha. subst tags. destruct (select_loop _ _ _ _ _) as [units ids] eqn:E. injection Hu as <- <-.
  exists units, ids. auto.
Qed.
Lemma unmark_wf : forall st gl uid, wf st -> exists units ids,
  unmark_previously_selected_units st gl uid = Ok (with_units st units, stored_units units ids) /\
  select_loop gl false f32_half (selection st uid) (st_units st) = (units, ids).
Proof.
  intros st gl uid Hw. unfold unmark_previously_selected_units. rewrite (active_units_wf _ _ Hw). cbn [obind].
  destruct (select_loop _ _ _ _ _) as [units ids]. exists units, ids. auto.
Qed.
Lemma change_groups_ok : forall st uid f st', change_groups st uid f = Ok st' ->
  st_units st' = st_units st /\ st_balance st' = st_balance st /\
  match user_of st uid with
  | None => st' = st
  | Some us => exists gs, f (us_groups us) = Ok gs /\ st_users st' = mset uid (set_groups us gs) (st_users st)
  end.
Proof.
  intros st uid f st' Hc. unfold change_groups in Hc. unfold user_of. destruct (mget uid (st_users st)) as [us|].
  - apply obind_ok in Hc as (gs & Hf & Hc). injection Hc as <-. cbn. split; [reflexivity|]. split; [reflexivity|]. exists gs. auto.
  - injection Hc as <-. auto.
Qed.
Lemma stored_units_at : forall st ids, stored_units (st_units st) ids = units_at st ids.
Proof.
  intros st ids. unfold units_at, unit_of. induction ids as [|i ids IH]; [reflexivity|]. cbn [stored_units flat_map].
  destruct (mget i (st_units st)); cbn [app]; rewrite IH; reflexivity.
Qed.

(** What a control group update makes of group [j]. *)
Definition group_after (upd : group_update) (i : Z) (gs : list (list Z)) (j : Z) : list Z :=
  let a := group gs 10 in
  let stolen k := if k <? 9 then without a (group gs k) else group gs k in
  match upd with
  | GSet => if j =? i then a else group gs j
  | GClear => if j =? i then [] else group gs j
  | GRecall => if j =? 10 then group gs i else group gs j
  | GAppend => if j =? i then dedup_z (sort_z (group gs i ++ a)) else group gs j
  | GSetAndSteal => if j =? i then a else stolen j
  | GAppendAndSteal => if j =? i then dedup_z (sort_z (stolen i ++ a)) else stolen j
  end.
(** The groups computed by [update_control_group], when there are eleven. *)
Definition update_groups (upd : group_update) (i : Z) (gs : list (list Z)) : outcome (list (list Z)) :=
  match upd with
  | GSet => do a <- group_get gs active_group; group_set gs i a
  | GSetAndSteal => do a <- group_get gs active_group; do gs <- steal gs a; do a <- group_get gs active_group; group_set gs i a
  | GClear => group_set gs i []
  | GAppend => do a <- group_get gs active_group; append_group gs i a
  | GAppendAndSteal => do a <- group_get gs active_group; do gs <- steal gs a; append_group gs i a
  | GRecall => do g <- group_get gs i; group_set gs active_group g
  end.
Lemma update_groups_ok : forall upd i gs, length gs = 11%nat -> 0 <= i ->
  if i <=? 10 then exists gs', update_groups upd i gs = Ok gs' /\ length gs' = 11%nat /\ forall j, 0 <= j -> group gs' j = group_after upd i gs j
  else update_groups upd i gs = Panic.
Proof.
  intros upd i gs Hl Hi.
  assert (Hget : forall g, length g = 11%nat -> group_get g i = if i <=? 10 then Ok (group g i) else Panic).
  { intros g Hg. rewrite group_get_eq, Hg. destruct (Nat.ltb_spec (Z.to_nat i) 11), (Z.leb_spec i 10); try reflexivity; lia. }
  assert (Hset : forall g x, length g = 11%nat -> group_set g i x = if i <=? 10 then Ok (list_set g (Z.to_nat i) x) else Panic).
  { intros g x Hg. rewrite group_set_eq, Hg. destruct (Nat.ltb_spec (Z.to_nat i) 11), (Z.leb_spec i 10); try reflexivity; lia. }
  assert (Hact : forall g, length g = 11%nat -> group_get g active_group = Ok (group g 10)).
  { intros g Hg. rewrite group_get_eq, Hg. reflexivity. }
  assert (Hsa : forall g x, length g = 11%nat -> group_set g active_group x = Ok (list_set g 10 x)).
  { intros g x Hg. rewrite group_set_eq, Hg. reflexivity. }
  assert (Hnth : forall g x j, length g = 11%nat -> 0 <= j -> i <= 10 -> group (list_set g (Z.to_nat i) x) j = if j =? i then x else group g j).
  { intros g x j Hg Hj H10. unfold group. rewrite list_set_nth by lia.
    destruct (Nat.eqb_spec (Z.to_nat i) (Z.to_nat j)), (Z.eqb_spec j i); try reflexivity; lia. }
  assert (Hnth10 : forall g x j, length g = 11%nat -> 0 <= j -> group (list_set g 10 x) j = if j =? 10 then x else group g j).
  { intros g x j Hg Hj. unfold group. rewrite list_set_nth by lia.
    destruct (Nat.eqb_spec 10 (Z.to_nat j)), (Z.eqb_spec j 10); try reflexivity; lia. }
  destruct (steal_ok gs (group gs 10) Hl) as (gs1 & Es & Hl1 & Hg1).
  unfold update_groups, append_group. rewrite !(Hact gs Hl). cbn [obind]. rewrite Es. cbn [obind]. rewrite (Hact gs1 Hl1).
  rewrite !(Hget gs Hl), !(Hget gs1 Hl1). cbn [obind].
  destruct (Z.leb_spec i 10) as [H10|H10].
  2:{ destruct upd; cbn [obind]; rewrite ?Hset by assumption; destruct (Z.leb_spec i 10); (lia || reflexivity). }
  destruct upd; cbn [obind]; rewrite ?Hset by assumption; rewrite ?Hsa by assumption; destruct (Z.leb_spec i 10); try lia;
    eexists; (split; [reflexivity|]); (split; [rewrite list_set_length; assumption|]); intros j Hj; unfold group_after;
    rewrite ?Hnth, ?Hnth10 by assumption; rewrite ?Hg1 by lia; try reflexivity.
Qed.
(** [update_control_group] seen as: unmark, change the groups, and on a recall
    mark. *)
Lemma update_control_group_eq : forall st gl uid e,
  update_control_group st gl uid e =
  (do (st1, updated) <- unmark_previously_selected_units st gl uid;
   do st2 <- change_groups st1 uid (update_groups (cg_update e) (cg_index e));
   match cg_update e with
   | GRecall => do selected <- active_units st2 uid; let '(st3, marked) := mark_selected_units st2 gl selected in
                Ok (st3, (GControlGroupUpdate e, HSelection (updated ++ marked)))
   | _ => Ok (st2, (GControlGroupUpdate e, HSelection updated))
   end).
Proof. intros st gl uid [i [] m]; reflexivity. Qed.

(** ** Game events *)
Lemma same_identity_refl : forall u, same_identity u u.
Proof. intros u. repeat split. Qed.
Lemma same_identity_trans : forall u v w, same_identity u v -> same_identity v w -> same_identity u w.
Proof. intros u v w (a&b&c&d&e&f&g&h&i&j) (a'&b'&c'&d'&e'&f'&g'&h'&i'&j'). repeat split; congruence. Qed.
Lemma select_one_identity : forall gl sel k u, same_identity u (select_one gl sel k u).
Proof. intros gl sel k u. unfold select_one. destruct (Bool.eqb _ _); repeat split. Qed.
Lemma on_named_identity : forall f tags i u, (forall u, same_identity u (f u)) -> same_identity u (on_named tags f i u).
Proof. intros f tags i u Hf. unfold on_named. destruct (named tags i); [apply Hf|apply same_identity_refl]. Qed.
(** The units of [st'] are those of [st], with their identity kept. *)
Definition units_kept (st st' : state) : Prop :=
  exists h, acts h (st_units st) (st_units st') /\ forall i u, same_identity u (h i u).
Lemma units_kept_same : forall st st', st_units st' = st_units st -> units_kept st st'.
Proof. intros st st' E. exists (fun _ u => u). rewrite E. split; [apply acts_id|intros; apply same_identity_refl]. Qed.
Lemma units_kept_trans : forall a b c, units_kept a b -> units_kept b c -> units_kept a c.
Proof.
  intros a b c (h & Ha & Hi) (h' & Ha' & Hi'). exists (fun i u => h' i (h i u)). split; [eapply acts_comp; eauto|].
  intros i u. eapply same_identity_trans; eauto.
Qed.
Lemma unmark_frame : forall st gl uid st' l, unmark_previously_selected_units st gl uid = Ok (st', l) ->
  st_users st' = st_users st /\ st_balance st' = st_balance st /\ units_kept st st'.
Proof.
  intros st gl uid st' l Hu. apply unmark_ok in Hu as (units & ids & -> & _ & Hs). split; [reflexivity|]. split; [reflexivity|].
  apply select_loop_acts in Hs as (A & _). eexists. split; [exact A|]. intros i u. apply on_named_identity. intros; apply select_one_identity.
Qed.
Lemma mark_frame : forall st gl tags st' l, mark_selected_units st gl tags = (st', l) ->
  st_users st' = st_users st /\ st_balance st' = st_balance st /\ units_kept st st'.
Proof.
  intros st gl tags st' l Hm. unfold mark_selected_units in Hm. destruct (select_loop _ _ _ _ _) as [units ids] eqn:Hs.
  injection Hm as <- <-. split; [reflexivity|]. split; [reflexivity|].
  apply select_loop_acts in Hs as (A & _). eexists. split; [exact A|]. intros i u. apply on_named_identity. intros; apply select_one_identity.
Qed.
Lemma group_set_length : forall gs i g gs', group_set gs i g = Ok gs' -> length gs' = length gs.
Proof. intros gs i g gs' Hs. apply group_set_ok in Hs as (_ & Hs & _). exact Hs. Qed.
Lemma groups_loop_length : forall f idxs gs gs', groups_loop f idxs gs = Ok gs' -> length gs' = length gs.
Proof.
  intros f. induction idxs as [|i idxs IH]; intros gs gs' Hl; cbn [groups_loop] in Hl; [injection Hl as <-; reflexivity|].
  apply obind_ok in Hl as (g & _ & Hl). apply obind_ok in Hl as (gs1 & Hs & Hl). apply IH in Hl. rewrite Hl. eapply group_set_length; eauto.
Qed.
Lemma update_groups_length : forall upd i gs gs', update_groups upd i gs = Ok gs' -> length gs' = length gs.
Proof.
  intros upd i gs gs' Hu. destruct upd; cbn [update_groups] in Hu; unfold append_group, steal in Hu;
    repeat match goal with Hx : obind _ _ = Ok _ |- _ => apply obind_ok in Hx as (? & ? & Hx) end;
    repeat match goal with
      | Hx : groups_loop _ _ _ = Ok _ |- _ => apply groups_loop_length in Hx
      | Hx : group_set _ _ _ = Ok _ |- _ => apply group_set_length in Hx end; congruence.
Qed.
Lemma change_groups_frame : forall st uid f st', (forall gs gs', f gs = Ok gs' -> length gs' = length gs) ->
  change_groups st uid f = Ok st' -> st_units st' = st_units st /\ st_balance st' = st_balance st /\ user_change uid st st'.
Proof.
  intros st uid f st' Hf Hc. apply change_groups_ok in Hc as (Hu & Hb & Hc). split; [exact Hu|]. split; [exact Hb|].
  destruct (user_of st uid) as [us|] eqn:E; [|apply user_change_refl; congruence].
  destruct Hc as (gs & Hg & Hc). eapply user_change_set; [exact E| | |exact Hc]; [reflexivity|].
  cbn. apply Hf in Hg. congruence.
Qed.
Lemma user_change_pre : forall uid st1 st2 st', st_users st1 = st_users st2 -> user_change uid st1 st' -> user_change uid st2 st'.
Proof. intros uid st1 st2 st' E. unfold user_change, user_of. rewrite E. auto. Qed.
Lemma user_change_post : forall uid st st1 st2, st_users st1 = st_users st2 -> user_change uid st st1 -> user_change uid st st2.
Proof. intros uid st st1 st2 E. unfold user_change, user_of. rewrite E. auto. Qed.

Lemma game_frame : forall mc st gl uid e st' r, handle_game_event mc st gl uid e = Ok (st', r) ->
  st_balance st' = st_balance st /\ units_kept st st' /\ user_change uid st st'.
Proof.
  intros mc st gl uid e st' r Hh.
  assert (Htl : forall f tags units l, (forall u, f (f u) = f u) -> (forall u, same_identity u (f u)) ->
    target_loop f tags (st_units st) = (units, l) -> units_kept st (with_units st units)).
  { intros f tags units l Hf Hi Hl. apply target_loop_acts in Hl as [A _]; [|exact Hf]. eexists. split; [exact A|].
    intros i u. apply on_named_identity, Hi. }
  assert (Hcam : forall p, st_balance (move_camera st uid p) = st_balance st /\ units_kept st (move_camera st uid p) /\ user_change uid st (move_camera st uid p)).
  { intros p. unfold move_camera. destruct (mget uid (st_users st)) as [us|] eqn:E; cbn.
    - split; [reflexivity|]. split; [apply units_kept_same; reflexivity|].
      eapply user_change_set; [exact E| | |reflexivity]; [reflexivity|auto].
    - split; [reflexivity|]. split; [apply units_kept_same; reflexivity|]. apply user_change_refl. reflexivity. }
  assert (Hid : st_balance st = st_balance st /\ units_kept st st /\ user_change uid st st).
  { split; [reflexivity|]. split; [apply units_kept_same; reflexivity|apply user_change_refl; reflexivity]. }
  destruct e; cbn [handle_game_event] in Hh; try (injection Hh as <- <-; exact Hid).
  - unfold handle_camera_save in Hh. injection Hh as <- <-. apply Hcam.
  - unfold handle_cmd in Hh. apply obind_ok in Hh as (tags & _ & Hh).
    destruct (cmd_loop _ _ _ _ _ _) as [units [cmd' l]] eqn:El. injection Hh as <- <-.
    split; [reflexivity|]. split; [|apply user_change_refl; reflexivity].
    destruct (cm_abil e) as [a|] eqn:Ea.
    + apply cmd_loop_acts in El as (A & _); [|congruence]. eexists. split; [exact A|]. intros i u. apply on_named_identity.
      intros v. repeat split.
    + rewrite cmd_loop_none in El by exact Ea. injection El as <- <- <-. apply units_kept_same. reflexivity.
  - unfold handle_selection_delta in Hh. apply obind_ok in Hh as ([st1 upd] & H1 & Hh). apply obind_ok in Hh as (st2 & H2 & Hh).
    injection Hh as <- <-.
    assert (F1 : st_users st1 = st_users st /\ st_balance st1 = st_balance st /\ units_kept st st1).
    { destruct (sd_group e =? active_group).
      - apply obind_ok in H1 as ([sta la] & Ha & H1). apply unmark_frame in Ha as (A & B & C).
        destruct (mark_selected_units sta gl (sd_tags e)) as [stb lb] eqn:Em. injection H1 as <- <-.
        apply mark_frame in Em as (A' & B' & C'). split; [congruence|]. split; [congruence|]. eapply units_kept_trans; eauto.
      - injection H1 as <- <-. split; [reflexivity|]. split; [reflexivity|]. apply units_kept_same. reflexivity. }
    destruct F1 as (A & B & C). apply change_groups_frame in H2 as (A2 & B2 & C2).
    + split; [congruence|]. split; [eapply units_kept_trans; [exact C|apply units_kept_same, A2]|]. eapply user_change_pre; eauto.
    + intros gs gs' Hg. eapply group_set_length; eauto.
  - rewrite update_control_group_eq in Hh. apply obind_ok in Hh as ([st1 upd] & H1 & Hh). apply obind_ok in Hh as (st2 & H2 & Hh).
    apply unmark_frame in H1 as (A & B & C). apply change_groups_frame in H2 as (A2 & B2 & C2).
    2:{ intros gs gs'. apply update_groups_length. }
    assert (F : st_balance st2 = st_balance st /\ units_kept st st2 /\ user_change uid st st2).
    { split; [congruence|]. split; [eapply units_kept_trans; [exact C|apply units_kept_same, A2]|]. eapply user_change_pre; eauto. }
    destruct (cg_update e); try (injection Hh as <- <-; exact F).
    apply obind_ok in Hh as (sel & _ & Hh). destruct (mark_selected_units st2 gl sel) as [st3 l3] eqn:Em. injection Hh as <- <-.
    apply mark_frame in Em as (A3 & B3 & C3). destruct F as (F1 & F2 & F3).
    split; [congruence|]. split; [eapply units_kept_trans; eauto|]. eapply user_change_post; [|exact F3]. congruence.
  - unfold handle_camera_update in Hh. injection Hh as <- <-. destruct (cu_target e); [apply Hcam|exact Hid].
  - unfold handle_update_target_point in Hh. apply obind_ok in Hh as (tags & _ & Hh).
    destruct (target_loop _ _ _) as [units l] eqn:El. injection Hh as <- <-.
    split; [reflexivity|]. split; [|apply user_change_refl; reflexivity]. eapply Htl; [| |exact El]; [reflexivity|repeat split].
  - unfold handle_update_target_unit in Hh.
    destruct (match mget (tu_tag target) (st_units st) with Some x => Some x | None => mget (unit_tag_index (tu_tag target)) (st_units st) end) as [tg|];
      [|injection Hh as <- <-; exact Hid].
    apply obind_ok in Hh as (tags & _ & Hh).
    destruct (target_loop _ _ _) as [units l] eqn:El. injection Hh as <- <-.
    split; [reflexivity|]. split; [|apply user_change_refl; reflexivity]. eapply Htl; [| |exact El]; [reflexivity|repeat split].
Qed.

(** ** Tracker events *)
Lemma map_out_ok : forall A B (f : A -> outcome B) l l', map_out f l = Ok l' -> Forall2 (fun a b => f a = Ok b) l l'.
Proof.
  intros A B f. induction l as [|a l IH]; intros l' Hl; cbn [map_out] in Hl; [injection Hl as <-; constructor|].
  apply obind_ok in Hl as (b & Hb & Hl). apply obind_ok in Hl as (bs & Hbs & Hl). injection Hl as <-. constructor; auto.
Qed.
Lemma retain_user_ok : forall z x y, length (us_groups (snd x)) = 11%nat -> retain_user z x = Ok y ->
  fst y = fst x /\ us_lobby (snd y) = us_lobby (snd x) /\ us_camera (snd y) = us_camera (snd x) /\
  length (us_groups (snd y)) = 11%nat /\ forall j, 0 <= j -> group (us_groups (snd y)) j = remove_z z (group (us_groups (snd x)) j).
Proof.
  intros z [k us] y Hl Hr. unfold retain_user in Hr. cbn [fst snd] in *. destruct (died_groups_ok z _ Hl) as (gs & E & Hg & Hj).
  rewrite E in Hr. cbn [obind] in Hr. injection Hr as <-. cbn. auto.
Qed.
Lemma retain_total : forall z users, wf_users users -> exists users', map_out (retain_user z) users = Ok users'.
Proof.
  intros z users [_ Hf]. induction users as [|x users IH]; [exists []; reflexivity|]. inversion Hf as [|a b Hx Hy]; subst.
  destruct (IH Hy) as (us' & E). destruct (died_groups_ok z _ Hx) as (gs & Eg & _). cbn [map_out]. unfold retain_user at 1.
  rewrite Eg. cbn [obind]. rewrite E. cbn [obind]. eauto.
Qed.
(** The users after a death: every group has lost [z]. *)
Definition users_lost (z : Z) (st st' : state) : Prop :=
  map fst (st_users st') = map fst (st_users st) /\
  forall v, match user_of st v, user_of st' v with
    | Some us, Some us' => us_lobby us' = us_lobby us /\ us_camera us' = us_camera us /\ length (us_groups us') = 11%nat /\
        forall j, 0 <= j -> group (us_groups us') j = remove_z z (group (us_groups us) j)
    | None, None => True
    | _, _ => False
    end.
Lemma retain_users_lost : forall z users users', wf_users users -> map_out (retain_user z) users = Ok users' ->
  map fst users' = map fst users /\ wf_users users' /\
  forall v, match mget v users, mget v users' with
    | Some us, Some us' => us_lobby us' = us_lobby us /\ us_camera us' = us_camera us /\ length (us_groups us') = 11%nat /\
        forall j, 0 <= j -> group (us_groups us') j = remove_z z (group (us_groups us) j)
    | None, None => True
    | _, _ => False
    end.
Proof.
  intros z users users' [Hd Hf] Hm. apply map_out_ok in Hm.
  assert (Hk : map fst users' = map fst users /\ Forall (fun x => length (us_groups (snd x)) = 11%nat) users' /\
   forall v, match mget v users, mget v users' with
    | Some us, Some us' => us_lobby us' = us_lobby us /\ us_camera us' = us_camera us /\ length (us_groups us') = 11%nat /\
        forall j, 0 <= j -> group (us_groups us') j = remove_z z (group (us_groups us) j)
    | None, None => True
    | _, _ => False
    end).
  { clear Hd. induction Hm as [|x y l l' Hxy Hm IH]; [split; [reflexivity|split; [constructor|intros v; exact I]]|].
    inversion Hf as [|a b Hx Hy]; subst. destruct (IH Hy) as (K & F & G). apply retain_user_ok in Hxy; [|exact Hx].
    destruct x as [k us], y as [k' us']. cbn [fst snd] in *. destruct Hxy as (-> & A & B & C & D).
    split; [cbn [map fst]; rewrite K; reflexivity|]. split; [constructor; [exact C|exact F]|].
    intros v. cbn [mget]. destruct (k =? v); [auto|apply G]. }
  destruct Hk as (K & F & G). split; [exact K|]. split; [split; [rewrite K; exact Hd|exact F]|exact G].
Qed.

Lemma position_loop_acts : forall gl l units units' ids, position_loop gl l units = (units', ids) ->
  exists h, acts h units units' /\ (forall i u, su_index (h i u) = su_index u) /\
    (forall i, ~ In i (map up_tag l) -> forall u, h i u = u).
Proof.
  intros gl. induction l as [|p l IH]; intros units units' ids Hl; cbn [position_loop] in Hl.
  - injection Hl as <- <-. exists (fun _ u => u). split; [apply acts_id|auto].
  - destruct (mget (up_tag p) units) as [u|] eqn:Hu.
    + destruct (position_loop gl l _) as [w ids'] eqn:E. injection Hl as <- <-. apply IH in E as (h & A & I & N).
      set (f := fun u => set_loop gl (set_pos (f32_div (f32_of_int (up_x p)) f32_4, f32_div (f32_of_int (up_y p)) f32_4, f32_zero) u)).
      exists (fun i u => h i (if i =? up_tag p then f u else u)). split; [|split].
      * intros i. rewrite A, mget_mset. rewrite (Z.eqb_sym i). destruct (Z.eqb_spec (up_tag p) i) as [<-|Hn]; [rewrite Hu|]; reflexivity.
      * intros i w'. rewrite I. destruct (i =? up_tag p); reflexivity.
      * intros i Hi w'. cbn [map In] in Hi. destruct (Z.eqb_spec i (up_tag p)) as [->|Hn]; [exfalso; apply Hi; left; reflexivity|].
        apply N. intros Hx. apply Hi. right. exact Hx.
    + apply IH in Hl as (h & A & I & N). exists h. split; [exact A|]. split; [exact I|]. intros i Hi. apply N. intros Hx. apply Hi. right. exact Hx.
Qed.
