(** * How large the state of a replay gets

    What the state machine holds after a history, counted: control groups only
    hold tags their user's selections brought, and no more of them; units are
    at most the registrations. *)
From Verif Require Import Base F32 Tags TagFacts Events Maps Balance Lobby Convert State StateFacts StateSpec StateSteps StateProofs StateEvents.
From Coq Require Import Permutation Sorted.
#[local] Open Scope Z_scope.
#[local] Open Scope list_scope.

(** The tags a selection event of user [uid] brings. *)
Definition told (uid : Z) (e : sc2_event) : list Z :=
  match e with
  | EGame _ u _ (GSelectionDelta x) => if u =? uid then sd_tags x else []
  | _ => []
  end.
(** Those of a history. *)
Definition told_in (uid : Z) (evs : list sc2_event) : list Z := flat_map (told uid) evs.
(** How many events of a history register a unit. *)
Definition registrations (evs : list sc2_event) : list sc2_event :=
  filter (fun e => match registers e with Some _ => true | None => false end) evs.

(** ** Groups *)
(** A group within a stock of tags. *)
Definition within_stock (t : list Z) (g : list Z) : Prop := incl g t /\ (length g <= length t)%nat.
Definition groups_within (T : Z -> list Z) (users : list (Z * user_state)) : Prop :=
  Forall (fun x : Z * user_state => Forall (within_stock (T (fst x))) (us_groups (snd x))) users.

Lemma within_nil : forall t, within_stock t [].
Proof. intros t. split; [intros x []|cbn; lia]. Qed.
Lemma within_refl : forall t, within_stock t t.
Proof. intros t. split; [apply incl_refl|lia]. Qed.
Lemma within_more : forall t u g, within_stock t g -> within_stock (t ++ u) g.
Proof. intros t u g [A B]. split; [apply incl_appl, A|rewrite app_length; lia]. Qed.
Lemma within_less : forall t g (p : Z -> bool), within_stock t g -> within_stock t (filter p g).
Proof.
  intros t g p [A B]. split.
  - intros x Hx. apply filter_In in Hx as [Hx _]. apply A, Hx.
  - assert (length (filter p g) <= length g)%nat by (clear; induction g as [|a g IH]; cbn; [lia|destruct (p a); cbn; lia]). lia.
Qed.
Lemma within_remove : forall t z g, within_stock t g -> within_stock t (remove_z z g).
Proof. intros t z g Hg. apply within_less, Hg. Qed.
Lemma within_without : forall t sel g, within_stock t g -> within_stock t (fold_left (fun g u => remove_z u g) sel g).
Proof. intros t. induction sel as [|z sel IH]; intros g Hg; cbn [fold_left]; [exact Hg|]. apply IH, within_remove, Hg. Qed.
Lemma sorted_nodup : forall l, StronglySorted Z.lt l -> NoDup l.
Proof.
  induction l as [|a l IH]; intros Hs; [constructor|]. inversion Hs as [|x y Hl Hf]; subst. constructor; [|apply IH, Hl].
  intros Ha. rewrite Forall_forall in Hf. specialize (Hf _ Ha). lia.
Qed.
Lemma within_append : forall t g a, within_stock t g -> within_stock t a -> within_stock t (dedup_z (sort_z (g ++ a))).
Proof.
  intros t g a [A _] [B _].
  assert (Hi : incl (dedup_z (sort_z (g ++ a))) t) by (intros x Hx; apply append_In in Hx as [Hx|Hx]; [apply A|apply B]; exact Hx).
  split; [exact Hi|]. apply NoDup_incl_length; [|exact Hi]. apply sorted_nodup, append_sorted.
Qed.
Lemma forall_set : forall A (P : A -> Prop) l n a, Forall P l -> P a -> Forall P (list_set l n a).
Proof.
  intros A P. induction l as [|b l IH]; intros n a Hl Ha; cbn [list_set]; [destruct n; constructor|].
  inversion Hl; subst. destruct n; constructor; auto.
Qed.
Lemma forall_group : forall t gs i g, Forall (within_stock t) gs -> group_get gs i = Ok g -> within_stock t g.
Proof.
  intros t gs i g Hf Hg. apply group_get_ok in Hg as [Hl ->]. unfold group. rewrite Forall_forall in Hf. apply Hf. apply nth_In, Hl.
Qed.
Lemma forall_group_set : forall t gs i g gs', Forall (within_stock t) gs -> within_stock t g -> group_set gs i g = Ok gs' -> Forall (within_stock t) gs'.
Proof.
  intros t gs i g gs' Hf Hg Hs. rewrite group_set_eq in Hs. destruct (_ <? _)%nat; [|discriminate]. injection Hs as <-. apply forall_set; assumption.
Qed.
Lemma forall_loop : forall t f, (forall g, within_stock t g -> within_stock t (f g)) ->
  forall idxs gs gs', Forall (within_stock t) gs -> groups_loop f idxs gs = Ok gs' -> Forall (within_stock t) gs'.
Proof.
  intros t f Hf. induction idxs as [|i idxs IH]; intros gs gs' Hw Hl; cbn [groups_loop] in Hl; [injection Hl as <-; exact Hw|].
  apply obind_ok in Hl as (g & Hg & Hl). apply obind_ok in Hl as (gs1 & Hs & Hl). apply (IH _ _) in Hl; [exact Hl|].
  eapply forall_group_set; [exact Hw| |exact Hs]. apply Hf. eapply forall_group; eauto.
Qed.
Lemma forall_update : forall t upd i gs gs', Forall (within_stock t) gs -> update_groups upd i gs = Ok gs' -> Forall (within_stock t) gs'.
Proof.
  intros t upd i gs gs' Hw Hu.
  destruct upd; cbn [update_groups] in Hu; unfold append_group, steal in Hu;
    repeat match goal with Hx : obind _ _ = Ok _ |- _ => apply obind_ok in Hx as (? & ? & Hx) end;
    repeat match goal with
      | Hx : groups_loop _ _ ?g = Ok _, Hg : Forall (within_stock t) ?g |- _ =>
          apply (forall_loop t _ (fun g => within_without t _ g) _ _ _ Hg) in Hx
      | Hx : group_get ?g _ = Ok _, Hg : Forall (within_stock t) ?g |- _ => apply (forall_group t _ _ _ Hg) in Hx
      | Hx : group_set ?g _ _ = Ok _, Hg : Forall (within_stock t) ?g |- _ =>
          apply (forall_group_set t _ _ _ _ Hg) in Hx; [exact Hx|]
    end; try assumption; try apply within_nil; apply within_append; assumption.
Qed.
Lemma groups_mset : forall T users uid us, groups_within T users -> Forall (within_stock (T uid)) (us_groups us) -> groups_within T (mset uid us users).
Proof.
  intros T users uid us Hw Hu. unfold groups_within in *. rewrite Forall_forall in Hw |- *. intros x Hx.
  apply mset_In in Hx as [-> | Hx]; [exact Hu|apply Hw, Hx].
Qed.
Lemma groups_get : forall T users uid us, groups_within T users -> mget uid users = Some us -> Forall (within_stock (T uid)) (us_groups us).
Proof.
  intros T users uid us Hw Hg. apply mget_In in Hg. unfold groups_within in Hw. rewrite Forall_forall in Hw. apply (Hw _ Hg).
Qed.
Lemma groups_more : forall T U users, groups_within T users -> groups_within (fun v => T v ++ U v) users.
Proof.
  intros T U users Hw. unfold groups_within in *. eapply Forall_impl; [|exact Hw]. intros x Hx. eapply Forall_impl; [|exact Hx].
  intros g. apply within_more.
Qed.
Lemma groups_change : forall T st uid f st', groups_within T (st_users st) ->
  (forall gs gs', Forall (within_stock (T uid)) gs -> f gs = Ok gs' -> Forall (within_stock (T uid)) gs') ->
  change_groups st uid f = Ok st' -> groups_within T (st_users st').
Proof.
  intros T st uid f st' Hw Hf Hc. apply change_groups_ok in Hc as (_ & _ & Hc). unfold user_of in Hc. destruct (mget uid (st_users st)) as [us|] eqn:E.
  - destruct Hc as (gs & Hg & ->). apply groups_mset; [exact Hw|]. cbn [us_groups set_groups]. eapply Hf; [|exact Hg].
    eapply groups_get; eauto.
  - subst st'. exact Hw.
Qed.
Lemma groups_camera : forall T st uid p, groups_within T (st_users st) -> groups_within T (st_users (move_camera st uid p)).
Proof.
  intros T st uid p Hw. unfold move_camera. destruct (mget uid (st_users st)) as [us|] eqn:E; [|exact Hw].
  cbn [with_users st_users]. apply groups_mset; [exact Hw|]. cbn [us_groups set_camera]. eapply groups_get; eauto.
Qed.
Lemma groups_retain : forall T z users users', groups_within T users -> map_out (retain_user z) users = Ok users' -> groups_within T users'.
Proof.
  intros T z users users' Hw Hm. apply map_out_ok in Hm. unfold groups_within in *. induction Hm as [|x y l l' Hx Hm IH]; [constructor|].
  inversion Hw as [|a b Ha Hb]; subst. constructor; [|apply IH, Hb]. unfold retain_user in Hx. apply obind_ok in Hx as (gs & Hg & Hx). injection Hx as <-.
  cbn [fst snd us_groups set_groups]. eapply forall_loop; [|exact Ha|exact Hg]. intros g. apply within_remove.
Qed.

Lemma tracker_within : forall mc T st gl e st' r, groups_within T (st_users st) -> handle_tracker_event mc st gl e = Ok (st', r) -> groups_within T (st_users st').
Proof.
  intros mc T st gl e st' r Hw Hh. destruct e; cbn [handle_tracker_event] in Hh; try (injection Hh as <- <-; exact Hw).
  - apply (f_equal (fun o => match o with Ok x => st_users (fst x) | _ => [] end)) in Hh. cbn [fst] in Hh. rewrite born_users in Hh. rewrite <- Hh. exact Hw.
  - unfold handle_unit_died in Hh. apply obind_ok in Hh as (users & Hm & Hh). apply (groups_retain T) in Hm; [|exact Hw].
    destruct (mget (ud_index e) (st_units st)); injection Hh as <- <-; exact Hm.
  - apply (f_equal (fun o => match o with Ok x => st_users (fst x) | _ => [] end)) in Hh. cbn [fst] in Hh. rewrite type_users in Hh. rewrite <- Hh. exact Hw.
  - apply (f_equal (fun o => match o with Ok x => st_users (fst x) | _ => [] end)) in Hh. cbn [fst] in Hh. rewrite done_users in Hh. rewrite <- Hh. exact Hw.
  - unfold handle_unit_position in Hh. apply obind_ok in Hh as (l & _ & Hh). destruct (position_loop _ _ _) as [u ids]. injection Hh as <- <-. exact Hw.
  - injection Hh as <- <-. unfold handle_player_setup. destruct (se_user_id e) as [u|]; [|exact Hw]. destruct (mget u (st_users st)) as [us|] eqn:E; [|exact Hw].
    cbn [with_users st_users]. apply groups_mset; [exact Hw|]. cbn [us_groups]. eapply groups_get; eauto.
Qed.

Definition stock_step (T : Z -> list Z) (e : sc2_event) : Z -> list Z := fun v => T v ++ told v e.
Lemma stock_more : forall T e users, groups_within T users -> groups_within (stock_step T e) users.
Proof. intros T e users Hw. apply (groups_more T (fun v => told v e)), Hw. Qed.


Lemma game_within : forall mc T st gl uid n e st' r, groups_within T (st_users st) -> handle_game_event mc st gl uid e = Ok (st', r) ->
  groups_within (stock_step T (EGame gl uid n e)) (st_users st').
Proof.
  intros mc T st gl uid n e st' r Hw Hh.
  assert (Hsame : forall st1, st_users st1 = st_users st -> groups_within (stock_step T (EGame gl uid n e)) (st_users st1)).
  { intros st1 ->. apply stock_more, Hw. }
  assert (Hcam : forall p, groups_within (stock_step T (EGame gl uid n e)) (st_users (move_camera st uid p))).
  { intros p. apply stock_more, groups_camera, Hw. }
  destruct e; cbn [handle_game_event] in Hh; try (injection Hh as <- <-; apply Hsame; reflexivity).
  - unfold handle_camera_save in Hh. injection Hh as <- <-. apply Hcam.
  - unfold handle_cmd in Hh. apply obind_ok in Hh as (tags & _ & Hh). destruct (cmd_loop _ _ _ _ _ _) as [units [c l]]. injection Hh as <- <-. apply Hsame. reflexivity.
  - unfold handle_selection_delta in Hh. apply obind_ok in Hh as ([st1 upd] & H1 & Hh). apply obind_ok in Hh as (st2 & H2 & Hh). injection Hh as <- <-.
    assert (E1 : st_users st1 = st_users st).
    { destruct (sd_group e =? active_group); [|injection H1 as <- <-; reflexivity]. apply obind_ok in H1 as ([sta un] & Ha & H1).
      destruct (mark_selected_units sta gl (sd_tags e)) as [stb mk] eqn:Em. injection H1 as <- <-.
      apply unmark_frame in Ha as (Ha & _). apply mark_frame in Em as (Em & _). congruence. }
    eapply groups_change; [apply Hsame, E1| |exact H2]. intros gs gs' Hf Hs. eapply forall_group_set; [exact Hf| |exact Hs].
    unfold stock_step, told. rewrite Z.eqb_refl. split; [apply incl_appr, incl_refl|rewrite app_length; lia].
  - rewrite update_control_group_eq in Hh. apply obind_ok in Hh as ([st1 upd] & H1 & Hh). apply obind_ok in Hh as (st2 & H2 & Hh).
    apply unmark_frame in H1 as (H1 & _).
    assert (W : groups_within (stock_step T (EGame gl uid n (GControlGroupUpdate e))) (st_users st2)).
    { eapply groups_change; [apply Hsame, H1| |exact H2]. intros gs gs' Hf Hs. eapply forall_update; eauto. }
    destruct (cg_update e); try (injection Hh as <- <-; exact W).
    apply obind_ok in Hh as (sel & _ & Hh). destruct (mark_selected_units st2 gl sel) as [st3 mk] eqn:Em. injection Hh as <- <-.
    apply mark_frame in Em as (-> & _). exact W.
  - unfold handle_camera_update in Hh. injection Hh as <- <-. destruct (cu_target e); [apply Hcam|apply Hsame; reflexivity].
  - unfold handle_update_target_point in Hh. apply obind_ok in Hh as (tags & _ & Hh). destruct (target_loop _ _ _) as [units l]. injection Hh as <- <-. apply Hsame. reflexivity.
  - unfold handle_update_target_unit in Hh. destruct (match mget _ _ with Some _ => _ | None => _ end); [|injection Hh as <- <-; apply Hsame; reflexivity].
    apply obind_ok in Hh as (tags & _ & Hh). destruct (target_loop _ _ _) as [units l]. injection Hh as <- <-. apply Hsame. reflexivity.
Qed.
Lemma step_within : forall mc T st e st' it, groups_within T (st_users st) -> handle_transition mc st e = Ok (st', it) ->
  groups_within (stock_step T e) (st_users st').
Proof.
  intros mc T st [gl e|gl uid n e] st' it Hw Hh.
  - apply transition_tracker in Hh as (e' & h & Hh & _). apply stock_more. eapply tracker_within; eauto.
  - apply transition_game in Hh as (e' & h & Hh & _). eapply game_within; eauto.
Qed.
Lemma initial_within : forall T players, groups_within T (initial_users players).
Proof.
  intros T players. unfold initial_users. assert (H0 : groups_within T []) by constructor.
  revert H0. generalize (@nil (Z * user_state)). induction players as [|p players IH]; intros l Hl; [exact Hl|].
  cbn [fold_left]. apply IH. unfold insert_player. destruct (ls_user_id (ld_slot p)); [|exact Hl]. apply groups_mset; [exact Hl|].
  cbn [us_groups]. repeat (constructor; [apply within_nil|]). constructor.
Qed.
Lemma history_within : forall mc st0 evs st its, history mc st0 evs st its -> groups_within (fun v => told_in v evs) (st_users st).
Proof.
  intros mc st0 evs st its ((init & d & b & Hs) & Hr). revert st its Hr. induction evs as [|e evs IH] using rev_ind; intros st its Hr.
  - cbn in Hr. injection Hr as <- <-. destruct Hs as (st1 & Hi & _ & _ & Hp). unfold initial_state in Hi.
    apply obind_ok in Hi as (players & _ & Hi). injection Hi as <-. cbn in Hp.
    eapply Permutation_Forall; [apply Permutation_sym, Hp|]. apply (initial_within (fun v => told_in v [])).
  - apply run_snoc in Hr as (st1 & its1 & it & H1 & H2 & _). apply IH in H1. apply (step_within mc _ _ _ _ _ H1) in H2.
    unfold groups_within in *. eapply Forall_impl; [|exact H2]. intros x Hx. unfold stock_step in Hx.
    replace (told_in (fst x) (evs ++ [e])) with (told_in (fst x) evs ++ told (fst x) e); [exact Hx|].
    unfold told_in. rewrite flat_map_app. cbn [flat_map]. rewrite app_nil_r. reflexivity.
Qed.
(** A group holds only what its user's selections brought, and no more. *)
Lemma group_bounded : forall mc st0 evs st its uid g, history mc st0 evs st its ->
  incl (group_of st uid g) (told_in uid evs) /\ (length (group_of st uid g) <= length (told_in uid evs))%nat.
Proof.
  intros mc st0 evs st its uid g Hh. apply history_within in Hh. unfold group_of, user_of. destruct (mget uid (st_users st)) as [us|] eqn:E; [|apply within_nil].
  pose proof (groups_get _ _ _ _ Hh E) as Hf. cbv beta in Hf. destruct (Nat.lt_ge_cases (Z.to_nat g) (length (us_groups us))) as [Hl|Hl].
  - rewrite Forall_forall in Hf. apply Hf, nth_In, Hl.
  - rewrite (nth_overflow _ _ Hl). apply within_nil.
Qed.

(** ** Units *)
Lemma units_bounded : forall mc st0 evs st its l, history mc st0 evs st its -> NoDup l -> (forall i, In i l -> unit_of st i <> None) ->
  (length l <= length (registrations evs))%nat.
Proof.
  intros mc st0 evs st its l Hh Hd Hl.
  assert (E : forall es, length (flat_map (fun e => match registers e with Some i => [i] | None => [] end) es) = length (registrations es)).
  { induction es as [|e es IH]; [reflexivity|]. cbn [flat_map registrations filter]. rewrite app_length, IH. unfold registrations. destruct (registers e); reflexivity. }
  rewrite <- E. apply NoDup_incl_length; [exact Hd|]. intros i Hi. apply Hl in Hi.
  apply (registered_alive mc st0 evs st its i Hh) in Hi as (bf & e & af & -> & Hr & _).
  apply in_flat_map. exists e. split; [apply in_or_app; right; left; reflexivity|]. rewrite Hr. left. reflexivity.
Qed.

(** ** Hints *)
(** The units a hint carries. *)
Definition listed (h : hint) : list sc2_unit :=
  match h with
  | HRegistered u c => u :: match c with Some x => [x] | None => [] end
  | HUnregistered k u => u :: match k with Some x => [x] | None => [] end
  | HPositions l | HTargetPoints l | HSelection l => l
  | HTargetUnits l t => t :: l
  | HAbilities l _ t => match t with Some x => x :: l | None => l end
  | HNone => []
  end.
(** How many a hint of [e] may carry: two, one for each position announced, or
    what the user's selections account for. *)
Definition allowed (evs : list sc2_event) (e : sc2_event) : nat :=
  match e with
  | ETracker _ (TUnitPosition x) => (length (up_items x) / 3)%nat
  | ETracker _ _ => 2%nat
  | EGame _ uid _ _ => (1 + 2 * length (told_in uid (evs ++ [e])))%nat
  end.
Lemma stored_length : forall units ids, (length (stored_units units ids) <= length ids)%nat.
Proof. intros units. induction ids as [|i ids IH]; cbn [stored_units length]; [lia|]. destruct (mget i units); cbn [length]; lia. Qed.
Lemma select_length : forall gl sel k tags units units' ids, select_loop gl sel k tags units = (units', ids) -> (length ids <= length tags)%nat.
Proof.
  intros gl sel k. induction tags as [|t tags IH]; intros units units' ids Hl; cbn [select_loop] in Hl; [injection Hl as <- <-; cbn; lia|].
  destruct (mget (unit_tag_index t) units) as [u|]; [|apply IH in Hl; cbn; lia].
  destruct (Bool.eqb (su_selected u) sel); [apply IH in Hl; cbn; lia|].
  destruct (select_loop gl sel k tags _) as [w ids'] eqn:E. injection Hl as <- <-. apply IH in E. cbn. lia.
Qed.
Lemma target_length : forall f tags units units' l, target_loop f tags units = (units', l) -> (length l <= length tags)%nat.
Proof.
  intros f. induction tags as [|t tags IH]; intros units units' l Hl; cbn [target_loop] in Hl; [injection Hl as <- <-; cbn; lia|].
  destruct (mget (unit_tag_index t) units) as [u|]; [|apply IH in Hl; cbn; lia].
  destruct (target_loop f tags _) as [w l'] eqn:E. injection Hl as <- <-. apply IH in E. cbn. lia.
Qed.
Lemma cmd_length : forall b gl o tags cmd units units' cmd' l, cmd_loop b gl o tags cmd units = (units', (cmd', l)) -> (length l <= length tags)%nat.
Proof.
  intros b gl o. induction tags as [|t tags IH]; intros cmd units units' cmd' l Hl; cbn [cmd_loop] in Hl; [injection Hl as <- <- <-; cbn; lia|].
  destruct (mget (unit_tag_index t) units) as [u|]; [|apply IH in Hl; cbn; lia].
  destruct (cm_abil cmd) as [a|]; [|apply IH in Hl; cbn; lia].
  destruct (cmd_loop b gl o tags _ _) as [w [c' l']] eqn:E. injection Hl as <- <- <-. apply IH in E. cbn. lia.
Qed.
Lemma position_length : forall gl l units units' ids, position_loop gl l units = (units', ids) -> (length ids <= length l)%nat.
Proof.
  intros gl. induction l as [|t tags IH]; intros units units' l Hl; cbn [position_loop] in Hl; [injection Hl as <- <-; cbn; lia|].
  destruct (mget (up_tag t) units) as [u|]; [|apply IH in Hl; cbn; lia].
  destruct (position_loop gl tags _) as [w l'] eqn:E. injection Hl as <- <-. apply IH in E. cbn. lia.
Qed.
Lemma dedup_length : forall A (key : A -> Z) l, (length (dedup_by key l) <= length l)%nat.
Proof.
  intros A key. induction l as [|x l IH]; [cbn; lia|]. cbn [dedup_by]. destruct (dedup_by key l) as [|y r]; [cbn; lia|].
  destruct (key x =? key y); cbn [length] in *; lia.
Qed.
Lemma unmark_length : forall st gl uid st' l, unmark_previously_selected_units st gl uid = Ok (st', l) -> (length l <= length (selection st uid))%nat.
Proof.
  intros st gl uid st' l Hu. apply unmark_ok in Hu as (units & ids & -> & -> & Hs). apply select_length in Hs.
  pose proof (stored_length units ids). lia.
Qed.
Lemma mark_length : forall st gl tags st' l, mark_selected_units st gl tags = (st', l) -> (length l <= length tags)%nat.
Proof.
  intros st gl tags st' l Hm. unfold mark_selected_units in Hm. destruct (select_loop _ _ _ _ _) as [units ids] eqn:E. injection Hm as <- <-.
  apply select_length in E. pose proof (stored_length units ids). lia.
Qed.
Lemma told_snoc : forall uid evs e, told_in uid (evs ++ [e]) = told_in uid evs ++ told uid e.
Proof. intros uid evs e. unfold told_in. rewrite flat_map_app. cbn [flat_map]. rewrite app_nil_r. reflexivity. Qed.

Lemma hint_bounded : forall mc st0 evs st its e st' it, sorts mc -> history mc st0 evs st its -> handle_transition mc st e = Ok (st', it) ->
  (length (listed (it_hint it)) <= allowed evs e)%nat.
Proof.
  intros mc st0 evs st its e st' it Hsort Hh Ht.
  destruct e as [gl e|gl uid n e].
  - apply transition_tracker in Ht as (e' & h & Ht & ->). cbn [it_hint]. destruct e; cbn [handle_tracker_event allowed] in *; try (injection Ht as <- <- <-; cbn; lia).
    + unfold handle_unit_born in Ht. match type of Ht with context [let '(_, _) := ?x in _] => destruct x as [units cr] end.
      destruct (mget (ub_index e) units); injection Ht as <- <- <-; cbn [listed]; destruct cr; cbn; lia.
    + unfold handle_unit_died in Ht. apply obind_ok in Ht as (users & _ & Ht). destruct (mget (ud_index e) (st_units st)); injection Ht as <- <- <-; cbn [listed]; [|cbn; lia].
      match goal with |- context [match ?x with Some _ => _ | None => _ end] => destruct x end; cbn; lia.
    + unfold handle_unit_type_change in Ht. destruct (mget _ _); injection Ht as <- <- <-; cbn; lia.
    + unfold handle_unit_done in Ht. destruct (mget _ _); injection Ht as <- <- <-; cbn; lia.
    + unfold handle_unit_position in Ht. apply obind_ok in Ht as (l & Hl & Ht). destruct (position_loop gl l (st_units st)) as [units ids] eqn:E. injection Ht as <- <- <-.
      cbn [listed]. apply position_length in E. pose proof (stored_length units ids). apply positions_value in Hl as (Hl & _). lia.
  - assert (S : (length (selection st uid) <= length (told_in uid evs))%nat) by (apply (group_bounded mc st0 evs st its uid 10 Hh)).
    assert (M : (length (told_in uid evs) <= length (told_in uid (evs ++ [EGame gl uid n e])))%nat) by (rewrite told_snoc, app_length; lia).
    assert (Hh' : history mc st0 (evs ++ [EGame gl uid n e]) st' (its ++ [it])).
    { destruct Hh as [Hs Hr]. split; [exact Hs|]. rewrite (run_app _ _ _ _ _ _ Hr). cbn [run]. rewrite Ht. reflexivity. }
    apply transition_game in Ht as (e' & h & Ht & ->). cbn [it_hint allowed].
    destruct e; cbn [handle_game_event] in Ht; try (injection Ht as <- <- <-; cbn; lia).
    + unfold handle_cmd in Ht. apply obind_ok in Ht as (tags & Ha & Ht). apply active_units_ok in Ha. subst tags.
      destruct (cmd_loop _ _ _ _ _ _) as [units [c l]] eqn:E. injection Ht as <- <- <-. apply cmd_length in E. cbn [listed].
      match goal with |- context [match ?x with Some _ => _ | None => l end] => destruct x end; cbn [length]; lia.
    + unfold handle_selection_delta in Ht. apply obind_ok in Ht as ([st1 upd] & H1 & Ht). apply obind_ok in Ht as (st2 & H2 & Ht). injection Ht as <- <- <-.
      cbn [listed]. pose proof (dedup_length _ su_index (mc_sort mc upd)) as D. destruct (Hsort upd) as [P _]. apply Permutation_length in P.
      assert (U : (length upd <= length (selection st uid) + length (sd_tags e))%nat).
      { destruct (sd_group e =? active_group); [|injection H1 as <- <-; cbn; lia]. apply obind_ok in H1 as ([sta un] & Ha & H1).
        destruct (mark_selected_units sta gl (sd_tags e)) as [stb mk] eqn:Em. injection H1 as <- <-.
        apply unmark_length in Ha. apply mark_length in Em. rewrite app_length. lia. }
      rewrite told_snoc, app_length. assert (E : told uid (EGame gl uid n (GSelectionDelta e)) = sd_tags e) by (unfold told; rewrite Z.eqb_refl; reflexivity). rewrite E. lia.
    + rewrite update_control_group_eq in Ht. apply obind_ok in Ht as ([st1 upd] & H1 & Ht). apply obind_ok in Ht as (st2 & H2 & Ht).
      apply unmark_length in H1. destruct (cg_update e); try (injection Ht as <- <- <-; cbn [listed]; lia).
      apply obind_ok in Ht as (sel & Ha & Ht). destruct (mark_selected_units st2 gl sel) as [st3 mk] eqn:Em. injection Ht as <- <- <-.
      cbn [listed]. rewrite app_length. apply active_units_ok in Ha. subst sel. pose proof (mark_length _ _ _ _ _ Em) as Lm.
      apply mark_frame in Em as (Em & _).
      assert (S2 : selection st2 uid = selection st3 uid) by (unfold selection, group_of, user_of; rewrite Em; reflexivity).
      assert (S3 : (length (selection st3 uid) <= length (told_in uid (evs ++ [EGame gl uid n (GControlGroupUpdate e)])))%nat) by (apply (group_bounded mc st0 _ st3 _ uid 10 Hh')).
      rewrite S2 in Lm. lia.
    + unfold handle_update_target_point in Ht. apply obind_ok in Ht as (tags & Ha & Ht). apply active_units_ok in Ha. subst tags. destruct (target_loop _ _ _) as [units l] eqn:E. injection Ht as <- <- <-.
      apply target_length in E. cbn [listed]. lia.
    + unfold handle_update_target_unit in Ht. destruct (match mget _ _ with Some _ => _ | None => _ end) as [tg|]; [|injection Ht as <- <- <-; cbn; lia].
      apply obind_ok in Ht as (tags & Ha & Ht). apply active_units_ok in Ha. subst tags. destruct (target_loop _ _ _) as [units l] eqn:E. injection Ht as <- <- <-.
      apply target_length in E. cbn [listed length]. lia.
Qed.
