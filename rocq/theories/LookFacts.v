(** * How units look and which are marked: proofs *)
From Verif Require Import Base F32 F32Facts Tags Events Maps Balance Lobby Convert State StateSpec StateFacts StateSteps StateProofs StateEvents StateMore LookSpec.
From Coq Require Import SpecFloat.
#[local] Open Scope string_scope.
#[local] Open Scope Z_scope.
#[local] Open Scope list_scope.

(** ** Colours and sizes *)
Lemma table_types : forall n c, sget n color_table = Some c -> type_colour n c.
Proof.
  intros n c E. unfold color_table in E. cbn [sget] in E.
  repeat match type of E with (if String.eqb ?k n then _ else _) = _ => destruct (String.eqb_spec k n) as [<-|_]; [injection E as <-; unfold type_colour, coloured_types; eexists; split; [cbn; repeat (first [left; reflexivity|right])|cbn; tauto]|] end.
  discriminate.
Qed.
Lemma types_table : forall n c, type_colour n c -> sget n color_table = Some c.
Proof.
  intros n c (names & Hi & Hn). unfold coloured_types in Hi. cbn [In] in Hi.
  repeat (destruct Hi as [Q|Hi]; [injection Q as <- <-; cbn [In] in Hn; repeat (destruct Hn as [<-|Hn]; [vm_compute; reflexivity|]); destruct Hn|]). destruct Hi.
Qed.
Lemma unit_color_spec : forall n p, colour_of n p (unit_color n (match p with Some x => x | None => 0 end)).
Proof.
  intros n p. unfold colour_of, unit_color. destruct (sget n color_table) as [c|] eqn:E; [left; now apply table_types|]. right. split; [intros c' H1; apply types_table in H1; congruence|].
  unfold player_colour, user_color. destruct p as [[|[[q|q|]|[q|q|]|]|q]|]; try reflexivity.
Qed.
Lemma unit_radius_spec : forall b n, type_radius b n (unit_radius b n).
Proof.
  intros b n. unfold type_radius, unit_radius. destruct (sget n b) as [u|]; [|right; split; [discriminate|reflexivity]]. destruct (bu_radius u) as [r|] eqn:E; [left; eauto|].
  right. split; [|reflexivity]. intros u' r' Q. injection Q as <-. congruence.
Qed.
Lemma radius_plain : forall b n r, plain_radii b -> type_radius b n r -> f32_valid r = true /\ f32_doublable r = true.
Proof. intros b n r Hb [(u & E1 & E2)|[_ ->]]; [eapply Hb; eauto|]. split; reflexivity. Qed.
Lemma props_looks : forall b u, su_selected u = false -> looks b (set_unit_props b u).
Proof.
  intros b u Hs. unfold looks, set_unit_props, get_unit_sized_color, set_size. cbn. split; [apply unit_color_spec|]. exists (unit_radius b (su_name u)). split; [apply unit_radius_spec|]. rewrite Hs. reflexivity.
Qed.
Lemma select_looks : forall b gl (sel : bool) k u, plain_radii b -> (if sel then k = f32_two else k = f32_half) -> looks b u -> looks b (select_one gl sel k u).
Proof.
  intros b gl sel k u Hb Hk (Hc & r & Hr & Er). unfold select_one. destruct (su_selected u) eqn:Es, sel; cbn [Bool.eqb]; (split; [exact Hc|exists r; split; [exact Hr|]]); cbn; rewrite ?Es; try exact Er; subst k.
  - rewrite Er. destruct (radius_plain _ _ _ Hb Hr) as [V D]. apply (f32_double_half r V D).
  - rewrite Er. reflexivity.
Qed.

(** ** What is kept by game events *)
Section Kept.
  Variable P : sc2_unit -> Prop.
  Hypothesis P_loop : forall gl u, P u -> P (set_loop gl u).
  Hypothesis P_cmd : forall c u, P u -> P (set_cmd c u).
  Hypothesis P_mark : forall gl u, P u -> P (select_one gl true f32_two u).
  Hypothesis P_unmark : forall gl u, P u -> P (select_one gl false f32_half u).
  Definition all_units (st : state) : Prop := forall i u, unit_of st i = Some u -> P u.
  Lemma acts_all : forall h st st', acts h (st_units st) (st_units st') -> (forall i u, P u -> P (h i u)) -> all_units st -> all_units st'.
  Proof. intros h st st' A Hh Ha i u Hu. unfold unit_of in Hu. rewrite A in Hu. destruct (mget i (st_units st)) as [v|] eqn:E; [|discriminate]. injection Hu as <-. apply Hh, (Ha i), E. Qed.
  Lemma named_all : forall f tags i u, (forall u, P u -> P (f u)) -> P u -> P (on_named tags f i u).
  Proof. intros f tags i u Hf Hp. unfold on_named. destruct (named tags i); auto. Qed.
  Lemma same_units_all : forall st st', st_units st' = st_units st -> all_units st -> all_units st'.
  Proof. intros st st' E Ha i u. unfold unit_of. rewrite E. apply Ha. Qed.
  Lemma unmark_all : forall st gl uid st' l, unmark_previously_selected_units st gl uid = Ok (st', l) -> all_units st -> all_units st'.
  Proof. intros st gl uid st' l E. apply unmark_ok in E as (units & ids & -> & _ & Hs). apply select_loop_acts in Hs as (A & _). apply (acts_all _ st (with_units st units) A). intros i u. apply named_all. auto. Qed.
  Lemma mark_all : forall st gl tags st' l, mark_selected_units st gl tags = (st', l) -> all_units st -> all_units st'.
  Proof.
    intros st gl tags st' l E. unfold mark_selected_units in E. destruct (select_loop _ _ _ _ _) as [units ids] eqn:Hs. injection E as <- <-.
    apply select_loop_acts in Hs as (A & _). apply (acts_all _ st (with_units st units) A). intros i u. apply named_all. auto.
  Qed.
  Lemma game_all : forall mc st gl uid n e st' it, handle_transition mc st (EGame gl uid n e) = Ok (st', it) -> all_units st -> all_units st'.
  Proof.
    intros mc st gl uid n e st' it Hh Ha. apply transition_game in Hh as (e' & h & Hh & _).
    assert (Hcam : forall p, all_units (move_camera st uid p)) by (intros p; unfold move_camera; destruct (mget uid (st_users st)); exact Ha).
    destruct e; cbn [handle_game_event] in Hh; try (injection Hh as <- <- <-; exact Ha).
    - unfold handle_camera_save in Hh. injection Hh as <- <- <-. apply Hcam.
    - unfold handle_cmd in Hh. apply obind_ok in Hh as (tags & _ & Hh). destruct (cmd_loop _ _ _ _ _ _) as [units [cmd' l]] eqn:El. injection Hh as <- <- <-.
      destruct (cm_abil e) as [a|] eqn:Ea.
      + apply cmd_loop_acts in El as (A & _); [|congruence]. apply (acts_all _ st (with_units st units) A); [|exact Ha]. intros i u. apply named_all. intros v Hv. unfold commanded. apply P_loop, P_cmd, Hv.
      + rewrite cmd_loop_none in El by exact Ea. injection El as <- <- <-. exact Ha.
    - unfold handle_selection_delta in Hh. apply obind_ok in Hh as ([st1 upd] & H1 & Hh). apply obind_ok in Hh as (st2 & H2 & Hh). injection Hh as <- <- <-.
      apply change_groups_ok in H2 as (E2 & _). apply (same_units_all st1); [exact E2|].
      destruct (sd_group e =? active_group); [|injection H1 as <- <-; exact Ha].
      apply obind_ok in H1 as ([sta la] & Hx & H1). destruct (mark_selected_units sta gl (sd_tags e)) as [stb lb] eqn:Em. injection H1 as <- <-.
      eapply mark_all; [exact Em|]. eapply unmark_all; [exact Hx|exact Ha].
    - rewrite update_control_group_eq in Hh. apply obind_ok in Hh as ([st1 upd] & H1 & Hh). apply obind_ok in Hh as (st2 & H2 & Hh).
      apply change_groups_ok in H2 as (E2 & _). assert (Ha2 : all_units st2) by (apply (same_units_all st1); [exact E2|]; eapply unmark_all; eauto).
      destruct (cg_update e); try (injection Hh as <- <- <-; exact Ha2).
      apply obind_ok in Hh as (sel & _ & Hh). destruct (mark_selected_units st2 gl sel) as [st3 l3] eqn:Em. injection Hh as <- <- <-. eapply mark_all; eauto.
    - unfold handle_camera_update in Hh. injection Hh as <- <- <-. destruct (cu_target e); [apply Hcam|exact Ha].
    - unfold handle_update_target_point in Hh. apply obind_ok in Hh as (tags & _ & Hh). destruct (target_loop _ _ _) as [units l] eqn:El. injection Hh as <- <- <-.
      apply target_loop_acts in El as (A & _); [|reflexivity]. apply (acts_all _ st (with_units st units) A); [|exact Ha]. intros i u. apply named_all. intros v Hv. apply P_loop, P_cmd, Hv.
    - unfold handle_update_target_unit in Hh.
      destruct (match mget (tu_tag target) (st_units st) with Some x => Some x | None => mget (unit_tag_index (tu_tag target)) (st_units st) end) as [tg|]; [|injection Hh as <- <- <-; exact Ha].
      apply obind_ok in Hh as (tags & _ & Hh). destruct (target_loop _ _ _) as [units l] eqn:El. injection Hh as <- <- <-.
      apply target_loop_acts in El as (A & _); [|reflexivity]. apply (acts_all _ st (with_units st units) A); [|exact Ha]. intros i u. apply named_all. intros v Hv. apply P_loop, P_cmd, Hv.
  Qed.
End Kept.

(** The balance data of a state never changes. *)
Lemma step_balance : forall mc st e st' it, handle_transition mc st e = Ok (st', it) -> st_balance st' = st_balance st.
Proof.
  intros mc st [gl e|gl uid n e] st' it Hh; [|apply transition_game in Hh as (e' & h & Hh & _); apply game_frame in Hh as (E & _); exact E].
  apply transition_tracker in Hh as (e' & h & Hh & _). destruct e; cbn [handle_tracker_event] in Hh; try (injection Hh as <- <- <-; reflexivity).
  - apply fst_of in Hh. subst st'. unfold handle_unit_born. destruct (ub_creator_index e) as [c|]; [destruct (mget c (st_units st))|]; destruct (mget _ _); reflexivity.
  - unfold handle_unit_died in Hh. apply obind_ok in Hh as (users & _ & Hh). destruct (mget _ _); injection Hh as <- <- <-; reflexivity.
  - apply fst_of in Hh. subst st'. unfold handle_unit_type_change. destruct (mget _ _); reflexivity.
  - apply fst_of in Hh. subst st'. unfold handle_unit_done. destruct (mget _ _); reflexivity.
  - unfold handle_unit_position in Hh. apply obind_ok in Hh as (l & _ & Hh). destruct (position_loop _ _ _). injection Hh as <- <- <-. reflexivity.
  - apply fst_of in Hh. cbn in Hh. subst st'. unfold handle_player_setup. destruct (se_user_id e) as [u|]; [destruct (mget u (st_users st))|]; reflexivity.
Qed.
Lemma step_looks : forall mc st e st' it, plain_radii (st_balance st) -> handle_transition mc st e = Ok (st', it) -> undisturbed st e ->
  all_units (looks (st_balance st)) st -> all_units (looks (st_balance st)) st'.
Proof.
  intros mc st [gl e|gl uid n e] st' it Hb Hh Hc Ha.
  - apply transition_tracker in Hh as (e' & h & Hh & _). destruct e; cbn [handle_tracker_event undisturbed] in *; try (injection Hh as <- <- <-; exact Ha).
    + apply fst_of in Hh. subst st'. intros i u. rewrite born_unit. unfold creator_touched. destruct (ub_index e =? i).
      * intros Q. injection Q as <-. destruct (unit_of st i) as [v|] eqn:Ev; destruct (match ub_creator_index e with Some c => c =? i | None => false end); cbn [option_map]; try (apply props_looks; reflexivity); exact (Ha _ _ Ev).
      * destruct (unit_of st i) as [v|] eqn:Ev; destruct (match ub_creator_index e with Some c => c =? i | None => false end); cbn [option_map]; intros Q; try discriminate; injection Q as <-; exact (Ha _ _ Ev).
    + intros i u. rewrite (died_unit st gl e st' _ i Hh). destruct (ud_index e =? i); [discriminate|apply Ha].
    + apply fst_of in Hh. subst st'. intros i u. rewrite type_unit. destruct (Z.eqb_spec (ut_index e) i) as [<-|]; [|apply Ha]. intros Q. injection Q as <-. apply props_looks.
      destruct (unit_of st (ut_index e)) as [v|] eqn:Ev; [exact (Hc v eq_refl)|reflexivity].
    + apply fst_of in Hh. subst st'. intros i u. rewrite init_unit. destruct (Z.eqb_spec (ui_index e) i) as [<-|]; [|apply Ha]. rewrite Hc. intros Q. injection Q as <-. apply props_looks. reflexivity.
    + apply fst_of in Hh. subst st'. intros i u. rewrite done_unit. destruct (Z.eqb_spec (un_index e) i) as [<-|]; [|apply Ha].
      destruct (unit_of st (un_index e)) as [v|] eqn:Ev; cbn [option_map]; [|discriminate]. intros Q. injection Q as <-. apply props_looks. exact (Hc v eq_refl).
    + assert (Ht : handle_transition mc st (ETracker gl (TUnitPosition e)) = Ok (st', mk_item (ETracker gl e') h)) by (cbn [handle_transition handle_tracker_event]; rewrite Hh; reflexivity).
      apply position_effect in Ht as (l & _ & _ & _ & _ & Hi). intros i u. rewrite Hi. destruct (unit_of st i) as [v|] eqn:Ev; cbn [option_map]; [|discriminate]. intros Q. injection Q as <-.
      destruct (last_position l i); exact (Ha _ _ Ev).
    + apply fst_of in Hh. cbn in Hh. subst st'. intros i u. replace (unit_of (handle_player_setup st e) i) with (unit_of st i); [apply Ha|].
      unfold handle_player_setup. destruct (se_user_id e) as [x|]; [destruct (mget x (st_users st))|]; reflexivity.
  - eapply game_all; [| | | |exact Hh|exact Ha]; try (intros; assumption); intros; apply select_looks; auto.
Qed.
Lemma run_throughout : forall mc (I : state -> Prop) P st0 evs, I st0 -> throughout mc st0 evs P ->
  (forall st e st' it, I st -> P st e -> handle_transition mc st e = Ok (st', it) -> I st') -> forall st its, run mc st0 evs = Ok (st, its) -> I st.
Proof.
  intros mc I P st0 evs H0 Ht Hs. induction evs as [|e evs IH] using rev_ind; intros st its Hr; [cbn in Hr; injection Hr as <- <-; exact H0|].
  apply run_snoc in Hr as (st1 & its1 & it & H1 & H2 & _). eapply Hs; [eapply IH; [|exact H1]| |exact H2].
  - intros before e' after st' its' E. apply (Ht before e' (after ++ [e])). rewrite E, <- app_assoc. reflexivity.
  - eapply (Ht evs e []); [reflexivity|exact H1].
Qed.
Lemma units_look : forall mc st0 evs st its i u, history mc st0 evs st its -> plain_radii (st_balance st0) -> throughout mc st0 evs undisturbed ->
  unit_of st i = Some u -> looks (st_balance st0) u.
Proof.
  intros mc st0 evs st its i u [(init & d & b & Hs) Hr] Hb Ht. apply starts_wf in Hs as (_ & Hu & _).
  assert (X : st_balance st = st_balance st0 /\ all_units (looks (st_balance st0)) st); [|apply X].
  eapply (run_throughout mc (fun st => st_balance st = st_balance st0 /\ all_units (looks (st_balance st0)) st) undisturbed st0 evs); [|exact Ht| |exact Hr].
  - split; [reflexivity|]. intros j v. unfold unit_of. rewrite Hu. discriminate.
  - intros st1 e st2 it [E Ha] Hc Hh. split; [rewrite (step_balance _ _ _ _ _ Hh); exact E|]. rewrite <- E in *. eapply step_looks; eauto.
Qed.

(** ** Marks *)
Definition marked (st : state) (i : Z) : option bool := option_map su_selected (unit_of st i).
Lemma marked_same : forall st st' i, st_units st' = st_units st -> marked st' i = marked st i.
Proof. intros st st' i E. unfold marked, unit_of. rewrite E. reflexivity. Qed.
Lemma acts_marked : forall h st st' i, acts h (st_units st) (st_units st') -> marked st' i = option_map (fun u => su_selected (h i u)) (unit_of st i).
Proof. intros h st st' i A. unfold marked, unit_of. rewrite A. destruct (mget i (st_units st)); reflexivity. Qed.
Lemma keeps_marks : forall h st st' i, acts h (st_units st) (st_units st') -> (forall i u, su_selected (h i u) = su_selected u) -> marked st' i = marked st i.
Proof. intros h st st' i A Hh. rewrite (acts_marked h _ _ _ A). unfold marked. destruct (unit_of st i); cbn; [f_equal; apply Hh|reflexivity]. Qed.
Lemma on_named_selected : forall tags gl sel k i u, su_selected (on_named tags (select_one gl sel k) i u) = if named tags i then sel else su_selected u.
Proof. intros tags gl sel k i u. unfold on_named. destruct (named tags i); [|reflexivity]. unfold select_one. destruct (su_selected u) eqn:E, sel; cbn; auto. Qed.
Lemma loop_marked : forall gl sel k tags st units ids i, select_loop gl sel k tags (st_units st) = (units, ids) ->
  marked (with_units st units) i = option_map (fun b : bool => if named tags i then sel else b) (marked st i).
Proof.
  intros gl sel k tags st units ids i E. apply select_loop_acts in E as (A & _). rewrite (acts_marked _ st (with_units st units) i A). unfold marked. destruct (unit_of st i); [|reflexivity]. cbn. f_equal. apply on_named_selected.
Qed.
Lemma unmark_marked : forall st gl uid st' l i, unmark_previously_selected_units st gl uid = Ok (st', l) ->
  st_users st' = st_users st /\ marked st' i = option_map (fun b : bool => if named (selection st uid) i then false else b) (marked st i).
Proof. intros st gl uid st' l i E. apply unmark_ok in E as (units & ids & -> & _ & E). split; [reflexivity|]. exact (loop_marked _ _ _ _ _ _ _ i E). Qed.
Lemma mark_marked : forall st gl tags st' l i, mark_selected_units st gl tags = (st', l) ->
  st_users st' = st_users st /\ marked st' i = option_map (fun b : bool => if named tags i then true else b) (marked st i).
Proof.
  intros st gl tags st' l i E. unfold mark_selected_units in E. destruct (select_loop _ _ _ _ _) as [units ids] eqn:El. injection E as <- <-. split; [reflexivity|].
  exact (loop_marked _ _ _ _ _ _ _ i El).
Qed.
(** What a game event does to the marks. *)
Definition marks_after (st st' : state) (uid : Z) (e : game_event) (i : Z) (b : bool) : bool :=
  match e with
  | GSelectionDelta x => if sd_group x =? 10 then (if named (sd_tags x) i then true else if named (selection st uid) i then false else b) else b
  | GControlGroupUpdate x =>
      match cg_update x with
      | GRecall => if named (selection st' uid) i then true else if named (selection st uid) i then false else b
      | _ => if named (selection st uid) i then false else b
      end
  | _ => b
  end.
Lemma keep : forall A (f : A -> A) x o, (forall a, f a = a) -> x = o -> x = option_map f o.
Proof. intros A f x o Hf ->. destruct o as [a|]; cbn; [rewrite Hf|]; reflexivity. Qed.
Lemma game_marks : forall mc st gl uid n e st' it i, handle_transition mc st (EGame gl uid n e) = Ok (st', it) ->
  marked st' i = option_map (marks_after st st' uid e i) (marked st i).
Proof.
  intros mc st gl uid n e st' it i Hh. apply transition_game in Hh as (e' & h & Hh & _).
  assert (Hcam : forall p, marked (move_camera st uid p) i = marked st i) by (intros p; unfold move_camera; destruct (mget uid (st_users st)); reflexivity).
  destruct e; cbn [handle_game_event] in Hh; try (apply keep; [reflexivity|]); try (injection Hh as <- <- <-; reflexivity).
  - unfold handle_camera_save in Hh. injection Hh as <- <- <-. apply Hcam.
  - unfold handle_cmd in Hh. apply obind_ok in Hh as (tags & _ & Hh). destruct (cmd_loop _ _ _ _ _ _) as [units [cmd' l]] eqn:El. injection Hh as <- <- <-.
    destruct (cm_abil e) as [a|] eqn:Ea.
    + apply cmd_loop_acts in El as (A & _); [|congruence]. eapply (keeps_marks _ st (with_units st units) i A). intros j u. unfold on_named. destruct (named _ _); reflexivity.
    + rewrite cmd_loop_none in El by exact Ea. injection El as <- <- <-. reflexivity.
  - unfold handle_selection_delta in Hh. apply obind_ok in Hh as ([st1 upd] & H1 & Hh). apply obind_ok in Hh as (st2 & H2 & Hh). injection Hh as <- <- <-.
    apply change_groups_ok in H2 as (E2 & _). rewrite (marked_same st1 st2 i E2). unfold active_group in H1.
    unfold marks_after. destruct (sd_group e =? 10); [|injection H1 as <- <-; apply keep; reflexivity].
    apply obind_ok in H1 as ([sta la] & Hx & H1). destruct (mark_selected_units sta gl (sd_tags e)) as [stb lb] eqn:Em. injection H1 as <- <-.
    apply (unmark_marked _ _ _ _ _ i) in Hx as (_ & Ea). apply (mark_marked _ _ _ _ _ i) in Em as (_ & Eb). rewrite Eb, Ea. destruct (marked st i); [|reflexivity]. cbn; f_equal; destruct (named (sd_tags e) i); reflexivity.
  - rewrite update_control_group_eq in Hh. apply obind_ok in Hh as ([st1 upd] & H1 & Hh). apply obind_ok in Hh as (st2 & H2 & Hh).
    apply change_groups_ok in H2 as (E2 & _). apply (unmark_marked _ _ _ _ _ i) in H1 as (_ & Ea). rewrite <- (marked_same st1 st2 i E2) in Ea.
    unfold marks_after. destruct (cg_update e); try (injection Hh as <- <- <-; exact Ea).
    apply obind_ok in Hh as (sel & Hs & Hh). destruct (mark_selected_units st2 gl sel) as [st3 l3] eqn:Em. injection Hh as <- <- <-.
    apply (mark_marked _ _ _ _ _ i) in Em as (Eu & Eb). apply active_units_ok in Hs. replace (selection st3 uid) with sel by (rewrite Hs; unfold selection, group_of, user_of; rewrite Eu; reflexivity).
    rewrite Eb, Ea. destruct (marked st i); [|reflexivity]. cbn; f_equal; destruct (named sel i); reflexivity.
  - unfold handle_camera_update in Hh. injection Hh as <- <- <-. destruct (cu_target e); [apply Hcam|reflexivity].
  - unfold handle_update_target_point in Hh. apply obind_ok in Hh as (tags & _ & Hh). destruct (target_loop _ _ _) as [units l] eqn:El. injection Hh as <- <- <-.
    apply target_loop_acts in El as (A & _); [|reflexivity]. apply (keeps_marks _ st (with_units st units) i A). intros j u. unfold on_named. destruct (named _ _); reflexivity.
  - unfold handle_update_target_unit in Hh.
    destruct (match mget (tu_tag target) (st_units st) with Some x => Some x | None => mget (unit_tag_index (tu_tag target)) (st_units st) end) as [tg|]; [|injection Hh as <- <- <-; reflexivity].
    apply obind_ok in Hh as (tags & _ & Hh). destruct (target_loop _ _ _) as [units l] eqn:El. injection Hh as <- <- <-.
    apply target_loop_acts in El as (A & _); [|reflexivity]. apply (keeps_marks _ st (with_units st units) i A). intros j u. unfold on_named. destruct (named _ _); reflexivity.
Qed.
(** What a tracker event does to the marks. *)
Lemma tracker_marks : forall mc st gl e st' it i, handle_transition mc st (ETracker gl e) = Ok (st', it) ->
  marked st' i = if match removes (ETracker gl e) with Some j => j =? i | None => false end then None else
    match marked st i with
    | Some b => Some b
    | None => if match registers (ETracker gl e) with Some j => j =? i | None => false end then Some false else None
    end.
Proof.
  intros mc st gl e st' it i Hh. assert (Hid : forall o : option bool, o = match o with Some b => Some b | None => None end) by (intros []; reflexivity).
  apply transition_tracker in Hh as (e' & h & Hh & _). unfold marked. destruct e; cbn [handle_tracker_event removes registers] in *; try (injection Hh as <- <- <-; apply Hid).
  - apply fst_of in Hh. subst st'. rewrite born_unit. unfold creator_touched. destruct (ub_index e =? i).
    + destruct (unit_of st i) as [v|] eqn:Ev; destruct (match ub_creator_index e with Some c => c =? i | None => false end); reflexivity.
    + destruct (unit_of st i) as [v|] eqn:Ev; destruct (match ub_creator_index e with Some c => c =? i | None => false end); reflexivity.
  - rewrite (died_unit st gl e st' _ i Hh). destruct (ud_index e =? i); [reflexivity|apply Hid].
  - apply fst_of in Hh. subst st'. rewrite type_unit. destruct (ut_index e =? i); [|apply Hid]. destruct (unit_of st i); reflexivity.
  - apply fst_of in Hh. subst st'. rewrite init_unit. destruct (ui_index e =? i); [|apply Hid]. destruct (unit_of st i); reflexivity.
  - apply fst_of in Hh. subst st'. rewrite done_unit. destruct (un_index e =? i); [|apply Hid]. destruct (unit_of st i); reflexivity.
  - assert (Ht : handle_transition mc st (ETracker gl (TUnitPosition e)) = Ok (st', mk_item (ETracker gl e') h)) by (cbn [handle_transition handle_tracker_event]; rewrite Hh; reflexivity).
    apply position_effect in Ht as (l & _ & _ & _ & _ & Hi). rewrite Hi. destruct (unit_of st i) as [v|]; [|reflexivity]. cbn [option_map]. destruct (last_position l i); reflexivity.
  - apply fst_of in Hh. cbn in Hh. subst st'. replace (unit_of (handle_player_setup st e) i) with (unit_of st i); [apply Hid|].
    unfold handle_player_setup. destruct (se_user_id e) as [x|]; [destruct (mget x (st_users st))|]; reflexivity.
Qed.
(** What events do to the selections. *)
Lemma tracker_selection : forall mc st gl e st' it v, wf st -> handle_transition mc st (ETracker gl e) = Ok (st', it) ->
  selection st' v = match e with TUnitDied x => filter (fun t => negb (t =? ud_index x)) (selection st v) | _ => selection st v end.
Proof.
  intros mc st gl e st' it v Hw Hh. destruct e; try (eapply died_groups; eauto; lia); apply transition_tracker in Hh as (e' & h & Hh & _);
    pose proof (tracker_users _ _ _ _ _ _ Hw Hh) as Hu; cbn in Hu; try (unfold selection, group_of, user_of; rewrite Hu; reflexivity).
  subst st'. unfold selection, group_of. rewrite setup_user. destruct (se_user_id e) as [u|]; [destruct (u =? v)|]; destruct (user_of st v); reflexivity.
Qed.
Lemma game_selection : forall mc st gl uid n e st' it v, wf st -> numbered (EGame gl uid n e) -> handle_transition mc st (EGame gl uid n e) = Ok (st', it) ->
  match e with
  | GSelectionDelta x => if (v =? uid) && (sd_group x =? 10) then (user_of st uid = None /\ selection st' v = []) \/ (user_of st uid <> None /\ selection st' v = sd_tags x) else selection st' v = selection st v
  | GControlGroupUpdate x => if v =? uid then cg_update x = GRecall -> selection st' v = group_of st uid (cg_index x) else selection st' v = selection st v
  | _ => selection st' v = selection st v
  end.
Proof.
  intros mc st gl uid n e st' it v Hw Hn Hh.
  assert (Ho : v <> uid -> selection st' v = selection st v) by (intros Hv; unfold selection, group_of; rewrite (game_isolation _ _ _ _ _ _ _ _ v Hh Hv); reflexivity).
  destruct (Z.eqb_spec v uid) as [->|Hv]; [|destruct e; cbn [andb]; auto].
  assert (Hnone : user_of st uid = None -> selection st' uid = [] /\ selection st uid = []).
  { intros Hu. unfold selection. rewrite (group_of_none st uid 10 Hu). split; [|reflexivity]. apply group_of_none.
    destruct (user_of st' uid) as [us|] eqn:E; [|reflexivity]. destruct (game_own_lobby _ _ _ _ _ _ _ _ _ Hh E) as (x & Q & _). congruence. }
  assert (Hcam : forall p, selection (move_camera st uid p) uid = selection st uid).
  { intros p. unfold move_camera, selection, group_of, user_of. destruct (mget uid (st_users st)) as [us|] eqn:E; [|rewrite E; reflexivity]. cbn [with_users st_users]. rewrite mget_mset, Z.eqb_refl. reflexivity. }
  destruct e; cbn [numbered] in Hn.
  4:{ cbn [andb]. destruct (Z.eqb_spec (sd_group e) 10) as [E|E].
      - destruct (user_of st uid) eqn:Hu; [right|left; split; [reflexivity|apply Hnone; reflexivity]]. split; [discriminate|].
        destruct (delta_users _ _ _ _ _ _ _ _ Hn Hh) as (A & _); [congruence|]. rewrite E in A. exact A.
      - destruct (user_of st uid) eqn:Hu; [|destruct (Hnone eq_refl); congruence].
        destruct (delta_users _ _ _ _ _ _ _ _ Hn Hh) as (_ & A); [congruence|]. apply A; [lia|congruence]. }
  4:{ intros Er. pose proof (control_effect mc st gl uid n e Hw Hn) as Hc. destruct (user_of st uid) as [us|] eqn:Hu.
      - destruct (cg_index e <=? 10); [|congruence]. destruct Hc as (st1 & it1 & H1 & _ & _ & H2). assert (st1 = st') by congruence. subst st1.
        specialize (H2 us 10 eq_refl ltac:(lia)). unfold selection. rewrite H2. unfold group_of. rewrite Hu, Er. cbn [group_after]. reflexivity.
      - unfold group_of. rewrite Hu. apply Hnone. reflexivity. }
  all: apply transition_game in Hh as (e' & h & Hh & _); cbn [handle_game_event] in Hh; try (injection Hh as <- <- <-; reflexivity).
  - unfold handle_camera_save in Hh. injection Hh as <- <- <-. apply Hcam.
  - unfold handle_cmd in Hh. apply obind_ok in Hh as (tags & _ & Hh). destruct (cmd_loop _ _ _ _ _ _) as [units [cmd' l]]. injection Hh as <- <- <-. reflexivity.
  - unfold handle_camera_update in Hh. injection Hh as <- <- <-. destruct (cu_target e); [apply Hcam|reflexivity].
  - unfold handle_update_target_point in Hh. apply obind_ok in Hh as (tags & _ & Hh). destruct (target_loop _ _ _) as [units l]. injection Hh as <- <- <-. reflexivity.
  - unfold handle_update_target_unit in Hh.
    destruct (match mget (tu_tag target) (st_units st) with Some x => Some x | None => mget (unit_tag_index (tu_tag target)) (st_units st) end) as [tg|]; [|injection Hh as <- <- <-; reflexivity].
    apply obind_ok in Hh as (tags & _ & Hh). destruct (target_loop _ _ _) as [units l]. injection Hh as <- <- <-. reflexivity.
Qed.

(** ** Marked units are selected *)
Definition marks_sound (st : state) : Prop := forall i, marked st i = Some true -> exists v, selected_by st i v.
Lemma sound_step : forall mc st e st' it, wf st -> numbered e -> recorded st e -> handle_transition mc st e = Ok (st', it) -> marks_sound st -> marks_sound st'.
Proof.
  intros mc st [gl e|gl uid n e] st' it Hw Hn Hc Hh Hs i Hi.
  - rewrite (tracker_marks _ _ _ _ _ _ i Hh) in Hi. destruct (match removes _ with Some j => j =? i | None => false end); [discriminate|].
    assert (E : marked st i = Some true) by (destruct (marked st i) as [b|]; [exact Hi|destruct (match registers _ with Some j => j =? i | None => false end); discriminate]).
    destruct (Hs i E) as (v & Hv). exists v. unfold selected_by. rewrite (tracker_selection _ _ _ _ _ _ v Hw Hh). destruct e; try exact Hv. cbn [recorded] in Hc.
    unfold selected_by, indices in *. apply in_map_iff in Hv as (t & <- & Ht). apply in_map, filter_In. split; [exact Ht|].
    destruct (Z.eqb_spec t (ud_index e)) as [->|]; [|reflexivity]. destruct (Hc v Ht).
  - rewrite (game_marks _ _ _ _ _ _ _ _ i Hh) in Hi. destruct (marked st i) as [b|] eqn:Eb; [|discriminate]. cbn [option_map] in Hi. assert (Hm : marks_after st st' uid e i b = true) by congruence. clear Hi.
    pose proof (fun v => game_selection _ _ _ _ _ _ _ _ v Hw Hn Hh) as Hsel.
    assert (Hold : b = true -> named (selection st uid) i = false -> exists v, selected_by st' i v).
    { intros -> Hf. destruct (Hs i Eb) as (v & Hv). exists v. specialize (Hsel v). apply named_false in Hf. unfold selected_by in *.
      destruct (Z.eqb_spec v uid) as [Q|Hne]; [rewrite Q in Hv; contradiction|]. destruct e; cbn [andb] in Hsel; rewrite Hsel; exact Hv. }
    assert (Hsame : b = true -> (forall v, selection st' v = selection st v) -> exists v, selected_by st' i v).
    { intros -> Hf. destruct (Hs i Eb) as (v & Hv). exists v. unfold selected_by. rewrite Hf. exact Hv. }
    destruct e; cbn [marks_after recorded] in *; try (apply Hsame; assumption).
    + destruct (Z.eqb_spec (sd_group e) 10) as [E|E].
      * destruct (named (sd_tags e) i) eqn:N; [|destruct (named (selection st uid) i) eqn:N2; [discriminate|auto]].
        exists uid. specialize (Hsel uid). rewrite Z.eqb_refl in Hsel. cbn [andb] in Hsel. destruct Hsel as [[Hx _]|[_ Hx]]; [destruct (Hc E Hx)|]. unfold selected_by. rewrite Hx. apply named_spec, N.
      * apply Hsame; [exact Hm|]. intros v. specialize (Hsel v). rewrite Bool.andb_false_r in Hsel. exact Hsel.
    + destruct (cg_update e); try (destruct (named (selection st uid) i) eqn:N2; [discriminate|auto]; fail).
      destruct (named (selection st' uid) i) eqn:N; [exists uid; apply named_spec, N|]. destruct (named (selection st uid) i) eqn:N2; [discriminate|auto].
Qed.
(** ** Selected units are marked *)
Definition marks_complete (st : state) : Prop :=
  (forall i v, selected_by st i v -> marked st i <> Some false) /\ (forall i v w, selected_by st i v -> selected_by st i w -> v = w).
Lemma complete_step : forall mc st e st' it, wf st -> numbered e -> orderly st e -> handle_transition mc st e = Ok (st', it) -> marks_complete st -> marks_complete st'.
Proof.
  intros mc st [gl e|gl uid n e] st' it Hw Hn Hc Hh [Hs Ha].
  - assert (Hsub : forall i v, selected_by st' i v -> selected_by st i v).
    { intros i v. unfold selected_by. rewrite (tracker_selection _ _ _ _ _ _ v Hw Hh). destruct e; try exact (fun x => x). intros Hi.
      unfold indices in *. apply in_map_iff in Hi as (t & <- & Ht). apply filter_In in Ht. apply in_map, Ht. }
    split; [|intros i v w H1 H2; apply (Ha i); apply Hsub; assumption].
    intros i v Hv. apply Hsub in Hv. rewrite (tracker_marks _ _ _ _ _ _ i Hh). destruct (match removes _ with Some j => j =? i | None => false end); [discriminate|].
    destruct (marked st i) as [b|] eqn:Eb; [rewrite <- Eb; eauto|]. assert (En : unit_of st i = None) by (unfold marked in Eb; destruct (unit_of st i); [discriminate|reflexivity]).
    destruct e; cbn [registers orderly] in *; try discriminate.
    all: match goal with |- context [?x =? ?y] => destruct (Z.eqb_spec x y) as [Q|Q]; [rewrite Q in Hc; destruct (Hc En v Hv)|discriminate] end.
  - pose proof (fun v => game_selection _ _ _ _ _ _ _ _ v Hw Hn Hh) as Hsel.
    assert (Hsame : (forall i b, marks_after st st' uid e i b = b) -> (forall v, selection st' v = selection st v) -> marks_complete st').
    { intros Hm Hv. split.
      - intros i v Hi. rewrite (game_marks _ _ _ _ _ _ _ _ i Hh). unfold selected_by in Hi. rewrite Hv in Hi. specialize (Hs i v Hi). destruct (marked st i) as [b|]; cbn; [rewrite Hm|]; congruence.
      - intros i v w. unfold selected_by. rewrite !Hv. apply Ha. }
    assert (Hnew : forall tags, (forall i b, marks_after st st' uid e i b = if named tags i then true else if named (selection st uid) i then false else b) ->
      others_keep st uid tags -> (forall i, In i (indices (selection st' uid)) -> In i (indices tags)) -> (forall v, v <> uid -> selection st' v = selection st v) -> marks_complete st').
    { intros tags Hm Ho Hi Hv. split.
      - intros i v Hx. rewrite (game_marks _ _ _ _ _ _ _ _ i Hh). destruct (marked st i) as [b|] eqn:Eb; [|discriminate]. cbn [option_map]. rewrite Hm. destruct (named tags i) eqn:N; [discriminate|].
        unfold selected_by in Hx. destruct (Z.eqb_spec v uid) as [->|Hne]; [apply Hi, named_spec in Hx; congruence|]. rewrite (Hv v Hne) in Hx.
        destruct (named (selection st uid) i) eqn:N2; [apply named_spec in N2; destruct (Hne (Ha i _ _ Hx N2))|]. specialize (Hs i v Hx). congruence.
      - assert (Hone : forall i v, selected_by st' i uid -> selected_by st' i v -> v = uid).
        { intros i v H1 H2. destruct (Z.eqb_spec v uid) as [|Hne]; [assumption|]. unfold selected_by in *. rewrite (Hv v Hne) in H2. apply Hi in H1. unfold indices in H1. apply in_map_iff in H1 as (t & Et & Ht).
          apply (Ho t v Ht). unfold selected_by. rewrite Et. exact H2. }
        intros i v w H1 H2. destruct (Z.eqb_spec v uid) as [->|Hne]; [symmetry; eauto|]. destruct (Z.eqb_spec w uid) as [->|Hne2]; [eauto|].
        unfold selected_by in *. rewrite Hv in H1, H2 by assumption. exact (Ha i _ _ H1 H2). }
    destruct e; cbn [orderly registers] in *; try (apply Hsame; [reflexivity|exact Hsel]).
    + destruct (Z.eqb_spec (sd_group e) 10) as [E|E].
      * apply (Hnew (sd_tags e)).
        -- intros i b. cbn [marks_after]. rewrite E. reflexivity.
        -- apply Hc, E.
        -- intros i. specialize (Hsel uid). rewrite Z.eqb_refl in Hsel. cbn [andb] in Hsel. destruct Hsel as [[_ ->]|[_ ->]]; [intros []|auto].
        -- intros v Hv. specialize (Hsel v). destruct (Z.eqb_spec v uid); [contradiction|]. exact Hsel.
      * apply Hsame.
        -- intros i b. cbn [marks_after]. destruct (Z.eqb_spec (sd_group e) 10); [contradiction|reflexivity].
        -- intros v. specialize (Hsel v). rewrite Bool.andb_false_r in Hsel. exact Hsel.
    + destruct Hc as (Er & Ho). assert (Es : selection st' uid = group_of st uid (cg_index e)) by (specialize (Hsel uid); rewrite Z.eqb_refl in Hsel; auto).
      apply (Hnew (group_of st uid (cg_index e))).
      * intros i b. cbn [marks_after]. rewrite Er, Es. reflexivity.
      * exact Ho.
      * rewrite Es. auto.
      * intros v Hv. specialize (Hsel v). destruct (Z.eqb_spec v uid); [contradiction|]. exact Hsel.
Qed.
Lemma start_selection : forall init d b st v, starts init d b st -> selection st v = [].
Proof.
  intros init d b st v Hs. unfold selection, group_of. destruct (user_of st v) as [us|] eqn:E; [|reflexivity].
  destruct (start_user _ _ _ _ _ _ Hs E) as (l & players & -> & _). reflexivity.
Qed.
Lemma run_numbered : forall mc (I : state -> Prop) P st0 evs, I st0 -> Forall numbered evs -> throughout mc st0 evs P ->
  (forall st e st' it, I st -> numbered e -> P st e -> handle_transition mc st e = Ok (st', it) -> I st') -> forall st its, run mc st0 evs = Ok (st, its) -> I st.
Proof.
  intros mc I P st0 evs H0 Hn Ht Hs. apply (run_throughout mc I (fun st e => numbered e /\ P st e) st0 evs H0).
  - intros before e after st its E Hr. split; [|eapply Ht; eauto]. rewrite Forall_forall in Hn. apply Hn. rewrite E. apply in_or_app. right. left. reflexivity.
  - intros st e st' it HI [A B] Hh. eauto.
Qed.
Lemma marks_are_selected : forall mc st0 evs st its i u, history mc st0 evs st its -> Forall numbered evs -> throughout mc st0 evs recorded ->
  unit_of st i = Some u -> su_selected u = true -> exists v, selected_by st i v.
Proof.
  intros mc st0 evs st its i u [(init & d & b & Hs) Hr] Hn Ht Hu Hi. pose proof (starts_wf _ _ _ _ Hs) as (Hw & H0 & _).
  assert (X : wf st /\ marks_sound st).
  { eapply (run_numbered mc (fun st => wf st /\ marks_sound st) recorded st0 evs); [|exact Hn|exact Ht| |exact Hr].
    - split; [exact Hw|]. intros j. unfold marked, unit_of. rewrite H0. discriminate.
    - intros st1 e st2 it [Hw1 Ha] N Hc Hh. split; [eapply step_wf; eauto|eapply sound_step; eauto]. }
  apply X. unfold marked. rewrite Hu. cbn. f_equal. exact Hi.
Qed.
Lemma selected_are_marked : forall mc st0 evs st its i u v, history mc st0 evs st its -> Forall numbered evs -> throughout mc st0 evs orderly ->
  unit_of st i = Some u -> selected_by st i v -> su_selected u = true /\ forall w, selected_by st i w -> w = v.
Proof.
  intros mc st0 evs st its i u v [(init & d & b & Hs) Hr] Hn Ht Hu Hi. pose proof (starts_wf _ _ _ _ Hs) as (Hw & H0 & _).
  assert (X : wf st /\ marks_complete st).
  { eapply (run_numbered mc (fun st => wf st /\ marks_complete st) orderly st0 evs); [|exact Hn|exact Ht| |exact Hr].
    - split; [exact Hw|]. split; intros j x; unfold selected_by; rewrite (start_selection _ _ _ _ x Hs); intros; contradiction.
    - intros st1 e st2 it [Hw1 Ha] N Hc Hh. split; [eapply step_wf; eauto|eapply complete_step; eauto]. }
  destruct X as (_ & X & Y). split; [|intros w Hw2; eapply Y; eauto]. specialize (X i v Hi). unfold marked in X. rewrite Hu in X. cbn in X. destruct (su_selected u); congruence.
Qed.

(** ** The specification determines the look *)
Lemma colour_one : forall n p c, colour_of n p c <-> c = unit_color n (match p with Some x => x | None => 0 end).
Proof.
  intros n p c. split; [|intros ->; apply unit_color_spec]. intros [Hc|[Hc Hp]]; unfold unit_color.
  - rewrite (types_table _ _ Hc). reflexivity.
  - destruct (sget n color_table) as [c'|] eqn:E; [destruct (Hc c' (table_types _ _ E))|]. unfold player_colour, user_color in *. destruct p as [[|[[q|q|]|[q|q|]|]|q]|]; exact Hp.
Qed.
Lemma radius_one : forall b n r, type_radius b n r <-> r = unit_radius b n.
Proof.
  intros b n r. split; [|intros ->; apply unit_radius_spec]. unfold unit_radius. intros [(u & E1 & E2)|[Hn ->]]; [rewrite E1, E2; reflexivity|].
  destruct (sget n b) as [u|]; [|reflexivity]. destruct (bu_radius u) as [r|] eqn:E; [destruct (Hn u r eq_refl E)|reflexivity].
Qed.
Lemma look_determined : forall b n p, (exists! c, colour_of n p c) /\ (exists! r, type_radius b n r).
Proof.
  intros b n p. split.
  - eexists. split; [apply colour_one; reflexivity|]. intros c Hc. apply colour_one in Hc. auto.
  - eexists. split; [apply radius_one; reflexivity|]. intros c Hc. apply radius_one in Hc. auto.
Qed.
(** ** Conditions along a computed run *)
Fixpoint along (mc : machine) (P : state -> sc2_event -> Prop) (st : state) (evs : list sc2_event) : Prop :=
  match evs with
  | [] => True
  | e :: evs => P st e /\ match handle_transition mc st e with Ok (st, _) => along mc P st evs | _ => True end
  end.
Lemma along_throughout : forall mc P evs st0, along mc P st0 evs -> throughout mc st0 evs P.
Proof.
  intros mc P. induction evs as [|e evs IH]; intros st0 Ha before x after st its E Hr; [destruct before; discriminate|]. destruct Ha as [Hp Ha].
  destruct before as [|y before]; cbn [app] in E; injection E as -> ->; cbn [run] in Hr; [injection Hr as <- <-; exact Hp|].
  apply obind_ok in Hr as ([st1 it] & H1 & Hr). apply obind_ok in Hr as ([st2 its2] & H2 & Hr). injection Hr as <- <-. rewrite H1 in Ha. eapply (IH st1 Ha); eauto.
Qed.
(** Tests for [recorded] and [orderly]. *)
Definition in_selections (st : state) (f : Z -> list Z -> bool) : bool := forallb (fun x => f (fst x) (nth (Z.to_nat 10) (us_groups (snd x)) [])) (st_users st).
Lemma in_selections_ok : forall st f v, in_selections st f = true -> selection st v <> [] -> f v (selection st v) = true.
Proof.
  intros st f v Hf Hn. unfold selection, group_of, user_of in *. destruct (mget v (st_users st)) as [us|] eqn:E; [|congruence]. apply mget_In in E. unfold in_selections in Hf. rewrite forallb_forall in Hf. exact (Hf _ E).
Qed.
Definition recorded_b (st : state) (e : sc2_event) : bool :=
  match e with
  | EGame _ uid _ (GSelectionDelta x) => match user_of st uid with Some _ => true | None => false end
  | ETracker _ (TUnitDied x) => in_selections st (fun _ l => negb (existsb (Z.eqb (ud_index x)) l))
  | _ => true
  end.
Lemma recorded_ok : forall st e, recorded_b st e = true -> recorded st e.
Proof.
  intros st [gl []|gl uid n []]; cbn [recorded_b recorded]; auto.
  - intros Hb v Hi. assert (Hn : selection st v <> []) by (intros E; rewrite E in Hi; exact Hi). apply (in_selections_ok _ _ v Hb) in Hn. apply Bool.negb_true_iff in Hn.
    assert (X : existsb (Z.eqb (ud_index e)) (selection st v) = true) by (apply existsb_exists; exists (ud_index e); split; [exact Hi|apply Z.eqb_refl]). congruence.
  - intros Hb _. destruct (user_of st uid); [discriminate|discriminate Hb].
Qed.
Definition keep_b (st : state) (uid : Z) (tags : list Z) : bool :=
  in_selections st (fun v l => (v =? uid) || negb (existsb (fun t => existsb (Z.eqb (unit_tag_index t)) (indices l)) tags)).
Lemma keep_ok : forall st uid tags, keep_b st uid tags = true -> others_keep st uid tags.
Proof.
  intros st uid tags Hb t v Ht Hv. unfold selected_by in Hv. assert (Hn : selection st v <> []) by (intros E; rewrite E in Hv; exact Hv). apply (in_selections_ok _ _ v Hb) in Hn.
  apply Bool.orb_true_iff in Hn as [Hn|Hn]; [now apply Z.eqb_eq|]. apply Bool.negb_true_iff in Hn.
  assert (X : existsb (fun t => existsb (Z.eqb (unit_tag_index t)) (indices (selection st v))) tags = true); [|congruence].
  apply existsb_exists. exists t. split; [exact Ht|]. apply existsb_exists. exists (unit_tag_index t). split; [exact Hv|apply Z.eqb_refl].
Qed.
Definition orderly_b (st : state) (e : sc2_event) : bool :=
  match e with
  | EGame _ uid _ (GSelectionDelta x) => negb (sd_group x =? 10) || keep_b st uid (sd_tags x)
  | EGame _ uid _ (GControlGroupUpdate x) => match cg_update x with GRecall => keep_b st uid (group_of st uid (cg_index x)) | _ => false end
  | _ => match registers e with Some i => in_selections st (fun _ l => negb (existsb (Z.eqb i) (indices l))) | None => true end
  end.
Lemma orderly_ok : forall st e, orderly_b st e = true -> orderly st e.
Proof.
  assert (Hreg : forall st i, in_selections st (fun _ l => negb (existsb (Z.eqb i) (indices l))) = true -> unit_of st i = None -> forall v, ~ selected_by st i v).
  { intros st i Hb _ v Hi. unfold selected_by in Hi. assert (Hn : selection st v <> []) by (intros E; rewrite E in Hi; exact Hi). apply (in_selections_ok _ _ v Hb) in Hn. apply Bool.negb_true_iff in Hn.
    assert (X : existsb (Z.eqb i) (indices (selection st v)) = true) by (apply existsb_exists; exists i; split; [exact Hi|apply Z.eqb_refl]). congruence. }
  intros st [gl []|gl uid n []]; cbn [orderly_b orderly registers]; auto.
  - intros Hb E. apply keep_ok. rewrite E in Hb. exact Hb.
  - destruct (cg_update e); try discriminate. intros Hb. split; [reflexivity|]. apply keep_ok, Hb.
Qed.
Lemma throughout_mono : forall mc st0 evs (P Q : state -> sc2_event -> Prop), (forall st e, P st e -> Q st e) -> throughout mc st0 evs P -> throughout mc st0 evs Q.
Proof. intros mc st0 evs P Q Hpq Ht before e after st its E Hr. apply Hpq. eapply Ht; eauto. Qed.
