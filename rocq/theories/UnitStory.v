(** * The story of a unit: what the history of a replay says about it *)
From Verif Require Import Base F32 Tags Events Maps Balance Lobby Convert State StateFacts StateSpec StateSteps StateProofs StateEvents StateMore MergeSpec.
#[local] Open Scope Z_scope.
#[local] Open Scope list_scope.

(** ** What an event says *)
(** The owner, the name, the place and the state of construction a registration
    announces. *)
Definition first_owner (e : sc2_event) : option Z :=
  match e with ETracker _ (TUnitInit x) => Some (ui_control x) | ETracker _ (TUnitBorn x) => Some (ub_control x) | _ => None end.
Definition first_name (e : sc2_event) : string :=
  match e with
  | ETracker _ (TUnitInit x) => ui_name x | ETracker _ (TUnitBorn x) => ub_name x | ETracker _ (TUnitTypeChange x) => ut_name x | _ => EmptyString
  end.
Definition first_place (e : sc2_event) : vec3 :=
  match e with
  | ETracker _ (TUnitInit x) => (f32_of_int (ui_x x), f32_of_int (ui_y x), f32_zero)
  | ETracker _ (TUnitBorn x) => (f32_of_int (ub_x x), f32_of_int (ub_y x), f32_zero)
  | _ => (f32_zero, f32_zero, f32_zero)
  end.
Definition first_building (e : sc2_event) : bool := match e with ETracker _ (TUnitInit _) => true | _ => false end.
(** What a later event says about the unit [i]. *)
Definition new_name (i : Z) (e : sc2_event) : option string :=
  match e with
  | ETracker _ (TUnitInit x) => if ui_index x =? i then Some (ui_name x) else None
  | ETracker _ (TUnitTypeChange x) => if ut_index x =? i then Some (ut_name x) else None
  | _ => None
  end.
Definition new_place (m : build) (i : Z) (e : sc2_event) : option vec3 :=
  match e with
  | ETracker _ (TUnitInit x) => if ui_index x =? i then Some (f32_of_int (ui_x x), f32_of_int (ui_y x), f32_zero) else None
  | ETracker _ (TUnitPosition x) =>
      match to_unit_positions_vec m (up_first x) (up_items x) with Ok l => option_map position_of (last_position l i) | _ => None end
  | _ => None
  end.
Definition new_building (i : Z) (e : sc2_event) : option bool :=
  match e with
  | ETracker _ (TUnitInit x) => if ui_index x =? i then Some true else None
  | ETracker _ (TUnitDone x) => if un_index x =? i then Some false else None
  | _ => None
  end.
Definition new_ability (i : Z) (e : sc2_event) : option (option string) :=
  match e with ETracker _ (TUnitBorn x) => if ub_index x =? i then Some (ub_creator_ability x) else None | _ => None end.
(** The last word of the events [l], or [a]. *)
Definition latest {A} (f : sc2_event -> option A) (l : list sc2_event) (a : A) : A := match last_some f l with Some b => b | None => a end.
Lemma latest_snoc : forall A (f : sc2_event -> option A) l e a, latest f (l ++ [e]) a = match f e with Some b => b | None => latest f l a end.
Proof. intros A f l e a. unfold latest. rewrite last_some_snoc. destruct (f e); reflexivity. Qed.

(** ** One step *)
Record kept (m : build) (i : Z) (e : sc2_event) (u u' : sc2_unit) : Prop := {
  k_init : su_init_loop u' = su_init_loop u; k_user : su_user u' = su_user u; k_player : su_player u' = su_player u; k_creator : su_creator u' = su_creator u;
  k_name : su_name u' = match new_name i e with Some n => n | None => su_name u end;
  k_pos : su_pos u' = match new_place m i e with Some p => p | None => su_pos u end;
  k_building : su_is_init u' = match new_building i e with Some b => b | None => su_is_init u end;
  k_ability : su_ability u' = match new_ability i e with Some a => a | None => su_ability u end;
  k_loop : su_loop u' = su_loop u \/ su_loop u' = event_loop e }.
Record fresh (st : state) (e : sc2_event) (u : sc2_unit) : Prop := {
  f_init : su_init_loop u = event_loop e; f_user : su_user u = first_owner e;
  f_player : su_player u = match first_owner e with Some p => player_name_of (st_users st) p | None => None end; f_creator : su_creator u = None;
  f_name : su_name u = first_name e; f_pos : su_pos u = first_place e; f_building : su_is_init u = first_building e; f_ability : su_ability u = None;
  f_loop : su_loop u = event_loop e }.

Definition loops_kept (gl : Z) (units units' : list (Z * sc2_unit)) : Prop :=
  forall i, match mget i units, mget i units' with Some u, Some v => su_loop v = su_loop u \/ su_loop v = gl | None, None => True | _, _ => False end.
Lemma lk_refl : forall gl units, loops_kept gl units units.
Proof. intros gl units i. destruct (mget i units); auto. Qed.
Lemma lk_trans : forall gl a b c, loops_kept gl a b -> loops_kept gl b c -> loops_kept gl a c.
Proof.
  intros gl a b c Ab Bc i. specialize (Ab i). specialize (Bc i). destruct (mget i a), (mget i b), (mget i c); try contradiction; auto.
  destruct Ab as [Ab|Ab], Bc as [Bc|Bc]; [left|right|right|right]; congruence.
Qed.
Lemma lk_set : forall gl i u v units, mget i units = Some u -> su_loop v = gl -> loops_kept gl units (mset i v units).
Proof.
  intros gl i u v units Hu Hv j. rewrite mget_mset. destruct (Z.eqb_spec i j) as [<-|]; [rewrite Hu; auto|]. destruct (mget j units); auto.
Qed.
Lemma lk_select : forall gl sel k tags units units' ids, select_loop gl sel k tags units = (units', ids) -> loops_kept gl units units'.
Proof.
  intros gl sel k. induction tags as [|t tags IH]; intros units units' ids E; cbn [select_loop] in E; [injection E as <- _; apply lk_refl|]. cbv zeta in E.
  destruct (mget (unit_tag_index t) units) as [u|] eqn:Hu; [|eapply IH, E]. destruct (Bool.eqb (su_selected u) sel).
  - eapply lk_trans; [|eapply IH, E]; eapply lk_set; [exact Hu|reflexivity].
  - destruct (select_loop gl sel k tags _) as [us is] eqn:El. injection E as <- _. eapply lk_trans; [|eapply IH, El]; eapply lk_set; [exact Hu|reflexivity].
Qed.
Lemma lk_target : forall gl f tags units units' l, (forall u, su_loop (f u) = gl) -> target_loop f tags units = (units', l) -> loops_kept gl units units'.
Proof.
  intros gl f. induction tags as [|t tags IH]; intros units units' l Hf E; cbn [target_loop] in E; [injection E as <- _; apply lk_refl|].
  destruct (mget (unit_tag_index t) units) as [u|] eqn:Hu; [|eapply IH; eauto]. destruct (target_loop f tags _) as [us is] eqn:El. injection E as <- _.
  eapply lk_trans; [|exact (IH _ _ _ Hf El)]. eapply lk_set; [exact Hu|apply Hf].
Qed.
Lemma lk_cmd : forall b gl o tags cmd units units' r, cmd_loop b gl o tags cmd units = (units', r) -> loops_kept gl units units'.
Proof.
  intros b gl o. induction tags as [|t tags IH]; intros cmd units units' r E; cbn [cmd_loop] in E; [injection E as <- _; apply lk_refl|].
  destruct (mget (unit_tag_index t) units) as [u|] eqn:Hu; [|eapply IH; eauto]. destruct (cm_abil cmd) as [a|]; [|eapply IH; eauto]. cbv zeta in E.
  destruct (cmd_loop b gl o tags _ _) as [us [c l]] eqn:El. injection E as <- _. eapply lk_trans; [|eapply IH, El]; eapply lk_set; [exact Hu|reflexivity].
Qed.
Lemma lk_unmark : forall st gl uid st' l, unmark_previously_selected_units st gl uid = Ok (st', l) -> loops_kept gl (st_units st) (st_units st').
Proof.
  intros st gl uid st' l E. unfold unmark_previously_selected_units in E. apply obind_ok in E as (tags & _ & E).
  destruct (select_loop gl false f32_half tags (st_units st)) as [us ids] eqn:El. injection E as <- _. eapply lk_select, El.
Qed.
Lemma lk_mark : forall st gl tags st' l, mark_selected_units st gl tags = (st', l) -> loops_kept gl (st_units st) (st_units st').
Proof.
  intros st gl tags st' l E. unfold mark_selected_units in E.
  destruct (select_loop gl true f32_two tags (st_units st)) as [us ids] eqn:El. injection E as <- _. eapply lk_select, El.
Qed.
Lemma lk_groups : forall st uid f st' gl, change_groups st uid f = Ok st' -> loops_kept gl (st_units st) (st_units st').
Proof.
  intros st uid f st' gl E. unfold change_groups in E. destruct (mget uid (st_users st)); [apply obind_ok in E as (gs & _ & E)|]; injection E as <-; apply lk_refl.
Qed.
Lemma lk_game : forall mc st gl uid e st' r, handle_game_event mc st gl uid e = Ok (st', r) -> loops_kept gl (st_units st) (st_units st').
Proof.
  intros mc st gl uid e st' r E.
  assert (Hc : forall p, loops_kept gl (st_units st) (st_units (move_camera st uid p))) by (intros p; unfold move_camera; destruct (mget uid (st_users st)); apply lk_refl).
  destruct e; cbn [handle_game_event] in E; try (injection E as <- _; apply lk_refl).
  - unfold handle_camera_save in E. injection E as <- _. apply Hc.
  - unfold handle_cmd in E. cbv zeta in E. apply obind_ok in E as (tags & _ & E). destruct (cmd_loop _ _ _ _ _ _) as [us [c l]] eqn:El. injection E as <- _. eapply lk_cmd, El.
  - unfold handle_selection_delta in E. apply obind_ok in E as ([s1 l1] & E1 & E). apply obind_ok in E as (s2 & E2 & E). injection E as <- _.
    eapply lk_trans; [|eapply lk_groups, E2]. destruct (sd_group e =? active_group); [|injection E1 as <- _; apply lk_refl].
    apply obind_ok in E1 as ([s3 l3] & E3 & E1). destruct (mark_selected_units s3 gl (sd_tags e)) as [s4 l4] eqn:E4. injection E1 as <- _.
    eapply lk_trans; [eapply lk_unmark, E3|eapply lk_mark, E4].
  - rewrite update_control_group_eq in E. apply obind_ok in E as ([s1 l1] & E1 & E). apply obind_ok in E as (s2 & E2 & E).
    assert (H12 : loops_kept gl (st_units st) (st_units s2)) by (eapply lk_trans; [eapply lk_unmark, E1|eapply lk_groups, E2]).
    destruct (cg_update e); try (injection E as <- _; exact H12).
    apply obind_ok in E as (tags & _ & E). destruct (mark_selected_units s2 gl tags) as [s4 l4] eqn:E4. injection E as <- _.
    eapply lk_trans; [exact H12|eapply lk_mark, E4].
  - unfold handle_camera_update in E. injection E as <- _. destruct (cu_target e); [apply Hc|apply lk_refl].
  - unfold handle_update_target_point in E. apply obind_ok in E as (tags & _ & E). destruct (target_loop _ _ _) as [us l] eqn:El. injection E as <- _.
    eapply lk_target; [|exact El]. reflexivity.
  - unfold handle_update_target_unit in E. destruct (match mget _ _ with Some _ => _ | None => _ end); [|injection E as <- _; apply lk_refl].
    apply obind_ok in E as (tags & _ & E). destruct (target_loop _ _ _) as [us l] eqn:El. injection E as <- _. eapply lk_target; [|exact El]. reflexivity.
Qed.

Ltac fields := cbn [su_index su_loop su_user su_player su_name su_pos su_init_loop su_ability su_creator su_radius su_color su_selected su_is_init su_cmd
  set_loop set_name set_pos set_ability set_size set_is_init event_loop] in *.
Lemma props_fields : forall b u, su_loop (set_unit_props b u) = su_loop u /\ su_user (set_unit_props b u) = su_user u /\ su_player (set_unit_props b u) = su_player u /\
  su_name (set_unit_props b u) = su_name u /\ su_pos (set_unit_props b u) = su_pos u /\ su_init_loop (set_unit_props b u) = su_init_loop u /\
  su_ability (set_unit_props b u) = su_ability u /\ su_creator (set_unit_props b u) = su_creator u /\ su_is_init (set_unit_props b u) = su_is_init u.
Proof. intros b u. unfold set_unit_props. destruct (get_unit_sized_color _ _ _) as [r c]. repeat (split; [reflexivity|]). reflexivity. Qed.
Lemma kept_same : forall m i e u, new_name i e = None -> new_place m i e = None -> new_building i e = None -> new_ability i e = None -> kept m i e u u.
Proof. intros m i e u A B C D. constructor; rewrite ?A, ?B, ?C, ?D; auto. Qed.

Lemma step_story : forall mc st e st' it i u', handle_transition mc st e = Ok (st', it) -> unit_of st' i = Some u' ->
  (exists u, unit_of st i = Some u /\ removes e <> Some i /\ kept (mc_build mc) i e u u') \/
  (unit_of st i = None /\ registers e = Some i /\ fresh st e u').
Proof.
  intros mc st [gl e|gl uid n e] st' it i u' Hh Hu.
  2:{ apply transition_game in Hh as (e' & h & Hh & _). pose proof (lk_game _ _ _ _ _ _ _ Hh i) as Hl. apply game_frame in Hh as (_ & Hk & _).
      pose proof (units_kept_unit st st' i Hk) as Hi. left. fold (unit_of st i) (unit_of st' i) in Hl. rewrite Hu in Hi, Hl. destruct (unit_of st i) as [u|]; [|contradiction]. exists u. split; [reflexivity|].
      split; [discriminate|]. destruct Hi as (A1 & A2 & A3 & A4 & A5 & A6 & A7 & A8 & _ & A9). constructor; cbn [new_name new_place new_building new_ability event_loop]; auto. }
  assert (Hsame : unit_of st' i = unit_of st i -> new_name i (ETracker gl e) = None -> new_place (mc_build mc) i (ETracker gl e) = None -> new_building i (ETracker gl e) = None ->
    new_ability i (ETracker gl e) = None -> removes (ETracker gl e) <> Some i -> exists u, unit_of st i = Some u /\ removes (ETracker gl e) <> Some i /\ kept (mc_build mc) i (ETracker gl e) u u').
  { intros E A B C D F. exists u'. split; [congruence|]. split; [exact F|]. apply kept_same; assumption. }
  pose proof Hh as Hh0. apply transition_tracker in Hh as (e' & h & Hh & _).
  destruct e; cbn [handle_tracker_event] in Hh; try (injection Hh as <- <- <-; left; apply Hsame; reflexivity || discriminate).
  - apply fst_of in Hh. subst st'. rewrite born_unit in Hu. unfold creator_touched in Hu. destruct (Z.eqb_spec (ub_index e) i) as [Ei|Hn].
    + destruct (unit_of st i) as [u|] eqn:Eu.
      * left. exists u. split; [reflexivity|]. split; [discriminate|].
        destruct (match ub_creator_index e with Some c => c =? i | None => false end); cbn [option_map] in Hu; injection Hu as <-;
          constructor; cbn [new_name new_place new_building new_ability]; rewrite ?(proj2 (Z.eqb_eq _ _) Ei); fields; auto.
      * right. split; [reflexivity|]. split; [cbn [registers]; congruence|].
        destruct (match ub_creator_index e with Some c => c =? i | None => false end); cbn [option_map] in Hu; injection Hu as Hu; rewrite <- Hu;
          (edestruct props_fields as (P1 & P2 & P3 & P4 & P5 & P6 & P7 & P8 & P9); constructor; [rewrite P6|rewrite P2|rewrite P3|rewrite P8|rewrite P4|rewrite P5|rewrite P9|rewrite P7|rewrite P1]; reflexivity).
    + left. assert (Ef : (ub_index e =? i) = false) by (apply Z.eqb_neq, Hn).
      destruct (match ub_creator_index e with Some c => c =? i | None => false end).
      * destruct (unit_of st i) as [u|]; [|discriminate]. cbn [option_map] in Hu. injection Hu as <-. exists u. split; [reflexivity|]. split; [discriminate|].
        constructor; cbn [new_name new_place new_building new_ability]; rewrite ?Ef; fields; auto.
      * exists u'. split; [exact Hu|]. split; [discriminate|]. apply kept_same; try reflexivity. cbn [new_ability]. rewrite Ef. reflexivity.
  - pose proof (died_unit st gl e st' _ i Hh) as Hd. rewrite Hd in Hu. destruct (Z.eqb_spec (ud_index e) i) as [Ei|Hn]; [discriminate|].
    left. exists u'. split; [exact Hu|]. split; [cbn [removes]; congruence|]. apply kept_same; reflexivity.
  - apply fst_of in Hh. subst st'. rewrite type_unit in Hu. destruct (Z.eqb_spec (ut_index e) i) as [Ei|Hn].
    + injection Hu as Hu. rewrite <- Hu. destruct (unit_of st i) as [u|] eqn:Eu.
      * left. exists u. split; [reflexivity|]. split; [discriminate|].
        edestruct props_fields as (P1 & P2 & P3 & P4 & P5 & P6 & P7 & P8 & P9).
        constructor; cbn [new_name new_place new_building new_ability]; rewrite ?(proj2 (Z.eqb_eq _ _) Ei); [rewrite P6|rewrite P2|rewrite P3|rewrite P8|rewrite P4|rewrite P5|rewrite P9|rewrite P7|rewrite P1]; fields; auto.
      * right. split; [reflexivity|]. split; [cbn [registers]; congruence|].
        edestruct props_fields as (P1 & P2 & P3 & P4 & P5 & P6 & P7 & P8 & P9); constructor; [rewrite P6|rewrite P2|rewrite P3|rewrite P8|rewrite P4|rewrite P5|rewrite P9|rewrite P7|rewrite P1]; reflexivity.
    + left. exists u'. split; [exact Hu|]. split; [discriminate|]. apply Z.eqb_neq in Hn. apply kept_same; try reflexivity. cbn [new_name]. rewrite Hn. reflexivity.
  - apply fst_of in Hh. subst st'. rewrite init_unit in Hu. destruct (Z.eqb_spec (ui_index e) i) as [Ei|Hn].
    + injection Hu as Hu. destruct (unit_of st i) as [u|] eqn:Eu; rewrite <- Hu.
      * left. exists u. split; [reflexivity|]. split; [discriminate|].
        constructor; cbn [new_name new_place new_building new_ability]; rewrite ?(proj2 (Z.eqb_eq _ _) Ei); fields; auto.
      * right. split; [reflexivity|]. split; [cbn [registers]; congruence|].
        edestruct props_fields as (P1 & P2 & P3 & P4 & P5 & P6 & P7 & P8 & P9); constructor; [rewrite P6|rewrite P2|rewrite P3|rewrite P8|rewrite P4|rewrite P5|rewrite P9|rewrite P7|rewrite P1]; reflexivity.
    + left. exists u'. split; [exact Hu|]. split; [discriminate|]. apply Z.eqb_neq in Hn. apply kept_same; try reflexivity; cbn [new_name new_place new_building]; rewrite Hn; reflexivity.
  - apply fst_of in Hh. subst st'. rewrite done_unit in Hu. destruct (Z.eqb_spec (un_index e) i) as [Ei|Hn].
    + left. destruct (unit_of st i) as [u|] eqn:Eu; [|discriminate]. cbn [option_map] in Hu. injection Hu as Hu. rewrite <- Hu. exists u. split; [reflexivity|]. split; [discriminate|].
      edestruct props_fields as (P1 & P2 & P3 & P4 & P5 & P6 & P7 & P8 & P9).
      constructor; cbn [new_name new_place new_building new_ability]; rewrite ?(proj2 (Z.eqb_eq _ _) Ei); [rewrite P6|rewrite P2|rewrite P3|rewrite P8|rewrite P4|rewrite P5|rewrite P9|rewrite P7|rewrite P1]; fields; auto.
    + left. exists u'. split; [exact Hu|]. split; [discriminate|]. apply Z.eqb_neq in Hn. apply kept_same; try reflexivity; cbn [new_building]; rewrite Hn; reflexivity.
  - left. apply position_effect in Hh0 as (l & El & _ & _ & _ & Hp). rewrite Hp in Hu. destruct (unit_of st i) as [u|]; [|discriminate]. cbn [option_map] in Hu. injection Hu as Hu.
    exists u. split; [reflexivity|]. split; [discriminate|]. rewrite <- Hu.
    constructor; cbn [new_name new_place new_building new_ability]; rewrite ?El; destruct (last_position l i); fields; auto.
  - left. apply Hsame; try reflexivity; [|discriminate]. apply fst_of in Hh. cbn [fst] in Hh. subst st'. unfold handle_player_setup. destruct (se_user_id e) as [w|]; [destruct (mget w (st_users st))|]; reflexivity.
Qed.

(** ** The whole story *)
Lemma not_alive_none : forall mc st0 evs st its i, history mc st0 evs st its -> unit_of st i = None -> ~ alive i evs.
Proof. intros mc st0 evs st its i Hh Hn Ha. apply (registered_alive _ _ _ _ _ i Hh) in Ha. contradiction. Qed.
Lemma unit_story : forall mc st0 evs st its i u, history mc st0 evs st its -> unit_of st i = Some u ->
  exists before e after st1 its1, evs = before ++ e :: after /\ ~ alive i before /\ registers e = Some i /\ (forall e', In e' after -> removes e' <> Some i) /\
    history mc st0 before st1 its1 /\
    su_init_loop u = event_loop e /\ su_user u = first_owner e /\ su_creator u = None /\
    match first_owner e with Some p => names_player before st1 p (su_player u) | None => su_player u = None end /\
    su_name u = latest (new_name i) after (first_name e) /\ su_pos u = latest (new_place (mc_build mc) i) after (first_place e) /\
    su_is_init u = latest (new_building i) after (first_building e) /\ su_ability u = latest (new_ability i) after None /\
    exists e', In e' (e :: after) /\ su_loop u = event_loop e'.
Proof.
  intros mc st0 evs st its i u [Hs Hr]. revert st its u Hr. induction evs as [|e evs IH] using rev_ind; intros st its u Hr Hu.
  - cbn [run] in Hr. injection Hr as <- <-. destruct Hs as (init & d & b & Hs). apply starts_wf in Hs as (_ & U & _). unfold unit_of in Hu. rewrite U in Hu. discriminate.
  - apply run_snoc in Hr as (st1 & its1 & it & Hr & Hh & _).
    destruct (step_story _ _ _ _ _ _ _ Hh Hu) as [(u0 & Hu0 & Hrm & K)|(Hn & Hreg & F)].
    + destruct (IH _ _ _ Hr Hu0) as (before & e0 & after & s1 & i1 & -> & Ha & Hreg & Hrem & Hhis & A1 & A2 & A3 & A4 & A5 & A6 & A7 & A8 & e1 & A9 & A10).
      exists before, e0, (after ++ [e]), s1, i1. rewrite <- app_assoc. destruct K. rewrite !latest_snoc.
      split; [reflexivity|]. split; [exact Ha|]. split; [exact Hreg|]. split; [intros e' He; apply in_app_or in He as [He|[<-|[]]]; auto|]. split; [exact Hhis|].
      split; [congruence|]. split; [congruence|]. split; [congruence|]. split; [rewrite k_player0; exact A4|].
      split; [rewrite k_name0, A5; reflexivity|]. split; [rewrite k_pos0, A6; reflexivity|]. split; [rewrite k_building0, A7; reflexivity|]. split; [rewrite k_ability0, A8; reflexivity|].
      destruct k_loop0 as [L|L]; [exists e1; split; [|congruence]|exists e; split; [|exact L]]; [destruct A9 as [<-|A9]; [left; reflexivity|right; apply in_or_app; left; exact A9]|right; apply in_or_app; right; left; reflexivity].
    + exists evs, e, [], st1, its1. destruct F. split; [reflexivity|]. split; [eapply not_alive_none; [split; [exact Hs|exact Hr]|exact Hn]|]. split; [exact Hreg|].
      split; [intros e' []|]. split; [split; [exact Hs|exact Hr]|]. split; [exact f_init0|]. split; [exact f_user0|]. split; [exact f_creator0|].
      split; [destruct (first_owner e) as [p|]; [rewrite f_player0; eapply names_of; split; [exact Hs|exact Hr]|exact f_player0]|].
      unfold latest. cbn [last_some]. split; [exact f_name0|]. split; [exact f_pos0|]. split; [exact f_building0|]. split; [exact f_ability0|]. exists e. split; [left; reflexivity|exact f_loop0].
Qed.
(** In a history whose loops never go back, a unit's times are in order. *)
Lemma unit_times : forall mc st0 evs st its i u, history mc st0 evs st its -> unit_of st i = Some u -> in_order (map event_loop evs) ->
  su_init_loop u <= su_loop u /\ forall e, last_some (fun x => Some x) evs = Some e -> su_loop u <= event_loop e.
Proof.
  intros mc st0 evs st its i u Hh Hu Ho. destruct (unit_story _ _ _ _ _ _ _ Hh Hu) as (before & e & after & st1 & its1 & -> & _ & _ & _ & _ & -> & _ & _ & _ & _ & _ & _ & _ & e' & He & ->).
  unfold in_order in Ho. rewrite map_app in Ho. cbn [map] in Ho.
  assert (Hs : Sorted.StronglySorted Z.le (event_loop e :: map event_loop after)).
  { clear -Ho. induction (map event_loop before) as [|x l IH]; [exact Ho|]. cbn [app] in Ho. inversion Ho; subst. auto. }
  split.
  - destruct He as [<-|He]; [lia|]. inversion Hs as [|a b _ F]; subst. rewrite Forall_forall in F. apply F, in_map, He.
  - intros z Hz. clear Ho Hu Hh. assert (Hl : last_some (fun x : sc2_event => Some x) (e :: after) = Some z).
    { revert Hz. induction before as [|x l IH]; intros Hz; [exact Hz|]. apply IH. cbn [app last_some] in Hz. cbn [last_some] in *.
      destruct (last_some (fun x => Some x) (l ++ e :: after)) as [y|] eqn:E; [exact Hz|]. exfalso. clear -E.
      induction l as [|a l IH]; cbn [app last_some] in E; [destruct (last_some _ after); discriminate|]. destruct (last_some _ (l ++ e :: after)); [discriminate|auto]. }
    clear Hz. revert e e' Hs He Hl. induction after as [|a after IH]; intros e e' Hs He Hl.
    + cbn [last_some] in Hl. injection Hl as <-. destruct He as [<-|[]]. lia.
    + cbn [map] in Hs. inversion Hs as [|? ? Hs' F]; subst. assert (Hl' : last_some (fun x : sc2_event => Some x) (a :: after) = Some z).
      { cbn [last_some] in Hl |- *. destruct (last_some _ after); exact Hl. }
      destruct He as [<-|He]; [|exact (IH a e' Hs' He Hl')]. specialize (IH a a Hs' (or_introl eq_refl) Hl'). inversion F; subst. lia.
Qed.
