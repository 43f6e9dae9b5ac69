(** * The last order of a unit: proofs *)
From Verif Require Import Base F32 Tags Events Maps Balance Lobby Convert State StateFacts StateSpec StateSteps StateProofs StateEvents StateMore MergeSpec UnitStory.
#[local] Open Scope Z_scope.
#[local] Open Scope list_scope.

Definition orders_kept (units units' : list (Z * sc2_unit)) : Prop :=
  forall i, match mget i units, mget i units' with Some u, Some v => su_cmd v = su_cmd u | None, None => True | _, _ => False end.
Lemma ok_refl : forall units, orders_kept units units.
Proof. intros units i. destruct (mget i units); auto. Qed.
Lemma ok_trans : forall a b c, orders_kept a b -> orders_kept b c -> orders_kept a c.
Proof. intros a b c Ab Bc i. specialize (Ab i). specialize (Bc i). destruct (mget i a), (mget i b), (mget i c); try contradiction; auto. congruence. Qed.
Lemma ok_set : forall i u v units, mget i units = Some u -> su_cmd v = su_cmd u -> orders_kept units (mset i v units).
Proof. intros i u v units Hu Hv j. rewrite mget_mset. destruct (Z.eqb_spec i j) as [<-|]; [rewrite Hu; auto|]. destruct (mget j units); auto. Qed.
Lemma ok_select : forall gl sel k tags units units' ids, select_loop gl sel k tags units = (units', ids) -> orders_kept units units'.
Proof.
  intros gl sel k. induction tags as [|t tags IH]; intros units units' ids E; cbn [select_loop] in E; [injection E as <- _; apply ok_refl|]. cbv zeta in E.
  destruct (mget (unit_tag_index t) units) as [u|] eqn:Hu; [|eapply IH, E]. destruct (Bool.eqb (su_selected u) sel).
  - eapply ok_trans; [|eapply IH, E]; eapply ok_set; [exact Hu|reflexivity].
  - destruct (select_loop gl sel k tags _) as [us is] eqn:El. injection E as <- _. eapply ok_trans; [|eapply IH, El]; eapply ok_set; [exact Hu|reflexivity].
Qed.
Lemma ok_unmark : forall st gl uid st' l, unmark_previously_selected_units st gl uid = Ok (st', l) -> orders_kept (st_units st) (st_units st').
Proof.
  intros st gl uid st' l E. unfold unmark_previously_selected_units in E. apply obind_ok in E as (tags & _ & E).
  destruct (select_loop gl false f32_half tags (st_units st)) as [us ids] eqn:El. injection E as <- _. eapply ok_select, El.
Qed.
Lemma ok_mark : forall st gl tags st' l, mark_selected_units st gl tags = (st', l) -> orders_kept (st_units st) (st_units st').
Proof.
  intros st gl tags st' l E. unfold mark_selected_units in E.
  destruct (select_loop gl true f32_two tags (st_units st)) as [us ids] eqn:El. injection E as <- _. eapply ok_select, El.
Qed.
Lemma ok_groups : forall st uid f st', change_groups st uid f = Ok st' -> orders_kept (st_units st) (st_units st').
Proof.
  intros st uid f st' E. unfold change_groups in E. destruct (mget uid (st_users st)); [apply obind_ok in E as (gs & _ & E)|]; injection E as <-; apply ok_refl.
Qed.
Definition a_command (e : game_event) : Prop := match e with GCmd _ | GCmdUpdateTargetPoint _ | GCmdUpdateTargetUnit _ => True | _ => False end.
Lemma ok_game : forall mc st gl uid e st' r, ~ a_command e -> handle_game_event mc st gl uid e = Ok (st', r) -> orders_kept (st_units st) (st_units st').
Proof.
  intros mc st gl uid e st' r Hn E.
  assert (Hc : forall p, orders_kept (st_units st) (st_units (move_camera st uid p))) by (intros p; unfold move_camera; destruct (mget uid (st_users st)); apply ok_refl).
  destruct e; cbn [handle_game_event] in E; try (injection E as <- _; apply ok_refl); try (exfalso; apply Hn; exact I).
  - unfold handle_camera_save in E. injection E as <- _. apply Hc.
  - unfold handle_selection_delta in E. apply obind_ok in E as ([s1 l1] & E1 & E). apply obind_ok in E as (s2 & E2 & E). injection E as <- _.
    eapply ok_trans; [|eapply ok_groups, E2]. destruct (sd_group e =? active_group); [|injection E1 as <- _; apply ok_refl].
    apply obind_ok in E1 as ([s3 l3] & E3 & E1). destruct (mark_selected_units s3 gl (sd_tags e)) as [s4 l4] eqn:E4. injection E1 as <- _.
    eapply ok_trans; [eapply ok_unmark, E3|eapply ok_mark, E4].
  - rewrite update_control_group_eq in E. apply obind_ok in E as ([s1 l1] & E1 & E). apply obind_ok in E as (s2 & E2 & E).
    assert (H12 : orders_kept (st_units st) (st_units s2)) by (eapply ok_trans; [eapply ok_unmark, E1|eapply ok_groups, E2]).
    destruct (cg_update e); try (injection E as <- _; exact H12).
    apply obind_ok in E as (tags & _ & E). destruct (mark_selected_units s2 gl tags) as [s4 l4] eqn:E4. injection E as <- _.
    eapply ok_trans; [exact H12|eapply ok_mark, E4].
  - unfold handle_camera_update in E. injection E as <- _. destruct (cu_target e); [apply Hc|apply ok_refl].
Qed.
Lemma props_cmd : forall b u, su_cmd (set_unit_props b u) = su_cmd u.
Proof. intros b u. unfold set_unit_props. destruct (get_unit_sized_color _ _ _) as [r c]. reflexivity. Qed.

(** The event is a command that reaches the unit [i]. *)
Definition reaches (st : state) (i : Z) (e : sc2_event) : Prop :=
  match e with EGame _ uid _ c => effective st c /\ In i (indices (selection st uid)) | ETracker _ _ => False end.
(** ... and leaves this order in it. *)
Definition leaves (st : state) (e : sc2_event) (u u' : sc2_unit) : Prop :=
  match e with EGame _ _ _ c => ordered st c u u' | ETracker _ _ => False end.

Lemma step_order : forall mc st e st' it i u', handle_transition mc st e = Ok (st', it) -> unit_of st' i = Some u' ->
  (unit_of st i = None /\ registers e = Some i /\ su_cmd u' = mk_ucmd 0 None UDNone 0 None None None) \/
  (exists u, unit_of st i = Some u /\ removes e <> Some i /\ (reaches st i e /\ leaves st e u u' \/ ~ reaches st i e /\ su_cmd u' = su_cmd u)).
Proof.
  intros mc st [gl e|gl uid n e] st' it i u' Hh Hu.
  2:{ right. cbn [reaches leaves].
      assert (D : a_command e \/ ~ a_command e) by (destruct e; cbn [a_command]; auto).
      destruct D as [D|D].
      - assert (F : effective st e \/ (match e with GCmd c => cm_abil c = None | GCmdUpdateTargetUnit t => update_target st t = None | _ => False end)).
        { destruct e; try contradiction; cbn [effective]; [destruct (cm_abil e); [left; discriminate|right; reflexivity]|left; exact I|destruct (update_target st target); [left; discriminate|right; reflexivity]]. }
        destruct F as [F|F].
        + destruct (commands_effect mc st gl uid n e st' it F Hh) as (_ & Out & In' & _). destruct (in_dec Z.eq_dec i (indices (selection st uid))) as [Hi|Hi].
          * pose proof Hh as Hg. apply transition_game in Hg as (e' & h & Hg & _). apply game_frame in Hg as (_ & Hk & _).
            pose proof (units_kept_unit st st' i Hk) as Hi2. rewrite Hu in Hi2. destruct (unit_of st i) as [u|] eqn:Eu; [|contradiction].
            exists u. split; [reflexivity|]. split; [discriminate|]. left. split; [auto|]. destruct (In' i u Hi Eu) as (u2 & E2 & _ & _ & O). rewrite Hu in E2. injection E2 as ->. exact O.
          * exists u'. split; [rewrite <- (Out i Hi); exact Hu|]. split; [discriminate|]. right. split; [tauto|reflexivity].
        + destruct (command_ineffective mc st gl uid n e st' it F Hh) as [-> _]. exists u'. split; [exact Hu|]. split; [discriminate|]. right. split; [|reflexivity].
          intros [E _]. destruct e; try contradiction; cbn [effective] in E; congruence.
      - apply transition_game in Hh as (e' & h & Hh & _). pose proof (ok_game _ _ _ _ _ _ _ D Hh i) as Hl. fold (unit_of st i) (unit_of st' i) in Hl. rewrite Hu in Hl.
        destruct (unit_of st i) as [u|]; [|contradiction]. exists u. split; [reflexivity|]. split; [discriminate|]. right. split; [|exact Hl].
        intros [E _]. apply D. destruct e; try contradiction; exact I. }
  assert (Hsame : unit_of st' i = unit_of st i -> removes (ETracker gl e) <> Some i ->
    exists u, unit_of st i = Some u /\ removes (ETracker gl e) <> Some i /\ (reaches st i (ETracker gl e) /\ leaves st (ETracker gl e) u u' \/ ~ reaches st i (ETracker gl e) /\ su_cmd u' = su_cmd u)).
  { intros E F. exists u'. split; [congruence|]. split; [exact F|]. right. split; [exact (fun x => x)|reflexivity]. }
  assert (Hkeep : forall u, unit_of st i = Some u -> removes (ETracker gl e) <> Some i -> su_cmd u' = su_cmd u ->
    exists u, unit_of st i = Some u /\ removes (ETracker gl e) <> Some i /\ (reaches st i (ETracker gl e) /\ leaves st (ETracker gl e) u u' \/ ~ reaches st i (ETracker gl e) /\ su_cmd u' = su_cmd u)).
  { intros u E F G. exists u. split; [exact E|]. split; [exact F|]. right. split; [exact (fun x => x)|exact G]. }
  pose proof Hh as Hh0. apply transition_tracker in Hh as (e' & h & Hh & _).
  destruct e; cbn [handle_tracker_event] in Hh; try (injection Hh as <- <- <-; right; apply Hsame; reflexivity || discriminate).
  - apply fst_of in Hh. subst st'. rewrite born_unit in Hu. unfold creator_touched in Hu. destruct (Z.eqb_spec (ub_index e) i) as [Ei|Hn].
    + destruct (unit_of st i) as [u|] eqn:Eu.
      * right. apply (Hkeep u); [reflexivity|discriminate|].
        destruct (match ub_creator_index e with Some c => c =? i | None => false end); cbn [option_map] in Hu; injection Hu as <-; reflexivity.
      * left. split; [reflexivity|]. split; [cbn [registers]; congruence|].
        destruct (match ub_creator_index e with Some c => c =? i | None => false end); cbn [option_map] in Hu; injection Hu as Hu; rewrite <- Hu, props_cmd; reflexivity.
    + right. destruct (match ub_creator_index e with Some c => c =? i | None => false end).
      * destruct (unit_of st i) as [u|]; [|discriminate]. cbn [option_map] in Hu. injection Hu as Hu. apply (Hkeep u); [reflexivity|discriminate|rewrite <- Hu; reflexivity].
      * apply (Hkeep u'); [exact Hu|discriminate|reflexivity].
  - pose proof (died_unit st gl e st' _ i Hh) as Hd. rewrite Hd in Hu. destruct (Z.eqb_spec (ud_index e) i) as [Ei|Hn]; [discriminate|].
    right. apply (Hkeep u'); [exact Hu|cbn [removes]; congruence|reflexivity].
  - apply fst_of in Hh. subst st'. rewrite type_unit in Hu. destruct (Z.eqb_spec (ut_index e) i) as [Ei|Hn].
    + injection Hu as Hu. destruct (unit_of st i) as [u|] eqn:Eu.
      * right. apply (Hkeep u); [reflexivity|discriminate|rewrite <- Hu, props_cmd; reflexivity].
      * left. split; [reflexivity|]. split; [cbn [registers]; congruence|]. rewrite <- Hu, props_cmd; reflexivity.
    + right. apply (Hkeep u'); [exact Hu|discriminate|reflexivity].
  - apply fst_of in Hh. subst st'. rewrite init_unit in Hu. destruct (Z.eqb_spec (ui_index e) i) as [Ei|Hn].
    + injection Hu as Hu. destruct (unit_of st i) as [u|] eqn:Eu.
      * right. apply (Hkeep u); [reflexivity|discriminate|rewrite <- Hu; reflexivity].
      * left. split; [reflexivity|]. split; [cbn [registers]; congruence|]. rewrite <- Hu, props_cmd; reflexivity.
    + right. apply (Hkeep u'); [exact Hu|discriminate|reflexivity].
  - apply fst_of in Hh. subst st'. rewrite done_unit in Hu. right. destruct (Z.eqb_spec (un_index e) i) as [Ei|Hn].
    + destruct (unit_of st i) as [u|] eqn:Eu; [|discriminate]. cbn [option_map] in Hu. injection Hu as Hu. apply (Hkeep u); [reflexivity|discriminate|]. rewrite <- Hu, props_cmd. reflexivity.
    + apply (Hkeep u'); [exact Hu|discriminate|reflexivity].
  - right. apply position_effect in Hh0 as (l & El & _ & _ & _ & Hp). rewrite Hp in Hu. destruct (unit_of st i) as [u|]; [|discriminate]. cbn [option_map] in Hu. injection Hu as Hu.
    apply (Hkeep u); [reflexivity|discriminate|]. rewrite <- Hu. destruct (last_position l i); reflexivity.
  - right. apply Hsame; [|discriminate]. apply fst_of in Hh. cbn [fst] in Hh. subst st'. unfold handle_player_setup. destruct (se_user_id e) as [w|]; [destruct (mget w (st_users st))|]; reflexivity.
Qed.

Lemma last_order : forall mc st0 evs st its i u, history mc st0 evs st its -> unit_of st i = Some u ->
  exists before e after, evs = before ++ e :: after /\ (forall e', In e' after -> removes e' <> Some i) /\
    (forall after1 e' after2 st1 its1, after = after1 ++ e' :: after2 -> history mc st0 (before ++ e :: after1) st1 its1 -> ~ reaches st1 i e') /\
    (registers e = Some i /\ ~ alive i before /\ su_cmd u = mk_ucmd 0 None UDNone 0 None None None \/
     exists st1 its1 u1, history mc st0 before st1 its1 /\ unit_of st1 i = Some u1 /\ reaches st1 i e /\ leaves st1 e u1 u).
Proof.
  intros mc st0 evs st its i u [Hs Hr]. revert st its u Hr. induction evs as [|e evs IH] using rev_ind; intros st its u Hr Hu.
  - cbn [run] in Hr. injection Hr as <- <-. destruct Hs as (init & d & b & Hs). apply starts_wf in Hs as (_ & U & _). unfold unit_of in Hu. rewrite U in Hu. discriminate.
  - apply run_snoc in Hr as (st1 & its1 & it & Hr & Hh & _).
    assert (N : forall e0 after1 e' after2, [] <> after1 ++ e' :: (after2 : list sc2_event) \/ e0 = e') by (intros e0 after1 e' after2; left; destruct after1; discriminate).
    destruct (step_order _ _ _ _ _ _ _ Hh Hu) as [(Hn & Hreg & Hc)|(u0 & Hu0 & Hrm & [(Rc & L)|(Rc & Hc)])].
    + exists evs, e, []. split; [reflexivity|]. split; [intros e' []|]. split; [intros after1 e' after2 s1 i1 E; destruct after1; discriminate|].
      left. split; [exact Hreg|]. split; [|exact Hc]. eapply not_alive_none; [split; [exact Hs|exact Hr]|exact Hn].
    + exists evs, e, []. split; [reflexivity|]. split; [intros e' []|]. split; [intros after1 e' after2 s1 i1 E; destruct after1; discriminate|].
      right. exists st1, its1, u0. split; [split; [exact Hs|exact Hr]|]. auto.
    + destruct (IH _ _ _ Hr Hu0) as (before & e0 & after & -> & Hrem & Hno & Hw). exists before, e0, (after ++ [e]). rewrite <- app_assoc. split; [reflexivity|].
      split; [intros e' He; apply in_app_or in He as [He|[<-|[]]]; auto|]. split.
      * intros after1 e' after2 s1 i1 E Hh1. destruct after2 as [|x y _] using rev_ind.
        -- apply app_inj_tail in E as [<- <-]. destruct Hh1 as [_ Hh1]. rewrite Hr in Hh1. injection Hh1 as <- _. exact Rc.
        -- rewrite app_comm_cons, app_assoc in E. apply app_inj_tail in E as [-> _]. eapply Hno; [reflexivity|exact Hh1].
      * destruct Hw as [(A & B & C)|(s1 & i1 & u1 & A & B & C & D)]; [left; split; [exact A|]; split; [exact B|congruence]|].
        right. exists s1, i1, u1. split; [exact A|]. split; [exact B|]. split; [exact C|]. destruct e0 as [|g w n c]; [contradiction|]. cbn [leaves] in *. unfold ordered in *. rewrite Hc. exact D.
Qed.
