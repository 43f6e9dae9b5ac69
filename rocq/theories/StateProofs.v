(** * Proofs about the replay state *)
From Verif Require Import Base F32 Tags Events Maps Balance Lobby Convert State StateFacts StateSpec StateSteps.
From Coq Require Import Permutation Sorted.
#[local] Open Scope Z_scope.
#[local] Open Scope list_scope.

(** A transition, taken apart. *)
Lemma transition_tracker : forall mc st gl e st' it, handle_transition mc st (ETracker gl e) = Ok (st', it) ->
  exists e' h, handle_tracker_event mc st gl e = Ok (st', (e', h)) /\ it = mk_item (ETracker gl e') h.
Proof. intros mc st gl e st' it Hh. cbn [handle_transition] in Hh. apply obind_ok in Hh as ([st1 [e' h]] & Hh & E). injection E as <- <-. eauto. Qed.
Lemma transition_game : forall mc st gl uid n e st' it, handle_transition mc st (EGame gl uid n e) = Ok (st', it) ->
  exists e' h, handle_game_event mc st gl uid e = Ok (st', (e', h)) /\ it = mk_item (EGame gl uid n e') h.
Proof. intros mc st gl uid n e st' it Hh. cbn [handle_transition] in Hh. apply obind_ok in Hh as ([st1 [e' h]] & Hh & E). injection E as <- <-. eauto. Qed.

(** ** Tracker events leave the users alone, except for deaths and setups *)
Lemma born_users : forall st gl e, st_users (fst (handle_unit_born st gl e)) = st_users st.
Proof.
  intros st gl e. unfold handle_unit_born. destruct (ub_creator_index e) as [c|]; [destruct (mget c (st_units st))|];
    destruct (mget (ub_index e) _); reflexivity.
Qed.
Lemma type_users : forall st gl e, st_users (fst (handle_unit_type_change st gl e)) = st_users st.
Proof. intros st gl e. unfold handle_unit_type_change. destruct (mget _ _); reflexivity. Qed.
Lemma done_users : forall st gl e, st_users (fst (handle_unit_done st gl e)) = st_users st.
Proof. intros st gl e. unfold handle_unit_done. destruct (mget _ _); reflexivity. Qed.
Lemma init_users : forall st gl e, st_users (fst (handle_unit_init st gl e)) = st_users st.
Proof. reflexivity. Qed.
(** What a tracker event does to the users. *)
Lemma tracker_users : forall mc st gl e st' r, wf st -> handle_tracker_event mc st gl e = Ok (st', r) ->
  match e with
  | TUnitDied x => users_lost (ud_index x) st st' /\ wf st'
  | TPlayerSetup x => st' = handle_player_setup st x
  | _ => st_users st' = st_users st
  end.
Proof.
  intros mc st gl e st' r Hw Hh. destruct e; cbn [handle_tracker_event] in Hh; try (injection Hh as <- <-; reflexivity).
  - injection Hh as Hh. rewrite <- (born_users st gl e), Hh. reflexivity.
  - unfold handle_unit_died in Hh. apply obind_ok in Hh as (users & Hm & Hh). apply retain_users_lost in Hm as (K & W & G); [|exact Hw].
    destruct (mget (ud_index e) (st_units st)); injection Hh as <- <-; (split; [split; [exact K|exact G]|exact W]).
  - injection Hh as Hh. rewrite <- (type_users st gl e), Hh. reflexivity.
  - injection Hh as Hh. rewrite <- (done_users st gl e), Hh. reflexivity.
  - unfold handle_unit_position in Hh. apply obind_ok in Hh as (l & _ & Hh). destruct (position_loop _ _ _) as [u ids]. injection Hh as <- <-. reflexivity.
Qed.
Lemma setup_user : forall st x v, user_of (handle_player_setup st x) v =
  match se_user_id x with
  | Some u => if u =? v then option_map (fun us => mk_user (set_setup (us_lobby us) (Some (se_player_id x)) (se_slot_id x)) (us_groups us) (us_camera us)) (user_of st v) else user_of st v
  | None => user_of st v
  end.
Proof.
  intros st x v. unfold handle_player_setup, user_of. destruct (se_user_id x) as [u|]; [|reflexivity].
  destruct (mget u (st_users st)) as [us|] eqn:E; cbn [with_users st_users].
  - rewrite mget_mset. destruct (Z.eqb_spec u v) as [<-|]; [rewrite E|]; reflexivity.
  - destruct (Z.eqb_spec u v) as [<-|]; [rewrite E|]; reflexivity.
Qed.
Lemma setup_wf : forall st x, wf st -> wf (handle_player_setup st x).
Proof.
  intros st x Hw. unfold handle_player_setup. destruct (se_user_id x) as [u|]; [|exact Hw].
  destruct (mget u (st_users st)) as [us|] eqn:E; [|exact Hw]. unfold wf. cbn. apply wf_mset; [exact Hw|].
  exact (wf_get st u us Hw E).
Qed.
Lemma step_wf : forall mc st e st' it, wf st -> handle_transition mc st e = Ok (st', it) -> wf st'.
Proof.
  intros mc st [gl e|gl uid n e] st' it Hw Hh.
  - apply transition_tracker in Hh as (e' & h & Hh & _). pose proof (tracker_users _ _ _ _ _ _ Hw Hh) as Hu.
    destruct e; try (unfold wf; rewrite Hu; exact Hw); [apply Hu|subst st'; apply setup_wf, Hw].
  - apply transition_game in Hh as (e' & h & Hh & _). apply game_frame in Hh as (_ & _ & Hc). eapply user_change_wf; eauto.
Qed.
Lemma run_ind' : forall mc (P : state -> Prop) evs st st' its, P st ->
  (forall st e st' it, In e evs -> P st -> handle_transition mc st e = Ok (st', it) -> P st') ->
  run mc st evs = Ok (st', its) -> P st'.
Proof.
  intros mc P. induction evs as [|e evs IH]; intros st st' its Hp Hs Hr; cbn [run] in Hr; [injection Hr as <- <-; exact Hp|].
  apply obind_ok in Hr as ([st1 it] & H1 & Hr). apply obind_ok in Hr as ([st2 its2] & H2 & Hr). injection Hr as <- <-.
  eapply IH; [| |exact H2].
  - eapply Hs; [left; reflexivity|exact Hp|exact H1].
  - intros. eapply Hs; [right; eassumption|eassumption|eassumption].
Qed.
Lemma history_wf : forall mc st0 evs st its, history mc st0 evs st its -> wf st.
Proof.
  intros mc st0 evs st its ((init & d & b & Hs) & Hr). apply starts_wf in Hs as (Hw & _).
  eapply (run_ind' mc wf); [exact Hw| |exact Hr]. intros. eapply step_wf; eauto.
Qed.
Lemma reachable_wf : forall mc st, reachable mc st -> wf st.
Proof. intros mc st (st0 & evs & its & Hh). eapply history_wf; eauto. Qed.
(** Histories extend to the right. *)
Lemma run_app : forall mc evs1 st evs2 st1 its1, run mc st evs1 = Ok (st1, its1) ->
  run mc st (evs1 ++ evs2) = (do (st2, its2) <- run mc st1 evs2; Ok (st2, its1 ++ its2)).
Proof.
  intros mc. induction evs1 as [|e evs1 IH]; intros st evs2 st1 its1 Hr; cbn [run app] in *.
  - injection Hr as <- <-. destruct (run mc st evs2) as [[s i]| |]; reflexivity.
  - apply obind_ok in Hr as ([sta it] & H1 & Hr). apply obind_ok in Hr as ([stb its] & H2 & Hr). injection Hr as <- <-.
    rewrite H1. cbn [obind]. rewrite (IH _ evs2 _ _ H2). destruct (run mc stb evs2) as [[s i]| |]; reflexivity.
Qed.
Lemma reachable_step : forall mc st e st' it, reachable mc st -> handle_transition mc st e = Ok (st', it) -> reachable mc st'.
Proof.
  intros mc st e st' it (st0 & evs & its & Hs & Hr) Hh. exists st0, (evs ++ [e]), (its ++ [it]). split; [exact Hs|].
  rewrite (run_app _ _ _ _ _ _ Hr). cbn [run]. rewrite Hh. reflexivity.
Qed.

(** ** Which units are registered *)
Lemma props_index : forall b u, su_index (set_unit_props b u) = su_index u.
Proof. reflexivity. Qed.
Definition index_inv (st : state) : Prop := forall i u, unit_of st i = Some u -> su_index u = i.

Lemma init_unit : forall st gl e i, unit_of (fst (handle_unit_init st gl e)) i =
  if ui_index e =? i then
    Some (match unit_of st i with
          | Some u => set_name (ui_name e) (set_is_init true (set_pos (f32_of_int (ui_x e), f32_of_int (ui_y e), f32_zero) (set_loop gl u)))
          | None => set_unit_props (st_balance st)
              (mk_unit (ui_index e) gl (Some (ui_control e)) (player_name_of (st_users st) (ui_control e)) (ui_name e)
                 (f32_of_int (ui_x e), f32_of_int (ui_y e), f32_zero) gl None None f32_zero (0, 0, 0, 0) false true default_cmd)
          end)
  else unit_of st i.
Proof.
  intros st gl e i. unfold handle_unit_init, unit_of. cbn [fst with_units st_units].
  destruct (mget (ui_index e) (st_units st)) as [u|] eqn:E; rewrite mget_mset; destruct (Z.eqb_spec (ui_index e) i) as [<-|]; rewrite ?E; reflexivity.
Qed.
(** The creator's update of [UnitBorn]. *)
Definition creator_touched (gl : Z) (c : option Z) (i : Z) (o : option sc2_unit) : option sc2_unit :=
  if match c with Some c => c =? i | None => false end then option_map (set_loop gl) o else o.
Lemma born_unit : forall st gl e i, unit_of (fst (handle_unit_born st gl e)) i =
  if ub_index e =? i then
    Some (match creator_touched gl (ub_creator_index e) i (unit_of st i) with
          | Some u => set_loop gl (set_ability (ub_creator_ability e) u)
          | None => set_unit_props (st_balance st)
              (mk_unit (ub_index e) gl (Some (ub_control e)) (player_name_of (st_users st) (ub_control e)) (ub_name e)
                 (f32_of_int (ub_x e), f32_of_int (ub_y e), f32_zero) gl None None f32_zero (0, 0, 0, 0) false false default_cmd)
          end)
  else creator_touched gl (ub_creator_index e) i (unit_of st i).
Proof.
  intros st gl e i. unfold handle_unit_born, unit_of.
  set (cc := match ub_creator_index e with Some c => match mget c (st_units st) with Some u => (mset c (set_loop gl u) (st_units st), Some (set_loop gl u)) | None => (st_units st, None) end | None => (st_units st, None) end).
  assert (Hcc : forall j, mget j (fst cc) = creator_touched gl (ub_creator_index e) j (mget j (st_units st))).
  { intros j. unfold cc, creator_touched. destruct (ub_creator_index e) as [c|]; [|reflexivity].
    destruct (mget c (st_units st)) as [u|] eqn:E; cbn [fst].
    - rewrite mget_mset. destruct (Z.eqb_spec c j) as [<-|]; [rewrite E|]; reflexivity.
    - destruct (Z.eqb_spec c j) as [<-|]; [rewrite E|]; reflexivity. }
  destruct cc as [units creator]. cbn [fst] in Hcc.
  destruct (mget (ub_index e) units) as [u|] eqn:E; cbn [fst with_units st_units]; rewrite mget_mset, Hcc;
    destruct (Z.eqb_spec (ub_index e) i) as [<-|]; try reflexivity; rewrite <- Hcc, E; reflexivity.
Qed.
Lemma type_unit : forall st gl e i, unit_of (fst (handle_unit_type_change st gl e)) i =
  if ut_index e =? i then
    Some (set_unit_props (st_balance st) (match unit_of st i with
          | Some u => set_loop gl (set_name (ut_name e) u)
          | None => mk_unit (ut_index e) gl None None (ut_name e) vec3_zero gl None None f32_zero (0, 0, 0, 0) false false default_cmd
          end))
  else unit_of st i.
Proof.
  intros st gl e i. unfold handle_unit_type_change, unit_of.
  destruct (mget (ut_index e) (st_units st)) as [u|] eqn:E; cbn [fst with_units st_units]; rewrite mget_mset; destruct (Z.eqb_spec (ut_index e) i) as [<-|]; rewrite ?E; reflexivity.
Qed.
Lemma done_unit : forall st gl e i, unit_of (fst (handle_unit_done st gl e)) i =
  if un_index e =? i then option_map (fun u => set_unit_props (st_balance st) (set_is_init false (set_loop gl u))) (unit_of st i)
  else unit_of st i.
Proof.
  intros st gl e i. unfold handle_unit_done, unit_of.
  destruct (mget (un_index e) (st_units st)) as [u|] eqn:E; cbn [fst with_units st_units]; rewrite ?mget_mset; destruct (Z.eqb_spec (un_index e) i) as [<-|]; rewrite ?E; reflexivity.
Qed.
Lemma died_unit : forall st gl e st' r i, handle_unit_died st gl e = Ok (st', r) ->
  unit_of st' i = if ud_index e =? i then None else unit_of st i.
Proof.
  intros st gl e st' r i Hh. unfold handle_unit_died in Hh. apply obind_ok in Hh as (users & _ & Hh). unfold unit_of.
  destruct (mget (ud_index e) (st_units st)) as [u|] eqn:E; injection Hh as <- <-; cbn [with_units with_users st_units].
  - apply mget_mdel.
  - destruct (Z.eqb_spec (ud_index e) i) as [<-|]; [exact E|reflexivity].
Qed.
Lemma units_kept_unit : forall st st' i, units_kept st st' ->
  match unit_of st i, unit_of st' i with Some u, Some v => same_identity u v | None, None => True | _, _ => False end.
Proof.
  intros st st' i (h & A & I). unfold unit_of. rewrite A. destruct (mget i (st_units st)) as [u|]; cbn; [apply I|exact Logic.I].
Qed.
Lemma position_unit : forall mc st gl e st' r i, handle_unit_position mc st gl e = Ok (st', r) ->
  match unit_of st i, unit_of st' i with Some u, Some v => su_index v = su_index u | None, None => True | _, _ => False end.
Proof.
  intros mc st gl e st' r i Hh. unfold handle_unit_position in Hh. apply obind_ok in Hh as (l & _ & Hh).
  destruct (position_loop gl l (st_units st)) as [units ids] eqn:E. injection Hh as <- <-.
  apply position_loop_acts in E as (h & A & I & _). unfold unit_of. cbn [with_units st_units]. rewrite A.
  destruct (mget i (st_units st)) as [u|]; cbn; [apply I|exact Logic.I].
Qed.
Lemma fst_of : forall A B (x : A * B) a b, Ok x = Ok (a, b) -> a = fst x.
Proof. intros A B x a b E. injection E as ->. reflexivity. Qed.

(** One step: which units are registered, and under which index. *)
Lemma step_units : forall mc st e st' it i, handle_transition mc st e = Ok (st', it) ->
  (unit_of st' i <> None <-> registers e = Some i \/ (unit_of st i <> None /\ removes e <> Some i)) /\
  (index_inv st -> index_inv st').
Proof.
  intros mc st [gl e|gl uid n e] st' it i Hh.
  2:{ apply transition_game in Hh as (e' & h & Hh & _). apply game_frame in Hh as (_ & Hk & _). cbn [registers removes]. split.
      - pose proof (units_kept_unit st st' i Hk) as Hi. destruct (unit_of st i), (unit_of st' i); try contradiction; intuition congruence.
      - intros Hinv j u Hu. pose proof (units_kept_unit st st' j Hk) as Hi. rewrite Hu in Hi.
        destruct (unit_of st j) as [w|] eqn:Ew; [|contradiction]. destruct Hi as (Hi & _). rewrite Hi. apply Hinv, Ew. }
  apply transition_tracker in Hh as (e' & h & Hh & _).
  assert (Hsame : forall st1, st_units st1 = st_units st -> (unit_of st1 i <> None <-> None = Some i \/ (unit_of st i <> None /\ None <> Some i)) /\ (index_inv st -> index_inv st1)).
  { intros st1 E. unfold unit_of, index_inv, unit_of. rewrite E. split; [intuition congruence|auto]. }
  destruct e; cbn [handle_tracker_event registers removes] in *; try (injection Hh as <- <- <-; apply Hsame; reflexivity).
  - apply fst_of in Hh. subst st'. rewrite born_unit. unfold creator_touched. split.
    + destruct (Z.eqb_spec (ub_index e) i) as [<-|Hn]; [intuition congruence|].
      destruct (match ub_creator_index e with Some c => c =? i | None => false end), (unit_of st i); cbn; intuition congruence.
    + intros Hinv j u. rewrite born_unit. unfold creator_touched. destruct (Z.eqb_spec (ub_index e) j) as [<-|Hn].
      * intros E. injection E as <-.
        destruct (unit_of st (ub_index e)) as [w|] eqn:Ew; destruct (match ub_creator_index e with Some c => c =? ub_index e | None => false end); cbn; try reflexivity; exact (Hinv _ _ Ew).
      * destruct (unit_of st j) as [w|] eqn:Ew; destruct (match ub_creator_index e with Some c => c =? j | None => false end); cbn; intros E; try discriminate; injection E as <-; exact (Hinv _ _ Ew).
  - pose proof (died_unit st gl e st' _ i Hh) as Hd. rewrite Hd. split.
    + destruct (Z.eqb_spec (ud_index e) i) as [->|Hn]; intuition congruence.
    + intros Hinv j u. rewrite (died_unit st gl e st' _ j Hh). destruct (ud_index e =? j); [discriminate|apply Hinv].
  - apply fst_of in Hh. subst st'. rewrite type_unit. split.
    + destruct (Z.eqb_spec (ut_index e) i) as [<-|Hn]; intuition congruence.
    + intros Hinv j u. rewrite type_unit. destruct (Z.eqb_spec (ut_index e) j) as [<-|Hn]; [|apply Hinv].
      intros E. injection E as <-. destruct (unit_of st (ut_index e)) as [w|] eqn:Ew; [apply (Hinv _ _ Ew)|reflexivity].
  - apply fst_of in Hh. subst st'. rewrite init_unit. split.
    + destruct (Z.eqb_spec (ui_index e) i) as [<-|Hn]; intuition congruence.
    + intros Hinv j u. rewrite init_unit. destruct (Z.eqb_spec (ui_index e) j) as [<-|Hn]; [|apply Hinv].
      intros E. injection E as <-. destruct (unit_of st (ui_index e)) as [w|] eqn:Ew; [apply (Hinv _ _ Ew)|reflexivity].
  - apply fst_of in Hh. subst st'. rewrite done_unit. split.
    + destruct (un_index e =? i), (unit_of st i); cbn; intuition congruence.
    + intros Hinv j u. rewrite done_unit. destruct (Z.eqb_spec (un_index e) j) as [<-|Hn]; [|apply Hinv].
      destruct (unit_of st (un_index e)) as [w|] eqn:Ew; cbn; intros E; [injection E as <-; apply (Hinv _ _ Ew)|discriminate].
  - split.
    + pose proof (position_unit mc st gl e st' _ i Hh) as Hi. destruct (unit_of st i), (unit_of st' i); try contradiction; intuition congruence.
    + intros Hinv j u Hu. pose proof (position_unit mc st gl e st' _ j Hh) as Hi. rewrite Hu in Hi.
      destruct (unit_of st j) as [w|] eqn:Ew; [|contradiction]. rewrite Hi. apply Hinv, Ew.
  - apply fst_of in Hh. cbn in Hh. subst st'. apply Hsame. unfold handle_player_setup. destruct (se_user_id e) as [u|]; [destruct (mget u (st_users st))|]; reflexivity.
Qed.

Lemma units_indexed : forall mc st i u, reachable mc st -> unit_of st i = Some u -> su_index u = i.
Proof.
  intros mc st i u (st0 & evs & its & (init & d & b & Hs) & Hr). revert i u.
  eapply (run_ind' mc index_inv); [| |exact Hr].
  - apply starts_wf in Hs as (_ & Hu & _). intros i u. unfold unit_of. rewrite Hu. discriminate.
  - intros st1 e st2 it _ Hi Hh. apply (step_units _ _ _ _ _ 0 Hh). exact Hi.
Qed.

Lemma alive_app : forall i evs e, alive i (evs ++ [e]) <-> registers e = Some i \/ (alive i evs /\ removes e <> Some i).
Proof.
  intros i evs e. split.
  - intros (b & e0 & a & E & Hr & Hn). destruct a as [|x a _] using rev_ind.
    + apply app_inj_tail in E as [_ <-]. left. exact Hr.
    + change (b ++ e0 :: a ++ [x]) with (b ++ (e0 :: a) ++ [x]) in E. rewrite app_assoc in E. apply app_inj_tail in E as [-> <-].
      right. split.
      * exists b, e0, a. split; [reflexivity|]. split; [exact Hr|]. intros e' He. apply Hn. apply in_or_app. left. exact He.
      * apply Hn. apply in_or_app. right. left. reflexivity.
  - intros [Hr|[(b & e0 & a & -> & Hr & Hn) Hk]].
    + exists evs, e, []. split; [reflexivity|]. split; [exact Hr|]. intros e' [].
    + exists b, e0, (a ++ [e]). split; [rewrite <- app_assoc; reflexivity|]. split; [exact Hr|].
      intros e' He. apply in_app_or in He as [He|[<-|[]]]; [apply Hn, He|exact Hk].
Qed.
(** Histories taken from the right. *)
Lemma run_snoc : forall mc evs st e st' its, run mc st (evs ++ [e]) = Ok (st', its) ->
  exists st1 its1 it, run mc st evs = Ok (st1, its1) /\ handle_transition mc st1 e = Ok (st', it) /\ its = its1 ++ [it].
Proof.
  intros mc. induction evs as [|a evs IH]; intros st e st' its Hr; cbn [app run] in *.
  - apply obind_ok in Hr as ([st1 it] & H1 & Hr). injection Hr as <- <-. exists st, [], it. auto.
  - apply obind_ok in Hr as ([st1 it] & H1 & Hr). apply obind_ok in Hr as ([st2 its2] & H2 & Hr). injection Hr as <- <-.
    apply IH in H2 as (sta & itsa & ita & Ha & Hb & ->). exists sta, (it :: itsa), ita. rewrite H1. cbn [obind]. rewrite Ha. auto.
Qed.
Lemma registered_alive : forall mc st0 evs st its i, history mc st0 evs st its ->
  (unit_of st i <> None <-> alive i evs).
Proof.
  intros mc st0 evs st its i ((init & d & b & Hs) & Hr). apply starts_wf in Hs as (_ & Hu & _). revert st its Hr.
  induction evs as [|e evs IH] using rev_ind; intros st its Hr.
  - cbn in Hr. injection Hr as <- <-. unfold unit_of. rewrite Hu. split; [cbn; congruence|].
    intros (bb & e & a & E & _). destruct bb; discriminate.
  - apply run_snoc in Hr as (st1 & its1 & it & H1 & H2 & _). rewrite alive_app, <- (IH _ _ H1).
    apply (step_units _ _ _ _ _ i H2).
Qed.
(** Game events never change which units are registered. *)
Lemma game_registered : forall mc st gl uid n e st' it i, handle_transition mc st (EGame gl uid n e) = Ok (st', it) ->
  (unit_of st' i <> None <-> unit_of st i <> None).
Proof. intros mc st gl uid n e st' it i Hh. pose proof (step_units _ _ _ _ _ i Hh) as [Hs _]. rewrite Hs. cbn. intuition congruence. Qed.
