(** * The tables of commands: proofs *)
From Verif Require Import Base Types F32 Tags Events Maps Lobby Balance Convert ConvertSpec Stream Iterators Dispatch BitTypes BitFormat StreamSpec IteratorStreams State StateFacts StateSpec StateSteps StateProofs StateEvents StateMore Merge MergeSpec MergeFacts DetailsData Rows RowSpec RowFacts.
#[local] Open Scope string_scope.
#[local] Open Scope Z_scope.
#[local] Open Scope list_scope.

Lemma stored_acts : forall A (f f' : sc2_unit -> A) h units units' ids, acts h units units' ->
  (forall i u, In i ids -> mget i units = Some u -> f' (h i u) = f u) -> map f' (stored_units units' ids) = map f (stored_units units ids).
Proof.
  intros A f f' h units units' ids Ha. induction ids as [|i ids IH]; intros Hf; cbn [stored_units map]; [reflexivity|]. rewrite Ha.
  destruct (mget i units) as [u|] eqn:E; cbn [option_map map]; [rewrite (Hf i u) by (auto; left; reflexivity); f_equal|]; apply IH; intros j v Hj; apply Hf; right; exact Hj.
Qed.
Lemma last_name_last : forall units tags n, last_name units tags n =
  match stored_units units (map unit_tag_index tags) with [] => n | l => Some (last (map su_name l) "") end.
Proof.
  intros units. induction tags as [|t tags IH]; intros n; cbn [last_name map stored_units]; [reflexivity|]. rewrite IH.
  destruct (mget (unit_tag_index t) units) as [u|]; [|reflexivity]. destruct (stored_units units (map unit_tag_index tags)); reflexivity.
Qed.
Lemma named_in : forall tags i, In i (map unit_tag_index tags) -> named tags i = true.
Proof. intros tags i Hi. apply named_map, Hi. Qed.
(** One command. *)
Lemma cmd_items : forall mc st l uid n c st' it, wf st -> handle_transition mc st (EGame l uid n (GCmd c)) = Ok (st', it) ->
  exists us c' tg, it = mk_item (EGame l uid n (GCmd c')) (HAbilities us c' tg) /\ cm_data c' = cm_data c /\
    match cm_abil c with
    | None => us = []
    | Some a =>
        map (fun u => (su_name u, uc_other_name (su_cmd u))) us =
        map (fun u => (su_name u, match cm_data c with CDUnit t => option_map su_name (unit_of st (tu_tag t)) | _ => None end)) (commanded_units st uid) /\
        (us <> [] -> c' = mk_cmd (cm_flags c) (Some (mk_abil (ab_link a) (command_name st uid a) (ab_index a) (ab_data a))) (cm_data c) (cm_sequence c) (cm_other c) (cm_group c))
    end.
Proof.
  intros mc st l uid n c st' it Hw Hh. apply transition_game in Hh as (e' & h & Hh & ->). cbn [handle_game_event] in Hh. unfold handle_cmd in Hh.
  rewrite (active_units_wf st uid Hw) in Hh. cbn [obind] in Hh.
  set (tg := match cm_data c with CDUnit t => mget (tu_tag t) (st_units st) | _ => None end) in *.
  destruct (cmd_loop _ l _ (selection st uid) c (st_units st)) as [units [c' us]] eqn:E. injection Hh as <- <- <-. exists us, c', tg.
  split; [reflexivity|]. destruct (cm_abil c) as [a|] eqn:Ea.
  2:{ rewrite cmd_loop_none in E by exact Ea. injection E as _ <- <-. split; reflexivity. }
  apply cmd_loop_acts in E as (A & B & C); [|congruence]. rewrite last_name_last in C.
  change (stored_units (st_units st) (map unit_tag_index (selection st uid))) with (stored_units (st_units st) (indices (selection st uid))) in C. rewrite stored_units_at in C.
  change (units_at st (indices (selection st uid))) with (commanded_units st uid) in C.
  assert (Hd : cm_data c' = cm_data c) by (subst c'; destruct (commanded_units st uid); [reflexivity|]; unfold with_ability; rewrite Ea; reflexivity).
  split; [exact Hd|]. subst us. assert (Hm : map (fun u => (su_name u, uc_other_name (su_cmd u))) (stored_units units (map unit_tag_index (selection st uid))) =
    map (fun u => (su_name u, match cm_data c with CDUnit t => option_map su_name (unit_of st (tu_tag t)) | _ => None end)) (commanded_units st uid)).
  { unfold commanded_units, indices. rewrite <- stored_units_at. eapply stored_acts; [exact A|]. intros i u Hi _. unfold on_named. rewrite (named_in _ _ Hi). unfold commanded. cbn. unfold tg, unit_of. f_equal. destruct (cm_data c) as [|q|t|q]; cbn; try reflexivity; try (destruct (mget (tu_tag t) (st_units st)); reflexivity). }
  split; [exact Hm|]. intros Hne. subst c'. destruct (commanded_units st uid) as [|x xs] eqn:Ex.
  - exfalso. apply Hne. destruct (stored_units units _); [reflexivity|discriminate].
  - unfold with_ability, command_name. rewrite Ea, Ex. reflexivity.
Qed.
Lemma map_pair : forall A B C (f : A -> B * C) l l' D (g : B -> C -> D), map f l = l' -> map (fun a => g (fst (f a)) (snd (f a))) l = map (fun x => g (fst x) (snd x)) l'.
Proof. intros A B C f l l' D g <-. rewrite map_map. reflexivity. Qed.
Lemma points_item : forall mc fs st l uid n c st' it, wf st -> handle_transition mc st (EGame l uid n (GCmd c)) = Ok (st', it) ->
  points_of_item fs it = point_spec fs (st, EGame l uid n (GCmd c)).
Proof.
  intros mc fs st l uid n c st' it Hw Hh. apply cmd_items in Hh as (us & c' & tg & -> & Hd & Hm); [|exact Hw]. unfold points_of_item, point_spec, point_rows_new. cbn [it_event it_hint fst snd]. rewrite Hd.
  destruct (cm_abil c) as [a|]; [|subst us; destruct (cm_data c); reflexivity]. destruct (cm_data c) as [|q|t|q] eqn:Ed; try reflexivity. destruct Hm as [Hm Hc].
  destruct us as [|x us]; [destruct (commanded_units st uid); [reflexivity|discriminate]|]. rewrite Hc by discriminate. cbn [abil_link_of abil_index_of abil_name_of cm_abil cm_flags cm_sequence cm_group ab_link ab_index ab_name].
  apply (map_pair _ _ _ _ _ _ _ (fun a0 (_ : option string) => mk_point_row uid n (cm_flags c) (Some (ab_link a)) (Some (ab_index a)) (command_name st uid a) (co_x q) (co_y q) (co_z q) (cm_sequence c) (cm_group c) a0 l (game_seconds l) fs)) in Hm.
  cbn [fst snd] in Hm. rewrite Hm, map_map. reflexivity.
Qed.
Lemma targets_item : forall mc fs st l uid n c st' it, wf st -> handle_transition mc st (EGame l uid n (GCmd c)) = Ok (st', it) ->
  targets_of_item fs it = target_spec fs (st, EGame l uid n (GCmd c)).
Proof.
  intros mc fs st l uid n c st' it Hw Hh. apply cmd_items in Hh as (us & c' & tg & -> & Hd & Hm); [|exact Hw]. unfold targets_of_item, target_spec, target_rows_new. cbn [it_event it_hint fst snd]. rewrite Hd.
  destruct (cm_abil c) as [a|]; [|subst us; destruct (cm_data c); reflexivity]. destruct (cm_data c) as [|q|t|q] eqn:Ed; try reflexivity. destruct Hm as [Hm Hc].
  destruct us as [|x us]; [destruct (commanded_units st uid); [reflexivity|discriminate]|]. rewrite Hc by discriminate. cbn [abil_link_of abil_index_of abil_name_of cm_abil cm_flags cm_sequence cm_group ab_link ab_index ab_name].
  apply (map_pair _ _ _ _ _ _ _ (fun a0 o => mk_target_row uid n (cm_flags c) (Some (ab_link a)) (Some (ab_index a)) (command_name st uid a)
          (tu_flags t) (tu_tag t) (tu_link t) (tu_control t) (tu_upkeep t) (co_x (tu_point t)) (co_y (tu_point t)) (co_z (tu_point t))
          (cm_sequence c) a0 (match o with Some s => s | None => "" end) l (game_seconds l) fs)) in Hm.
  cbn [fst snd] in Hm. rewrite Hm, map_map. apply map_ext. intros u. cbn [fst snd]. f_equal. destruct (unit_of st (tu_tag t)); reflexivity.
Qed.
(** The tables. *)
Lemma game_table : forall mc A (rows : item -> list A) (f : state * sc2_event -> list A),
  (forall st e st' it, wf st -> handle_transition mc st e = Ok (st', it) -> rows it = f (st, e)) ->
  forall evs st st' its, wf st -> run mc st evs = Ok (st', its) -> flat_map rows its = flat_map f (states_before mc st evs).
Proof.
  intros mc A rows f Hf. induction evs as [|e evs IH]; intros st st' its Hw Hr; cbn [run states_before] in *; [injection Hr as _ <-; reflexivity|].
  apply obind_ok in Hr as ([st1 i] & E1 & Hr). apply obind_ok in Hr as ([st2 is] & E2 & Hr). injection Hr as <- <-. rewrite E1. cbn [flat_map].
  rewrite (Hf _ _ _ _ Hw E1). f_equal. eapply IH; [eapply step_wf; eassumption|exact E2].
Qed.
Lemma other_game : forall mc st l uid n e st' it, handle_transition mc st (EGame l uid n e) = Ok (st', it) -> (forall c, e <> GCmd c) ->
  forall l' u' n' c, it_event it <> EGame l' u' n' (GCmd c).
Proof.
  intros mc st l uid n e st' it Hh Hn l' u' n' c Ec. apply transition_game in Hh as (e' & h & Hh & ->). cbn [it_event] in Ec. injection Ec as _ _ _ ->.
  destruct e; cbn [handle_game_event] in Hh; try (injection Hh as _ Hh _; subst; discriminate).
  - eapply Hn. reflexivity.
  - unfold handle_selection_delta in Hh. destruct (sd_group e =? active_group).
    + apply obind_ok in Hh as ([st1 l1] & _ & Hh). apply obind_ok in Hh as (st2 & _ & Hh). discriminate.
    + cbn [obind] in Hh. apply obind_ok in Hh as (st2 & _ & Hh). discriminate.
  - unfold update_control_group in Hh. apply obind_ok in Hh as ([st1 l1] & _ & Hh).
    destruct (cg_update e); repeat (apply obind_ok in Hh as (? & _ & Hh)); try discriminate. destruct (mark_selected_units _ _ _). discriminate.
  - unfold handle_update_target_point in Hh. apply obind_ok in Hh as (tags & _ & Hh). destruct (target_loop _ _ _). discriminate.
  - unfold handle_update_target_unit in Hh. destruct (match mget (tu_tag target) (st_units st) with Some x => Some x | None => _ end); [|discriminate].
    apply obind_ok in Hh as (tags & _ & Hh). destruct (target_loop _ _ _). discriminate.
Qed.
Lemma commands_collected : forall mc p A (rows : item -> list A) f,
  (forall st e st' it, wf st -> handle_transition mc st e = Ok (st', it) -> rows it = f (st, e)) ->
  forall init d b st tevs t gevs g res, starts init d b st -> sectors_of mc p tevs t gevs g ->
  table mc p rows (merge_start st t g None) = Ok res -> exists ts gs evs,
    tracker_events_of tevs ts /\ Forall2 (delivered_as (player_names st)) (filter supported_game (at_loops 0 gevs)) gs /\
    interleaving (map tracker_item ts) (map game_item_event gs) evs /\ res = flat_map f (states_before mc st evs).
Proof.
  intros mc p A rows f Hf init d b st tevs t gevs g res Hst Hp E. destruct (sectors_collected mc p init d b st tevs t gevs g Hst Hp) as (ts & gs & evs & F1 & F2 & I & C).
  unfold table in E. rewrite C in E. apply obind_ok in E as (its & Ei & E). injection E as <-. unfold items_of in Ei. apply obind_ok in Ei as ([st' its'] & Er & Ei). injection Ei as <-.
  exists ts, gs, evs. split; [exact F1|]. split; [exact F2|]. split; [exact I|]. eapply game_table; [exact Hf|apply (starts_wf _ _ _ _ Hst)|exact Er].
Qed.
Lemma points_step : forall mc fs st e st' it, wf st -> handle_transition mc st e = Ok (st', it) -> points_of_item fs it = point_spec fs (st, e).
Proof.
  intros mc fs st [l e|l uid n e] st' it Hw Hh.
  - unfold points_of_item, point_spec. rewrite (tracker_item_event _ _ _ _ _ _ Hh). reflexivity.
  - assert (Hc : (exists c, e = GCmd c) \/ forall c, e <> GCmd c) by (destruct e; try (right; discriminate); left; eauto). destruct Hc as [[c ->]|Hc].
    + eapply points_item; eassumption.
    + assert (Hp : point_spec fs (st, EGame l uid n e) = []) by (unfold point_spec; cbn [snd]; destruct e; try reflexivity; exfalso; eapply Hc; reflexivity). rewrite Hp.
      pose proof (other_game _ _ _ _ _ _ _ _ Hh Hc) as Ho. unfold points_of_item. destruct (it_event it) as [|l' u' n' e']; [reflexivity|]. destruct e'; try reflexivity. exfalso. eapply Ho. reflexivity.
Qed.
Lemma targets_step : forall mc fs st e st' it, wf st -> handle_transition mc st e = Ok (st', it) -> targets_of_item fs it = target_spec fs (st, e).
Proof.
  intros mc fs st [l e|l uid n e] st' it Hw Hh.
  - unfold targets_of_item, target_spec. rewrite (tracker_item_event _ _ _ _ _ _ Hh). reflexivity.
  - assert (Hc : (exists c, e = GCmd c) \/ forall c, e <> GCmd c) by (destruct e; try (right; discriminate); left; eauto). destruct Hc as [[c ->]|Hc].
    + eapply targets_item; eassumption.
    + assert (Hp : target_spec fs (st, EGame l uid n e) = []) by (unfold target_spec; cbn [snd]; destruct e; try reflexivity; exfalso; eapply Hc; reflexivity). rewrite Hp.
      pose proof (other_game _ _ _ _ _ _ _ _ Hh Hc) as Ho. unfold targets_of_item. destruct (it_event it) as [|l' u' n' e']; [reflexivity|]. destruct e'; try reflexivity. exfalso. eapply Ho. reflexivity.
Qed.
