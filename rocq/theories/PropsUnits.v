(** * C127: the record of a unit tells its story *)
From Verif Require Import Base F32 Tags Events Maps Balance Lobby Convert State StateFacts StateSpec StateExample MergeSpec UnitStory.
#[local] Open Scope string_scope.
#[local] Open Scope Z_scope.
#[local] Open Scope list_scope.

(** C127, false for the owner: a change of owner is not recorded. *)
Theorem C127_owner_refuted : exists mc st0 evs st its i u gl x, history mc st0 (evs ++ [ETracker gl (TUnitOwnerChange x)]) st its /\
  uo_index x = i /\ unit_of st i = Some u /\ su_user u = Some 1 /\ uo_control x = 2.
Proof.
  pose (x := mk_unit_owner 7 1 2 2). pose (evs := ex_events ++ [ETracker 9 (TUnitOwnerChange x)]).
  assert (B : match run ex_mc ex_start evs with Ok (st, _) => match unit_of st 7 with Some u => su_user u = Some 1 | None => False end | _ => False end) by (vm_compute; reflexivity).
  destruct (run ex_mc ex_start evs) as [[st its]|e|] eqn:E; try contradiction. destruct (unit_of st 7) as [u|] eqn:Eu; [|contradiction].
  exists ex_mc, ex_start, ex_events, st, its, 7, u, 9, x. split; [split; [exists ex_init, ex_details, ex_balance; exact ex_starts|exact E]|].
  split; [reflexivity|]. split; [exact Eu|]. split; [exact B|reflexivity].
Qed.
Print Assumptions C127_owner_refuted.
(** For every registered unit there is the event that registered it, the first
    since it was last removed, and its record is what this event and the later
    ones say: creation loop, owner and owner's name from that event, name, place,
    state of construction and creator ability from the last event that says
    something about them, and the last update is the loop of one of them. *)
Theorem C127_story_partial : forall mc st0 evs st its i u, history mc st0 evs st its -> unit_of st i = Some u ->
  exists before e after st1 its1, evs = before ++ e :: after /\ ~ alive i before /\ registers e = Some i /\ (forall e', In e' after -> removes e' <> Some i) /\
    history mc st0 before st1 its1 /\
    su_init_loop u = event_loop e /\ su_user u = first_owner e /\ su_creator u = None /\
    match first_owner e with Some p => names_player before st1 p (su_player u) | None => su_player u = None end /\
    su_name u = latest (new_name i) after (first_name e) /\ su_pos u = latest (new_place (mc_build mc) i) after (first_place e) /\
    su_is_init u = latest (new_building i) after (first_building e) /\ su_ability u = latest (new_ability i) after None /\
    exists e', In e' (e :: after) /\ su_loop u = event_loop e'.
Proof. exact unit_story. Qed.
Print Assumptions C127_story_partial.
(** When the loops of the history never go back, a unit is created before its
    last update, and that is not after the last event. *)
Theorem C127_times : forall mc st0 evs st its i u, history mc st0 evs st its -> unit_of st i = Some u -> in_order (map event_loop evs) ->
  su_init_loop u <= su_loop u /\ forall e, last_some (fun x => Some x) evs = Some e -> su_loop u <= event_loop e.
Proof. exact unit_times. Qed.
Print Assumptions C127_times.
(** Unit 7: created at loop 1, updated at loop 5. *)
Example C127_example : exists u, history ex_mc ex_start ex_events ex_state (snd (ex_run ex_events)) /\ unit_of ex_state 7 = Some u /\ in_order (map event_loop ex_events) /\
  su_init_loop u = 1 /\ su_loop u = 5 /\ su_user u = Some 1 /\ su_player u = Some "ana" /\ su_name u = "SCV".
Proof.
  destruct (unit_of ex_state 7) as [u|] eqn:Eu; [|vm_compute in Eu; discriminate]. exists u. split; [exact ex_history|]. split; [reflexivity|].
  split; [cbn; repeat (constructor; [|repeat (constructor; [lia|]); constructor]); constructor|]. vm_compute in Eu. injection Eu as <-. repeat (split; [reflexivity|]). reflexivity.
Qed.
