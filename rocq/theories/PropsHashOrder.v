(** * C126: the order of the users in memory *)
From Verif Require Import Base Types F32 Tags Events Maps Balance Lobby Convert ConvertSpec BitSpec BitFacts Stream StreamFacts Iterators Dispatch IteratorFacts IteratorStreams SectorEncode State StateSpec StateFacts StateExample
  PropsIterators PropsMerge Merge MergeSpec HashOrder HashOrderMerged.
From Coq Require Import Permutation.
#[local] Open Scope string_scope.
#[local] Open Scope Z_scope.
#[local] Open Scope list_scope.

Definition o_turned : state := mk_state (st_units ex_start) (rev (st_users ex_start)) (st_balance ex_start).
Lemma o_starts : starts ex_init ex_details ex_balance o_turned.
Proof. exists ex_start. split; [reflexivity|]. split; [reflexivity|]. split; [reflexivity|]. apply Permutation_rev. Qed.
Definition o_upgrade (gl p : Z) : sc2_event := ETracker gl (TUpgrade (mk_upgrade p None "Stim" 1)).
(** C126, false when a player id is announced for two users: the name attached to
    an event of that player is then the one of the user the map meets first. *)
Theorem C126_run_refuted : exists mc init d b st st' evs s its s' its', starts init d b st /\ starts init d b st' /\
  run mc st evs = Ok (s, its) /\ run mc st' evs = Ok (s', its') /\ its' <> its.
Proof.
  pose (evs := [ex_setup 1 0; ex_setup 1 4; o_upgrade 7 1]).
  assert (B : match run ex_mc ex_start evs, run ex_mc o_turned evs with
              | Ok (_, [_; _; i]), Ok (_, [_; _; j]) =>
                  match it_event i, it_event j with ETracker _ (TUpgrade a), ETracker _ (TUpgrade b) => ug_player_name a = Some "ana" /\ ug_player_name b = Some "bob" | _, _ => False end
              | _, _ => False end) by (vm_compute; split; reflexivity).
  exists ex_mc, ex_init, ex_details, ex_balance, ex_start, o_turned, evs.
  destruct (run ex_mc ex_start evs) as [[s its]|e|] eqn:E1; try contradiction. destruct (run ex_mc o_turned evs) as [[s' its']|e'|] eqn:E2; [| |]; try (destruct its as [|? [|? [|? []]]]; contradiction).
  exists s, its, s', its'. split; [exact ex_starts|]. split; [exact o_starts|]. split; [reflexivity|]. split; [reflexivity|]. intros ->.
  destruct its as [|a [|b' [|c []]]]; try contradiction. destruct (it_event c) as [gl []|]; try contradiction. destruct B as [B1 B2]. congruence.
Qed.
Print Assumptions C126_run_refuted.
(** Otherwise nothing depends on it: for two starting states of the same replay,
    the same history gives the same items, the same units and the same users, or
    the same failure. *)
Theorem C126_run_partial : forall mc init d b st st' evs, starts init d b st -> starts init d b st' -> one_user_each (setups_of evs) ->
  match run mc st evs, run mc st' evs with
  | Ok (s, its), Ok (s', its') => its' = its /\ same_view s s'
  | Err e, Err e' => e' = e
  | Panic, Panic => True
  | _, _ => False
  end.
Proof. exact run_order. Qed.
Print Assumptions C126_run_partial.
(** The same of the merged iterator over any sectors, with any filters and any
    number of calls, when the tracker sector gives each player id to one user. *)
Theorem C126_merged_partial : forall mc p init d b st st' t g f own n, starts init d b st -> starts init d b st' -> one_user_sector mc p t own ->
  match merge_calls mc p n (merge_start st t g f), merge_calls mc p n (merge_start st' t g f) with
  | Ok (rs, it), Ok (rs', it') => rs' = rs /\ same_view (mg_state it) (mg_state it')
  | Err e, Err e' => e' = e
  | Panic, Panic => True
  | _, _ => False
  end.
Proof. exact merged_order. Qed.
Print Assumptions C126_merged_partial.
(** Two orders of the same two users, two setups and an upgrade. *)
Definition o_value (e : tracker_event) : val := match tracker_value e with Some v => v | None => VInt 0 end.
Definition o_setup (p u : Z) : tracker_event := TPlayerSetup (mk_player_setup p 1 (Some u) (Some u)).
Definition o_sector : list Z := Eval vm_compute in t_sector [(0, o_value (o_setup 1 0)); (0, o_value (o_setup 2 4)); (7, o_value (TUpgrade (mk_upgrade 2 None "Stim" 1)))].
Definition o_owner (p : Z) : Z := if p =? 1 then 0 else 4.
Lemma o_one : one_user_sector ex_mc P87702 o_sector o_owner.
Proof.
  intros n rs gl x u E Hi Hu. unfold tracker_calls in E.
  destruct n as [|n]; [cbn [calls] in E; injection E as <-; destruct Hi|]. cbn [calls] in E.
  change (get_next_event _ _ _ _ (tracker_start o_sector)) with (Ok (Some (0, o_setup 1 0), (skipn 24 o_sector, 0)) : outcome (option (Z * tracker_event) * tracker_state)) in E. cbn [obind] in E.
  destruct n as [|n]; [cbn [calls obind] in E; injection E as <-; destruct Hi as [Hi|[]]; injection Hi as <- <-; injection Hu as <-; reflexivity|]. cbn [calls] in E.
  change (get_next_event _ _ _ _ (skipn 24 o_sector, 0)) with (Ok (Some (0, o_setup 2 4), (skipn 48 o_sector, 0)) : outcome (option (Z * tracker_event) * tracker_state)) in E. cbn [obind] in E.
  destruct n as [|n].
  { cbn [calls obind] in E; injection E as <-; destruct Hi as [Hi|[Hi|[]]]; injection Hi as <- <-; injection Hu as <-; reflexivity. }
  cbn [calls] in E.
  change (get_next_event _ _ _ _ (skipn 48 o_sector, 0)) with (Ok (Some (7, TUpgrade (mk_upgrade 2 None "Stim" 1)), ([], 7)) : outcome (option (Z * tracker_event) * tracker_state)) in E. cbn [obind] in E.
  rewrite (calls_end bytes_end (@length Z) _ tracker_from bytes_ok) in E.
  - cbn [obind] in E. injection E as <-. destruct Hi as [Hi|[Hi|[Hi|Hi]]]; try (injection Hi as <- <-; injection Hu as <-; reflexivity); [discriminate|]. apply repeat_spec in Hi. discriminate.
  - intros c c1 d x0. apply pair_good.
  - intros c. apply pair_nu.
  - constructor.
  - left. reflexivity.
Qed.
Example C126_example : starts ex_init ex_details ex_balance ex_start /\ starts ex_init ex_details ex_balance o_turned /\
  map fst (st_users ex_start) = [0; 4] /\ map fst (st_users o_turned) = [4; 0] /\
  one_user_each (setups_of [ex_setup 1 0; ex_setup 2 4; o_upgrade 7 2]) /\ one_user_sector ex_mc P87702 o_sector o_owner /\
  match merge_calls ex_mc P87702 4 (merge_start o_turned o_sector [] None) with
  | Ok ([Some _; Some _; Some i; None], _) => it_event i = ETracker 7 (TUpgrade (mk_upgrade 2 (Some "bob") "Stim" 1))
  | _ => False
  end.
Proof.
  split; [exact ex_starts|]. split; [exact o_starts|]. split; [vm_compute; reflexivity|]. split; [vm_compute; reflexivity|].
  split; [|split; [exact o_one|vm_compute; reflexivity]].
  intros x y u v Hx Hy. cbn [setups_of flat_map ex_setup o_upgrade app] in Hx, Hy.
  destruct Hx as [<-|[<-|[]]], Hy as [<-|[<-|[]]]; cbn; intros; congruence.
Qed.
