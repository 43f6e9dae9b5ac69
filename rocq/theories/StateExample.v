(** * A small replay, to show that the hypotheses of the theorems can be met *)
From Verif Require Import Base F32 Tags Events Maps Balance Lobby Convert State StateSpec.
From Coq Require Import Permutation.
#[local] Open Scope string_scope.
#[local] Open Scope Z_scope.
#[local] Open Scope list_scope.

Definition ex_player (n : string) (slot : Z) : player_details :=
  mk_player n (mk_toon 2 0 1 7) "Terr" (255, 1, 2, 3) 2 0 100 0 "Win" (Some slot) "".
Definition ex_details : details := mk_details [ex_player "ana" 0; ex_player "bob" 1] "map" 0 0 [] 1 0.
Definition ex_slot (u s : Z) : lobby_slot := mk_slot 2 (Some u) 0 0 "" (Some s) "".
Definition ex_init : init_data :=
  mk_init 1 "sha" "f" 87702 [mk_initial "ana" None; mk_initial "bob" (Some "CLAN")] (mk_description true 200 176)
    [ex_slot 0 0; ex_slot 4 1].
Definition ex_balance : balance :=
  [("SCV", mk_bunit (Some (f32_div (f32_of_int 3) (f32_of_int 8)))
      [mk_bability "move" (Some 40) [mk_bcommand (Some "Move") 0]] [] [] None)].
Definition ex_mc : machine := mk_machine Checked sort_units.
Definition ex_start : state := match initial_state ex_init ex_details ex_balance with Ok st => st | _ => mk_state [] [] [] end.
Definition ex_setup (p u : Z) : sc2_event := ETracker 0 (TPlayerSetup (mk_player_setup p 1 (Some u) (Some u))).
Definition ex_born (gl i : Z) (n : string) (p : Z) : sc2_event := ETracker gl (TUnitBorn (mk_unit_born i 1 n p p 10 20 None None None)).
Definition ex_died (gl i : Z) (killer : option Z) : sc2_event := ETracker gl (TUnitDied (mk_unit_died i 1 None 10 20 killer killer)).
Definition ex_select (gl u : Z) (tags : list Z) : sc2_event := EGame gl u None (GSelectionDelta (mk_selection 10 0 SMNone [] tags)).
Definition ex_control (gl u g : Z) (k : group_update) : sc2_event := EGame gl u None (GControlGroupUpdate (mk_control g k SMNone)).
Definition ex_camera (gl u x y : Z) : sc2_event := EGame gl u None (GCameraUpdate (mk_camera_update (Some (mk_point x y)) None None None None false)).
(** Two players, three units; ana selects two of them, puts them in group 3 and
    in group 9, then selects one. *)
Definition ex_events : list sc2_event :=
  [ex_setup 1 0; ex_setup 2 4; ex_born 1 7 "SCV" 1; ex_born 1 8 "SCV" 1; ex_born 2 9 "Drone" 2; ex_camera 2 0 5 6;
   ex_select 3 0 [unit_tag 7 1; unit_tag 8 1]; ex_control 4 0 3 GSet; ex_control 4 0 9 GSet; ex_select 5 0 [unit_tag 8 1]].
Definition ex_run (evs : list sc2_event) : state * list item :=
  match run ex_mc ex_start evs with Ok r => r | _ => (ex_start, []) end.
Definition ex_state : state := fst (ex_run ex_events).
Definition ex_step (e : sc2_event) : state * item :=
  match handle_transition ex_mc ex_state e with Ok r => r | _ => (ex_state, mk_item e HNone) end.

Lemma ex_starts : starts ex_init ex_details ex_balance ex_start.
Proof. exists ex_start. split; [reflexivity|]. split; [reflexivity|]. split; [reflexivity|]. apply Permutation_refl. Qed.
Lemma ex_history : history ex_mc ex_start ex_events ex_state (snd (ex_run ex_events)).
Proof. split; [exists ex_init, ex_details, ex_balance; exact ex_starts|]. vm_compute. reflexivity. Qed.
Lemma ex_reachable : reachable ex_mc ex_state.
Proof. exists ex_start, ex_events, (snd (ex_run ex_events)). exact ex_history. Qed.

Lemma insert_unit_perm : forall x l, Permutation (insert_unit x l) (x :: l).
Proof.
  intros x l. induction l as [|y l IH]; [apply Permutation_refl|]. cbn [insert_unit]. destruct (su_index x <=? su_index y); [apply Permutation_refl|].
  eapply perm_trans; [apply perm_skip, IH|]. apply perm_swap.
Qed.
Lemma insert_unit_sorted : forall x l, Sorted.StronglySorted (fun a b => su_index a <= su_index b) l -> Sorted.StronglySorted (fun a b => su_index a <= su_index b) (insert_unit x l).
Proof.
  intros x l. induction l as [|y l IH]; intros Hs; cbn [insert_unit]; [repeat constructor|].
  inversion Hs as [|a b Hs' Hf]; subst. destruct (Z.leb_spec (su_index x) (su_index y)) as [Hl|Hl].
  - constructor; [exact Hs|]. constructor; [exact Hl|]. eapply Forall_impl; [|exact Hf]. cbn. intros. lia.
  - constructor; [apply IH, Hs'|]. apply Forall_forall. intros z Hz. apply (Permutation_in _ (insert_unit_perm x l)) in Hz.
    destruct Hz as [<-|Hz]; [lia|]. rewrite Forall_forall in Hf. apply Hf, Hz.
Qed.
Lemma ex_sorts : sorts ex_mc.
Proof.
  intros l. cbn [mc_sort ex_mc]. split; induction l as [|x l IH]; cbn [sort_units]; try constructor.
  - eapply perm_trans; [apply insert_unit_perm|]. apply perm_skip, IH.
  - apply insert_unit_sorted, IH.
Qed.
