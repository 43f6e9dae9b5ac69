(** * C125: the state and the hints are at most linear in the history *)
From Verif Require Import Base F32 Tags Events Maps Balance Lobby Convert State StateSpec StateExample StateSize.
#[local] Open Scope string_scope.
#[local] Open Scope Z_scope.
#[local] Open Scope list_scope.

(** C125.  A control group (0 to 10) holds only tags that selections of its user
    brought, and no more than these bring together. *)
Theorem C125_groups : forall mc st0 evs st its uid g, history mc st0 evs st its ->
  incl (group_of st uid g) (flat_map (told uid) evs) /\ (length (group_of st uid g) <= length (flat_map (told uid) evs))%nat.
Proof. exact group_bounded. Qed.
Print Assumptions C125_groups.
(** Never more units than registrations. *)
Theorem C125_units : forall mc st0 evs st its l, history mc st0 evs st its -> NoDup l -> (forall i, In i l -> unit_of st i <> None) ->
  (length l <= length (registrations evs))%nat.
Proof. exact units_bounded. Qed.
Print Assumptions C125_units.
(** A hint carries at most two units, one for each position, or what the
    selections of the user account for. *)
Theorem C125_hints : forall mc st0 evs st its e st' it, sorts mc -> history mc st0 evs st its -> handle_transition mc st e = Ok (st', it) ->
  (length (listed (it_hint it)) <= allowed evs e)%nat.
Proof. exact hint_bounded. Qed.
Print Assumptions C125_hints.
(** Three units, a group of two out of three tags told, a hint of three units. *)
Example C125_example : history ex_mc ex_start ex_events ex_state (snd (ex_run ex_events)) /\ sorts ex_mc /\
  length (group_of ex_state 0 3) = 2%nat /\ length (flat_map (told 0) ex_events) = 3%nat /\
  (unit_of ex_state 7 <> None /\ unit_of ex_state 8 <> None /\ unit_of ex_state 9 <> None) /\ length (registrations ex_events) = 3%nat /\
  length (listed (it_hint (snd (ex_step (ex_control 6 0 3 GRecall))))) = 3%nat.
Proof.
  split; [exact ex_history|]. split; [exact ex_sorts|]. split; [vm_compute; reflexivity|]. split; [vm_compute; reflexivity|].
  split; [split; [|split]; vm_compute; discriminate|]. split; vm_compute; reflexivity.
Qed.
