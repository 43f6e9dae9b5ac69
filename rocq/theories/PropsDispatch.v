(** * C50, C57: protocol dispatch *)
From Verif Require Import Base BitSpec BitPacked Types BitInterp BitTypes Dispatch DispatchFacts.
#[local] Open Scope Z_scope.

(** C50: every [u32] build number selects a decoder, all five batch readers and
    both iterators select the same one, and it is 75689 exactly up to 75689. *)
Theorem C50_dispatch : forall b, 0 <= b < two32 ->
  let p := if b <=? 75689 then P75689 else P87702 in
  dispatch_tracker b = p /\ dispatch_game b = p /\ dispatch_message b = p /\ dispatch_details b = p /\ dispatch_init b = p /\
  dispatch_tracker_iterator b = p /\ dispatch_game_iterator b = p.
Proof. exact dispatch_all. Qed.
Print Assumptions C50_dispatch.
Example C50_old : dispatch_game 75689 = P75689 /\ dispatch_game 75690 = P87702 /\ dispatch_init 91115 = P87702.
Proof. repeat split. Qed.

(** C57 is false: there is a lobby slot that the slot decoder of the 75689
    module reads, and that the decoder reached from the init data reader of
    that module rejects. *)
Theorem C57_own_layout_refuted : ~ forall t m c c' v, slot_used P75689 = Some t -> cursor_ok c ->
  bparse m bp75_GameSLobbySlot c = Ok (c', v) -> bparse m t c = Ok (c', v).
Proof. exact own_layout_false. Qed.
Print Assumptions C57_own_layout_refuted.
Example C57_witness : slot_used P75689 = Some bp_GameSLobbySlot /\
  bparse Checked bp75_GameSLobbySlot slot_cursor = Ok (advance slot_cursor (length slot_bits), slot_value) /\
  bparse Checked bp_GameSLobbySlot slot_cursor = Err ENom.
Proof. split; [exact slot_used_eq|]. split; [exact slot_own_ok|]. apply slot_used_fails. Qed.

(** The game events of old builds are decoded with the layout of the 75689
    module.  Missing from the English claim: the lobby slots (false, above). *)
Theorem C57_game_layout_partial : forall b m c, 0 <= b <= 75689 ->
  bparse m (game_type (dispatch_game b)) c = bparse m bp75_GameEEventId c /\
  game_type (dispatch_game_iterator b) = game_type (dispatch_game b).
Proof. exact game_own_layout. Qed.
Print Assumptions C57_game_layout_partial.
Example C57_layouts_differ : bp75_GameSCmdEvent <> bp_GameSCmdEvent.
Proof. intro Hr. vm_compute in Hr. discriminate Hr. Qed.
