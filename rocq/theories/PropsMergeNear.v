(** * C23 and C24 continued: order and choice at game loops above 2^24 *)
From Verif Require Import Base Types Utf8 F32 F32Facts BitSpec BitPacked BitProofs BitInterp BitFormat BitEncode BitFacts Versioned VersionedEncode ByteTypes BitTypes Dispatch Events Tags Maps Lobby Balance
  Convert ConvertSpec ConvertFacts ConvertTracker Stream StreamFacts Iterators StreamSpec SectorEncode IteratorFacts IteratorStreams State StateSpec StateExample PropsIterators
  Merge MergeSpec MergeFacts MergeStreams MergeProofs PropsMerge MergeNear.
#[local] Open Scope string_scope.
#[local] Open Scope Z_scope.
#[local] Open Scope list_scope.

(** C23 at any loop (of the 64 bits the code counts in), with any filter: an
    item's loop exceeds that of a later item by at most one part in 2^23, the
    rounding of a single-precision float. *)
Theorem C23_any_loop_partial : forall mc p init d b st tevs t gevs g f, starts init d b st -> sectors_of mc p tevs t gevs g ->
  Forall (fun ev => fst ev < 2 ^ 63) (at_loops 0 gevs) ->
  forall n answers, answers_of (merge_calls mc p n (merge_start st t g f)) = Ok answers ->
  forall before i between j after, present answers = before ++ i :: between ++ j :: after ->
  event_loop (it_event i) * 2 ^ 23 <= event_loop (it_event j) * (2 ^ 23 + 1).
Proof. exact sectors_nearly_pairs. Qed.
Print Assumptions C23_any_loop_partial.
(** Loops above 2^24, out of order by one. *)
Example C23_any_loop_example : let tevs := [(16777216, v_done 1 0)] in let gevs := [(16777217, click 0 262145)] in
  sectors_of ex_mc P87702 tevs (t_sector tevs) gevs (g_sector gevs) /\ Forall (fun ev => fst ev < 2 ^ 63) (at_loops 0 gevs) /\
  kinds (merge_calls ex_mc P87702 2 (merge_start ex_start (t_sector tevs) (g_sector gevs) None)) = Ok [Some (false, 16777217); Some (true, 16777216)].
Proof.
  split.
  { split; [apply byte_list_ok; vm_compute; reflexivity|]. split; [apply byte_list_ok; vm_compute; reflexivity|].
    split; [apply encode_tracker_sector; vm_compute; reflexivity|]. split; [apply Forall_cons; [right; apply all_utf8_nil; reflexivity|constructor]|].
    apply quirk_free_sector; [apply encode_user_sector; [vm_compute; reflexivity|vm_compute; reflexivity]|]. repeat constructor; vm_compute; reflexivity. }
  split; [repeat constructor; cbn; lia|]. vm_compute. reflexivity.
Qed.
(** C24 at any loop: of two pending events the one that is earlier by more than
    one part in 2^24 is delivered. *)
Theorem C24_far_partial : forall mc p it t g i it', reached mc p it -> mg_filters it = None -> next_tracker mc p it (Some t) -> next_game mc p it (Some g) ->
  0 <= fst g < 2 ^ 63 -> merge_next mc p it = Ok (Some i, it') ->
  (fst t * 2 ^ 24 < fst g * (2 ^ 24 - 1) -> handle_transition mc (mg_state it) (ETracker (fst t) (snd t)) = Ok (mg_state it', i)) /\
  (fst g * (2 ^ 24 + 1) <= fst t * 2 ^ 24 -> handle_transition mc (mg_state it) (EGame (fst g) (gi_user (snd g)) (gi_name (snd g)) (gi_event (snd g))) = Ok (mg_state it', i)).
Proof.
  intros mc p it t g i it' Hr Hf Ht Hg Hl E. pose proof (next_kind mc p it t g i it' Hr Hf Ht Hg E) as H1. destruct (far_choice (fst t) (fst g) Hl) as [A B].
  split; intros H; [rewrite (A H) in H1|rewrite (B H) in H1]; exact H1.
Qed.
Print Assumptions C24_far_partial.
Example C24_far_example : 20 * 2 ^ 24 < 2 ^ 40 * (2 ^ 24 - 1) /\ tracker_first 20 (2 ^ 40) = true /\ tracker_first (2 ^ 40) 20 = false /\ tracker_first (2 ^ 40) (2 ^ 40 + 70000) = true /\ tracker_first (2 ^ 40) (2 ^ 40 + 1) = false.
Proof. split; [lia|]. repeat split; vm_compute; reflexivity. Qed.
