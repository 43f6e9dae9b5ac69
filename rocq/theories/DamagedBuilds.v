(** * Tables of damaged replays in builds with overflow checks *)
From Verif Require Import Base Types BitSpec BitFormat BitTypes Dispatch Tags Lobby Balance Iterators StreamSpec IteratorStreams State StateSpec Merge MergeSpec Rows RowSpec RowCommands DamagedTables BuildsAgree BuildsAgreeProgram.
#[local] Open Scope Z_scope.
#[local] Open Scope list_scope.

Lemma table_release : forall mc p A (rows : item -> list A) it res, table mc p rows it = Ok res -> table (mk_machine Wrapping (mc_sort mc)) p rows it = Ok res.
Proof.
  intros [[] sort] p A rows it res E; [|exact E]. cbn [mc_sort]. rewrite <- E. apply table_same. rewrite E. discriminate.
Qed.
Lemma whole_commands_any : forall mc p fs init d b st t gevs g, starts init d b st -> bytes_ok t -> bytes_ok g ->
  user_sector (crate Wrapping) (game_type p) gevs (stream (g, 0%nat)) -> exists k ta gs evs,
  tracker_calls Wrapping p (S k) (tracker_start t) = Ok (ta ++ [None]) /\
  Forall2 (delivered_as (player_names st)) (filter supported_game (at_loops 0 gevs)) gs /\
  interleaving (map tracker_item (present ta)) (map game_item_event gs) evs /\
  (forall res, table mc p (points_of_item fs) (merge_start st t g None) = Ok res -> res = flat_map (point_spec fs) (states_before (mk_machine Wrapping (mc_sort mc)) st evs)) /\
  (forall res, table mc p (targets_of_item fs) (merge_start st t g None) = Ok res -> res = flat_map (target_spec fs) (states_before (mk_machine Wrapping (mc_sort mc)) st evs)).
Proof.
  intros mc p fs init d b st t gevs g H Ht Hg Hs. destruct (whole_commands (mk_machine Wrapping (mc_sort mc)) p fs init d b st t gevs g H Ht Hg (or_introl eq_refl) Hs) as (k & ta & gs & evs & E1 & E2 & E3 & E4 & E5).
  exists k, ta, gs, evs. split; [exact E1|]. split; [exact E2|]. split; [exact E3|]. split; intros res E; [apply E4|apply E5]; apply table_release, E.
Qed.
