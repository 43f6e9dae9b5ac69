(** * The viewer as started by [get transist-events --tui] *)
From Verif Require Import Base Types Utf8 ConvertSpec Dispatch Events Iterators ByteTypes Versioned Balance Lobby DetailsData DetailsSpec DetailsFacts
  State StateSpec Merge MergeSpec MergeFacts Rows Files Archive ArchiveSpec ArchiveFacts SnapshotFacts Cli CliSpec CliFacts Viewer ViewerSpec ViewerFacts.
From Verif Require Import Convert.
#[local] Open Scope string_scope.
#[local] Open Scope Z_scope.
#[local] Open Scope list_scope.

Lemma tui_program : forall mc w all c a d v, world_bytes w -> archive_bytes a -> tui_one mc w all c a d = Ok v ->
  exists st t g x b l r y, opens (mc_build mc) w all d st t g /\ bytes_ok t /\ bytes_ok g /\
    (exists x', starts (joined_init d) (joined_details x') (balance_of_version (xi_version d) all) st) /\
    header_of (mc_build mc) a signature_text b /\ ar_sector a "replay.details" = Ok l /\ vparse (mc_build mc) ba_GameSDetails l = Ok (r, y) /\ details_shown y x /\
    new_app mc (iterator_proto d) (merge_start st t g (Some (mk_filters (cl_player c) None (cl_min c) (cl_max c) (cl_type c) (cl_unit c) (cl_events c) (cl_stats c)))) (xd_player_list x)
      (fd_map_size_x (sy_game_description (xi_sync d)), fd_map_size_y (sy_game_description (xi_sync d))) = Ok v.
Proof.
  intros mc w all c a d v Hw Ha E. unfold tui_one in E. apply obind_ok in E as (it & Ei & E). apply obind_ok in E as (x & Ex & E).
  apply iterator_new_opens in Ei as (st & t & g & Ho & ->). apply raw_details_ok in Ex as (b & l & r & y & Hh & El & Ey & Hs & _); [|exact Ha].
  pose proof Ho as Ho'. destruct Ho' as (a' & x' & Hn & Ea & Et & Eg & Ed & Es). pose proof (Hw _ _ Ea) as Ha'.
  exists st, t, g, x, b, l, r, y. split; [exact Ho|]. split; [exact (proj2 Ha' _ _ Et)|]. split; [exact (proj2 Ha' _ _ Eg)|]. split; [exists x', st; auto|]. auto.
Qed.
