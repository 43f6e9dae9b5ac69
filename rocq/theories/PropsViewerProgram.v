(** * C104 and C109: the viewer as the program starts it, and its details pane *)
From Verif Require Import Base Types Utf8 ConvertSpec Dispatch Events Iterators ByteTypes Versioned Balance Lobby DetailsData DetailsSpec DetailsFacts
  State StateSpec StateExample Merge MergeSpec MergeFacts Rows Files Archive ArchiveSpec ArchiveFacts SnapshotFacts Cli CliSpec CliFacts PropsArchive PropsCli Viewer ViewerSpec ViewerFacts ViewerProgram PropsViewer.
From Verif Require Import Convert.
#[local] Open Scope string_scope.
#[local] Open Scope Z_scope.
#[local] Open Scope list_scope.

(** C104.  What the viewer is started with by the program: the sectors of the
    file named in the initial data, the options as a filter, the players of the
    details sector and the size of the map. *)
Theorem C104_program : forall mc w all c a d v, world_bytes w -> archive_bytes a -> tui_one mc w all c a d = Ok v ->
  exists st t g x b l r y, opens (mc_build mc) w all d st t g /\ bytes_ok t /\ bytes_ok g /\
    (exists x', starts (joined_init d) (joined_details x') (balance_of_version (xi_version d) all) st) /\
    header_of (mc_build mc) a signature_text b /\ ar_sector a "replay.details" = Ok l /\ vparse (mc_build mc) ba_GameSDetails l = Ok (r, y) /\ details_shown y x /\
    new_app mc (iterator_proto d) (merge_start st t g (Some (mk_filters (cl_player c) None (cl_min c) (cl_max c) (cl_type c) (cl_unit c) (cl_events c) (cl_stats c)))) (xd_player_list x)
      (fd_map_size_x (sy_game_description (xi_sync d)), fd_map_size_y (sy_game_description (xi_sync d))) = Ok v.
Proof. exact tui_program. Qed.
Print Assumptions C104_program.
Definition v_cli : cli := mk_cli (Some 1) None None None None None false false.
Example C104_program_example : world_bytes (a_world all_good) /\ archive_bytes a_good /\
  (do d <- first_init; do v <- tui_one ex_mc (a_world all_good) a_balance v_cli a_good d; do x <- view ex_mc (iterator_proto d) [w_turn KRight; w_turn KRight] v;
    Ok (map (fun f => (length (fr_circles f), length (fr_details f), fr_size f)) (fst x))) = Ok [(1%nat, 1%nat, (200, 176)); (2%nat, 1%nat, (200, 176)); (2%nat, 1%nat, (200, 176))].
Proof. split; [exact good_world|]. split; [apply (good_world "r/a.SC2Replay"); reflexivity|]. vm_compute. reflexivity. Qed.

(** C109, false: a player without a slot is not listed, and of two players with
    the same slot the second has the colour of the first. *)
Definition v_players : list player_details :=
  [w_player "ana" 0 10; mk_player "bob" (mk_toon 2 0 1 7) "Terr" (255, 20, 2, 3) 2 0 100 0 "Win" None ""; w_player "eve" 0 30].
Definition v_frames : list frame := Eval vm_compute in
  match (do a <- new_app ex_mc P87702 (w_merged w_init None) v_players (200, 176); do x <- view ex_mc P87702 [] a; Ok (fst x)) with Ok l => l | _ => [] end.
Lemma v_shown : exists a z, new_app ex_mc P87702 (w_merged w_init None) v_players (200, 176) = Ok a /\ view ex_mc P87702 [] a = Ok (v_frames, z).
Proof.
  assert (E : (do a <- new_app ex_mc P87702 (w_merged w_init None) v_players (200, 176); do x <- view ex_mc P87702 [] a; Ok (fst x)) = Ok v_frames) by (vm_compute; reflexivity).
  apply obind_ok in E as (a & Ea & E). apply obind_ok in E as ([fs z] & Ev & E). injection E as <-. eauto.
Qed.
Theorem C109_slotless_refuted : exists mc p it players size a ts frames z' k fr x, new_app mc p it players size = Ok a /\ view mc p ts a = Ok (frames, z') /\ nth_error frames k = Some fr /\
  In x players /\ forall l, In l (fr_details fr) -> pl_name l <> pd_name x.
Proof.
  destruct v_shown as (a & z & Ea & Ev). exists ex_mc, P87702, (w_merged w_init None), v_players, (200, 176), a, [], v_frames, z, 0%nat. eexists. eexists. split; [exact Ea|]. split; [exact Ev|]. split; [reflexivity|].
  split; [right; left; reflexivity|]. cbn. intros l [<-|[<-|[]]]; discriminate.
Qed.
Print Assumptions C109_slotless_refuted.
Theorem C109_shared_refuted : exists mc p it players size a ts frames z' k fr x l, new_app mc p it players size = Ok a /\ view mc p ts a = Ok (frames, z') /\ nth_error frames k = Some fr /\
  In x players /\ In l (fr_details fr) /\ pl_name l = pd_name x /\ (forall y, In y players -> pd_name y = pd_name x -> y = x) /\ pl_color l <> Some (rgb_of x).
Proof.
  destruct v_shown as (a & z & Ea & Ev). exists ex_mc, P87702, (w_merged w_init None), v_players, (200, 176), a, [], v_frames, z, 0%nat. eexists. exists (w_player "eve" 0 30). eexists. split; [exact Ea|]. split; [exact Ev|]. split; [reflexivity|].
  split; [right; right; left; reflexivity|]. split; [right; left; reflexivity|]. split; [reflexivity|]. split; [|cbn; discriminate].
  cbn. intros y [<-|[<-|[<-|[]]]]; cbn; [discriminate|discriminate|reflexivity].
Qed.
Print Assumptions C109_shared_refuted.
(** All other players are listed, in order, with what the details say about them;
    a slot is a u8. *)
Theorem C109_pane_partial : forall mc p it players size a ts frames z' k fr, new_app mc p it players size = Ok a -> view mc p ts a = Ok (frames, z') -> nth_error frames k = Some fr ->
  Forall (fun x => forall s, pd_slot x = Some s -> 0 <= s <= 255) players -> pane_shows [] players (fr_details fr) /\ fr_size fr = size.
Proof. exact viewer_details. Qed.
Print Assumptions C109_pane_partial.
Example C109_example : Forall (fun x => forall s, pd_slot x = Some s -> 0 <= s <= 255) (de_players w_details) /\
  option_map (fun f => map (fun l => (pl_name l, pl_slot l, pl_result l, pl_color l)) (fr_details f)) (nth_error w_frames 1) =
    Some [("ana", 0, "Win", Some (10, 2, 3)); ("bob", 1, "Win", Some (20, 2, 3)); ("eve", 2, "Win", Some (30, 2, 3))].
Proof. split; [|reflexivity]. repeat (apply Forall_cons; [cbn; intros s E; injection E as <-; lia|]). apply Forall_nil. Qed.
