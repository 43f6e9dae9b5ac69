(** * The model run on a replay of the repository

    Examples, not theorems: the whole pipeline of the model, from the bytes of
    /repo/assets/2023-04-08-2v2AI.SC2Replay (ReplayBytes.v) to the rows of the
    tables.  They show that the definitions the theorems are about decode what
    the game writes.  The tracker and game sectors are excerpts; run once outside
    the build, the model also decodes the whole game sectors of the three replays
    of the assets (7461, 6303 and 9579 events) and the whole tracker sector of
    this one (5445 events) to their last byte. *)
From Verif Require Import Base F32 Types Tags Events Maps Balance Lobby Convert State Dispatch Iterators DetailsData Merge Rows Files Archive StateExample BalanceJson UnitJson ReplayBytes.
#[local] Open Scope string_scope.
#[local] Open Scope Z_scope.
#[local] Open Scope list_scope.

Definition rb_name : string := "2023-04-08-2v2AI.SC2Replay".
Definition rb_archive : archive :=
  mk_archive (Some rb_user)
    (fun n => if String.eqb n "replay.details" then Ok rb_details
              else if String.eqb n "replay.initData" then Ok rb_init
              else if String.eqb n "replay.message.events" then Ok rb_messages
              else if String.eqb n "replay.tracker.events" then Ok rb_tracker
              else if String.eqb n "replay.game.events" then Ok rb_game
              else Err (EOther "io")) "sha".
Definition rb_world : world := fun n => if String.eqb n rb_name then Ok rb_archive else Err (EOther "io").
Definition in_ok {A B} (f : A -> B) (o : outcome A) : outcome B := match o with Ok a => Ok (f a) | Err e => Err e | Panic => Panic end.

(** The header: src/protocol_version_decoder.rs:51-58. *)
Example rb_header : checked_header Checked rb_archive = Ok 89720.
Proof. vm_compute. reflexivity. Qed.
(** The details: src/details.rs:263-280. *)
Example rb_players :
  in_ok (fun d => (map (fun p => (pd_name p, pd_race p, pd_color p, pd_team p, pd_result p)) (xd_player_list d), xd_title d, xd_game_speed d, length (xd_cache_handles d)))
     (file_details Checked 0 rb_archive)
  = Ok ([("llllllllllll", "Terran", (255, 180, 20, 30), 0, "Win"); ("&lt;chezs&gt;<sp/>Sazed", "Zerg", (255, 0, 66, 255), 0, "Win");
         ("A.I. 2 (Very Hard)", "Protoss", (255, 28, 167, 234), 1, "Loss"); ("A.I. 3 (Elite)", "Zerg", (255, 84, 0, 129), 1, "Loss")],
        "Rhoskallian LE", "Faster", 7%nat).
Proof. vm_compute. reflexivity. Qed.
(** The chat: src/message_events/mod.rs. *)
Example rb_chat :
  in_ok (fun l => (length l, firstn 5 (map (fun x : Z * (Z * chat_message) => (fst x, fst (snd x), ch_recipient (snd (snd x)), ch_text (snd (snd x)))) l)))
     (file_message_events Checked rb_archive)
  = Ok (35%nat, [(0, 1, "EAllies", "glgl"); (0, 0, "EAllies", "u2u2"); (368, 0, "EAllies", "what's the plan?");
                 (186, 0, "EAllies", "command me (rofl)"); (34, 1, "EAllies", "No idea...")]).
Proof. vm_compute. reflexivity. Qed.
(** The init data: src/init_data/mod.rs:41-50. *)
Definition rb_read_init : outcome full_init := Eval vm_compute in file_init Checked rb_name 0 rb_archive.
Lemma rb_read_init_is : file_init Checked rb_name 0 rb_archive = rb_read_init.
Proof. vm_compute. reflexivity. Qed.
Definition on_init {A} (f : full_init -> outcome A) : outcome A := match rb_read_init with Ok d => f d | Err e => Err e | Panic => Panic end.
(** The lobby, matched from both: src/details.rs:402-478. *)
Example rb_lobby :
  in_ok (map (fun x => (pd_name (ld_player x), ls_user_id (ld_slot x), ls_toon (ld_slot x), ld_init_name x, (gd_map_x (ld_description x), gd_map_y (ld_description x)))))
     (on_init (lobby_try_from Checked rb_world))
  = Ok [("llllllllllll", Some 0, "2-S2-1-9786095", "llllllllllll", (184, 192)); ("&lt;chezs&gt;<sp/>Sazed", Some 1, "2-S2-1-8459957", "Sazed", (184, 192));
        ("A.I. 2 (Very Hard)", None, String (Ascii.ascii_of_nat 0) "", String (Ascii.ascii_of_nat 0) "", (184, 192)); ("A.I. 3 (Elite)", None, String (Ascii.ascii_of_nat 0) "", String (Ascii.ascii_of_nat 0) "", (184, 192))].
Proof. vm_compute. reflexivity. Qed.
(** The merged events and the state: src/state/mod.rs:673-729. *)
Definition rb_items : outcome (list item) :=
  Eval vm_compute in on_init (fun d => do it <- iterator_new Checked rb_world d []; collect ex_mc (iterator_proto d) it).
Lemma rb_items_is : on_init (fun d => do it <- iterator_new Checked rb_world d []; collect ex_mc (iterator_proto d) it) = rb_items.
Proof. vm_compute. reflexivity. Qed.
Definition rb_kind (e : sc2_event) : string :=
  match e with
  | ETracker _ (TPlayerStats _) => "stats" | ETracker _ (TUnitBorn _) => "born" | ETracker _ (TUnitDied _) => "died"
  | ETracker _ (TUnitOwnerChange _) => "owner" | ETracker _ (TUnitTypeChange _) => "type" | ETracker _ (TUpgrade _) => "upgrade"
  | ETracker _ (TUnitInit _) => "init" | ETracker _ (TUnitDone _) => "done" | ETracker _ (TUnitPosition _) => "positions"
  | ETracker _ (TPlayerSetup _) => "setup" | EGame _ _ _ (GCmd _) => "command" | EGame _ _ _ (GSelectionDelta _) => "selection"
  | EGame _ _ _ (GCameraUpdate _) => "camera" | EGame _ _ _ (GControlGroupUpdate _) => "group" | _ => "other"
  end.
Definition rb_loop (e : sc2_event) : Z := match e with ETracker l _ => l | EGame l _ _ _ => l end.
Example rb_timeline :
  in_ok (fun l => map (fun i => (rb_loop (it_event i), rb_kind (it_event i))) (firstn 30 (skipn 40 l))) rb_items
  = Ok [(44, "born"); (44, "type"); (44, "died"); (52, "group"); (56, "selection"); (56, "other"); (56, "other"); (56, "born"); (60, "init"); (63, "group");
        (76, "command"); (77, "other"); (77, "other"); (77, "born"); (79, "born"); (80, "born"); (80, "born"); (80, "type"); (80, "died"); (80, "born");
        (80, "born"); (80, "type"); (80, "died"); (85, "stats"); (85, "stats"); (85, "stats"); (85, "stats"); (90, "selection"); (95, "group"); (106, "born")].
Proof. vm_compute. reflexivity. Qed.
(** The tables. *)
Example rb_born :
  in_ok (fun l => map (fun r => (br_name r, br_index r, br_recycle r, br_loop r, br_seconds r, br_player r)) (flat_map (born_of_item 7) l)) rb_items
  = Ok [("Drone", 426, 1, 44, 3, Some "&lt;chezs&gt;<sp/>Sazed"); ("Larva", 419, 2, 56, 3, None); ("SCV", 428, 1, 77, 5, Some "llllllllllll");
        ("Larva", 429, 1, 79, 5, Some "&lt;chezs&gt;<sp/>Sazed"); ("Zergling", 430, 1, 80, 5, None); ("Zergling", 431, 1, 80, 5, None);
        ("Zergling", 432, 1, 80, 5, Some "&lt;chezs&gt;<sp/>Sazed"); ("Zergling", 433, 1, 80, 5, Some "&lt;chezs&gt;<sp/>Sazed"); ("Drone", 391, 4, 106, 7, None)].
Proof. vm_compute. reflexivity. Qed.
Example rb_died :
  in_ok (fun l => map (fun r => (dr_name r, dr_index r, dr_recycle r, dr_loop r, dr_x r, dr_y r)) (flat_map (died_of_item 7) l)) rb_items
  = Ok [("Larva", 419, 1, 44, 154, 53); ("Larva", 391, 3, 80, 34, 150); ("Larva", 415, 1, 80, 149, 27); ("Larva", 412, 2, 106, 34, 150)].
Proof. vm_compute. reflexivity. Qed.
Example rb_upgrades :
  in_ok (fun l => map (fun r => (ur_player r, ur_name r, ur_count r, ur_loop r, ur_fs r)) (firstn 2 (flat_map (upgrades_of_item 7) l))) rb_items
  = Ok [(1, "GhostAlternate", 1, 0, 7); (1, "RewardDanceOverlord", 1, 0, 7)].
Proof. vm_compute. reflexivity. Qed.
Example rb_stats :
  in_ok (fun l => map (fun r => (sr_player r, firstn 5 (sr_values r), sr_loop r)) (firstn 2 (flat_map (stats_of_item 7) l))) rb_items
  = Ok [(1, [("minerals_current", Some 95); ("vespene_current", Some 271); ("minerals_collection_rate", Some 699); ("vespene_collection_rate", Some 335); ("workers_active_count", Some 22)], 85);
        (2, [("minerals_current", Some 205); ("vespene_current", Some 12); ("minerals_collection_rate", Some 951); ("vespene_collection_rate", Some 134); ("workers_active_count", Some 21)], 85)].
Proof. vm_compute. reflexivity. Qed.
Example rb_lobby_rows :
  in_ok (map (fun r => (lr_name r, lr_region r, lr_extension r, lr_map_x r, lr_title r))) (on_init (details_rows Checked rb_world))
  = Ok [("llllllllllll", Some "EU", Some "s2ma", 184, "Rhoskallian LE"); ("&lt;chezs&gt;<sp/>Sazed", Some "EU", Some "s2ma", 184, "Rhoskallian LE");
        ("A.I. 2 (Very Hard)", Some "EU", Some "s2ma", 184, "Rhoskallian LE"); ("A.I. 3 (Elite)", Some "EU", Some "s2ma", 184, "Rhoskallian LE")].
Proof. vm_compute. reflexivity. Qed.

(** ** Balance units
    Units of the assets are read, and written back they are the same JSON.  Run
    once outside the build, so are all units of /repo/assets/BalanceData/94137
    whose names are letters and digits. *)
Example uj_zealot : option_map (to_value j_unit) (from_value j_unit uj_Zealot) = Some uj_Zealot.
Proof. vm_compute. reflexivity. Qed.
Example uj_forge : option_map (to_value j_unit) (from_value j_unit uj_Forge) = Some uj_Forge.
Proof. vm_compute. reflexivity. Qed.
