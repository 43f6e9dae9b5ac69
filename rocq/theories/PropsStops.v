(** * C145: which events stop the program *)
From Verif Require Import Base Types Utf8 F32 F32Facts Versioned VersionedSpec Dispatch Events Tags TagFacts Maps Lobby Balance
  Convert Stream Iterators PropsIterators IteratorStreams StreamSpec SectorEncode State StateSpec StateExample Merge MergeSpec PropsMerge Rows RowSpec RowFacts DamagedTables PropsDamaged BitFacts Stops.
From Coq Require Import Lia.
#[local] Open Scope string_scope.
#[local] Open Scope Z_scope.
#[local] Open Scope list_scope.

(** One event, in every state a replay can reach: the program stops exactly at
    the events [stops] names, and any other event gives an item. *)
Theorem C145_event : forall mc st e, reachable mc st ->
  (handle_transition mc st e = Panic <-> stops (mc_build mc) (users_of st) e) /\
  (~ stops (mc_build mc) (users_of st) e -> exists st' it, handle_transition mc st e = Ok (st', it)).
Proof. exact r_step_stop. Qed.
Print Assumptions C145_event.
(** A list of events: exactly if one of them stops it, whatever comes before
    that one; the users are those of the start. *)
Theorem C145_events : forall mc init d b st evs, starts init d b st ->
  (run mc st evs = Panic <-> Exists (stops (mc_build mc) (users_of st)) evs) /\
  (~ Exists (stops (mc_build mc) (users_of st)) evs -> exists st' its, run mc st evs = Ok (st', its)).
Proof. exact r_run_stop. Qed.
Print Assumptions C145_events.
(** The merged iterator over any two byte strings: [n] calls stop the program
    exactly if one of the events the first [n] calls come to stops it. *)
Theorem C145_calls : forall mc p init d b st t g, starts init d b st -> bytes_ok t -> bytes_ok g -> mc_build mc = Wrapping \/ no_run 9 t -> exists ta gs l,
  (forall n, tracker_calls (mc_build mc) p n (tracker_start t) = Ok (firstn n (ta ++ repeat None n))) /\
  (forall n, game_calls (mc_build mc) p (player_names st) n (game_start g) = Ok (firstn n (map Some gs ++ repeat None n))) /\
  interleaving (map tracker_item (present ta)) (map game_item_event gs) (present l) /\
  forall n, (answers_of (merge_calls mc p n (merge_start st t g None)) = Panic <-> Exists (stops (mc_build mc) (users_of st)) (present (firstn n l))) /\
    (~ Exists (stops (mc_build mc) (users_of st)) (present (firstn n l)) -> exists answers, answers_of (merge_calls mc p n (merge_start st t g None)) = Ok answers).
Proof. exact answers_stop. Qed.
Print Assumptions C145_calls.
(** A table of an export: exactly if one of the events answered by the tracker
    iterator, or one of the game iterator, stops it - the same for every table. *)
Theorem C145_tables : forall mc p init d b st t g A (rows : item -> list A), starts init d b st -> bytes_ok t -> bytes_ok g -> mc_build mc = Wrapping \/ no_run 9 t -> exists k ta gs,
  tracker_calls (mc_build mc) p (S k) (tracker_start t) = Ok (ta ++ [None]) /\
  (forall n, game_calls (mc_build mc) p (player_names st) n (game_start g) = Ok (firstn n (map Some gs ++ repeat None n))) /\
  (table mc p rows (merge_start st t g None) = Panic <->
   Exists (stops (mc_build mc) (users_of st)) (map tracker_item (present ta)) \/ Exists (stops (mc_build mc) (users_of st)) (map game_item_event gs)) /\
  (table mc p rows (merge_start st t g None) <> Panic -> exists res, table mc p rows (merge_start st t g None) = Ok res).
Proof. exact table_stop. Qed.
Print Assumptions C145_tables.
(** Whatever the filters: if no event of the two iterators stops the program, no
    number of calls of the filtered iterator panics or fails. *)
Theorem C145_filters : forall mc p init d b st t g, starts init d b st -> bytes_ok t -> bytes_ok g -> mc_build mc = Wrapping \/ no_run 9 t -> exists ta gs,
  (forall n, tracker_calls (mc_build mc) p n (tracker_start t) = Ok (firstn n (ta ++ repeat None n))) /\
  (forall n, game_calls (mc_build mc) p (player_names st) n (game_start g) = Ok (firstn n (map Some gs ++ repeat None n))) /\
  (~ Exists (stops (mc_build mc) (users_of st)) (map tracker_item (present ta) ++ map game_item_event gs) ->
   forall f n, exists answers, answers_of (merge_calls mc p n (merge_start st t g f)) = Ok answers).
Proof. exact filters_run. Qed.
Print Assumptions C145_filters.

(** Group 11 of ana (user 0), and of nobody (user 9); a position report whose
    coordinate overflows, in a program with overflow checks and in one without. *)
Definition ex_overflow : sc2_event := ETracker 9 (TUnitPosition (mk_unit_positions 7 [1; 5; 6; 1; 536870912; 6])).
Example C145_example :
  stops Checked (users_of ex_state) (EGame 9 0 None (GSelectionDelta (mk_selection 11 0 SMNone [] []))) /\
  handle_transition ex_mc ex_state (EGame 9 0 None (GSelectionDelta (mk_selection 11 0 SMNone [] []))) = Panic /\
  ~ stops Checked (users_of ex_state) (EGame 9 9 None (GControlGroupUpdate (mk_control 11 GClear SMNone))) /\
  stops Checked (users_of ex_state) ex_overflow /\ handle_transition ex_mc ex_state ex_overflow = Panic /\
  ~ stops Wrapping (users_of ex_state) ex_overflow.
Proof.
  split; [split; [vm_compute; discriminate|reflexivity]|]. split; [vm_compute; reflexivity|]. split; [intros (H & _); apply H; vm_compute; reflexivity|].
  split; [split; [reflexivity|]; exists 1%nat; split; [cbn; lia|]; cbn; intros (_ & H & _); lia|]. split; [vm_compute; reflexivity|]. intros (H & _); discriminate.
Qed.
(** The replay of [C128_damage_refuted]: the only game event stops every table. *)
Example C145_table_example : exists init d b st t, starts init d b st /\ bytes_ok t /\ bytes_ok d_g /\ no_run 9 t /\
  table ex_mc P87702 (fun _ => [tt]) (merge_start st t d_g None) = Panic.
Proof.
  exists ex_init, ex_details, ex_balance, ex_start, (t_sector t_events). split; [exact ex_starts|].
  split; [apply byte_list_ok; vm_compute; reflexivity|]. split; [apply byte_list_ok; vm_compute; reflexivity|].
  split; [apply few_continued; vm_compute; lia|]. vm_compute. reflexivity.
Qed.
