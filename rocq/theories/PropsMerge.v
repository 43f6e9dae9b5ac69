(** * C23-C30, C71: the merged iterator and its filters *)
From Verif Require Import Base Types Utf8 F32 F32Facts BitSpec BitPacked BitProofs BitInterp BitFormat BitEncode BitFacts Versioned VersionedSpec VersionedEncode ByteTypes BitTypes Dispatch Events Tags Maps Lobby Balance
  Convert ConvertSpec ConvertFacts ConvertTracker Stream StreamFacts Iterators StreamSpec SectorEncode IteratorFacts IteratorStreams State StateSpec StateExample PropsIterators
  Merge MergeSpec MergeFacts MergeStreams MergeProofs.
#[local] Open Scope string_scope.
#[local] Open Scope Z_scope.
#[local] Open Scope list_scope.

(** A small replay: the sectors of some tracker events and of some game events. *)
Definition t_sector (evs : list (Z * val)) : list Z := match encode_tracker evs with Some b => b | None => [] end.
Definition g_sector (evs : list (Z * (Z * val))) : list Z := match encode_user (game_type P87702) evs with Some b => pack_bits b | None => [] end.
Definition click (u tag : Z) : Z * val := (u, game_value (GUnitClick tag)).
Definition t_events : list (Z * val) := [(3, v_done 1 0); (5, v_type 7 0 [65; 66])].
Definition g_events2 : list (Z * (Z * val)) := [(3, click 0 262145); (6, click 4 262146)].
Definition merge_example (f : option filters) : merged := merge_start ex_start (t_sector t_events) (g_sector g_events2) f.
Lemma readable : Forall (fun ev => well_named (snd ev)) t_events.
Proof.
  apply Forall_cons; [right; apply all_utf8_nil; reflexivity|]. apply Forall_cons; [right; unfold all_utf8; change (texts _) with [[65; 66]]; constructor; [eexists; reflexivity|constructor]|constructor].
Qed.
Lemma example_sectors : sectors_of ex_mc P87702 t_events (t_sector t_events) g_events2 (g_sector g_events2).
Proof.
  split; [apply byte_list_ok; vm_compute; reflexivity|]. split; [apply byte_list_ok; vm_compute; reflexivity|].
  split; [apply encode_tracker_sector; vm_compute; reflexivity|]. split; [exact readable|].
  apply quirk_free_sector; [apply encode_user_sector; [vm_compute; reflexivity|vm_compute; reflexivity]|].
  repeat constructor; vm_compute; reflexivity.
Qed.
(** The kind and loop of each answer. *)
Definition kind (a : option item) : option (bool * Z) :=
  match a with Some i => Some (match it_event i with ETracker l _ => (true, l) | EGame l _ _ _ => (false, l) end) | None => None end.
Definition kinds (r : outcome (list (option item) * merged)) : outcome (list (option (bool * Z))) := do x <- r; Ok (map kind (fst x)).

(** C23, false: a tracker event with an unreadable name hides the one after it
    for one call, which a later game event takes ... *)
Theorem C23_unreadable_refuted : exists mc p init d b st t g i1 i2, starts init d b st /\ bytes_ok t /\ bytes_ok g /\
  answers_of (merge_calls mc p 2 (merge_start st t g None)) = Ok [Some i1; Some i2] /\ event_loop (it_event i2) < event_loop (it_event i1).
Proof.
  exists ex_mc, P87702, ex_init, ex_details, ex_balance, ex_start, (t_sector [(5, v_type 1 0 [255]); (1, v_done 2 1)]), (g_sector [(10, click 0 262145)]).
  eexists. eexists. split; [exact ex_starts|]. split; [apply byte_list_ok; vm_compute; reflexivity|]. split; [apply byte_list_ok; vm_compute; reflexivity|].
  split; [vm_compute; reflexivity|]. vm_compute. reflexivity.
Qed.
Print Assumptions C23_unreadable_refuted.
(** ... and above 2^24 the game loop is rounded to a [f32] before it is compared. *)
Theorem C23_rounding_refuted : exists mc p init d b st tevs t gevs g i1 i2, starts init d b st /\ sectors_of mc p tevs t gevs g /\
  answers_of (merge_calls mc p 2 (merge_start st t g None)) = Ok [Some i1; Some i2] /\ event_loop (it_event i2) < event_loop (it_event i1).
Proof.
  exists ex_mc, P87702, ex_init, ex_details, ex_balance, ex_start, [(16777216, v_done 1 0)], (t_sector [(16777216, v_done 1 0)]), [(16777217, click 0 262145)], (g_sector [(16777217, click 0 262145)]).
  eexists. eexists. split; [exact ex_starts|]. split.
  { split; [apply byte_list_ok; vm_compute; reflexivity|]. split; [apply byte_list_ok; vm_compute; reflexivity|].
    split; [apply encode_tracker_sector; vm_compute; reflexivity|]. split; [apply Forall_cons; [right; apply all_utf8_nil; reflexivity|constructor]|].
    apply quirk_free_sector; [apply encode_user_sector; [vm_compute; reflexivity|vm_compute; reflexivity]|]. repeat constructor; vm_compute; reflexivity. }
  split; [vm_compute; reflexivity|]. vm_compute. reflexivity.
Qed.
Print Assumptions C23_rounding_refuted.
(** Otherwise the order is absolute, with any filter: readable names and game
    loops up to 2^24 (tracker loops may be any). *)
Theorem C23_order_partial : forall mc p init d b st tevs t gevs g f, starts init d b st -> sectors_of mc p tevs t gevs g ->
  Forall (fun ev => fst ev <= 2 ^ 24) (at_loops 0 gevs) ->
  forall n answers, answers_of (merge_calls mc p n (merge_start st t g f)) = Ok answers ->
  in_order (map (fun i => event_loop (it_event i)) (present answers)).
Proof. exact sectors_in_order. Qed.
Print Assumptions C23_order_partial.
Example C23_example : starts ex_init ex_details ex_balance ex_start /\ sectors_of ex_mc P87702 t_events (t_sector t_events) g_events2 (g_sector g_events2) /\
  Forall (fun ev => fst ev <= 2 ^ 24) (at_loops 0 g_events2) /\
  kinds (merge_calls ex_mc P87702 5 (merge_example None)) = Ok [Some (false, 3); Some (true, 3); Some (true, 8); Some (false, 9); None].
Proof. split; [exact ex_starts|]. split; [exact example_sectors|]. split; [repeat constructor; cbn; lia|]. vm_compute. reflexivity. Qed.

(** C24, false: at the same loop the game event comes first. *)
Theorem C24_tie_refuted : exists mc p it t g i it', reached mc p it /\ mg_filters it = None /\ next_tracker mc p it (Some t) /\ next_game mc p it (Some g) /\ fst t = fst g /\
  merge_next mc p it = Ok (Some i, it') /\ it_event i = game_item_event g.
Proof.
  exists ex_mc, P87702, (merge_example None). eexists. eexists. eexists. eexists.
  split. { exists ex_init, ex_details, ex_balance, ex_start, (t_sector t_events), (g_sector g_events2), None, O, []. split; [exact ex_starts|]. destruct example_sectors as (A & B & _). auto. }
  split; [reflexivity|]. split; [eexists; vm_compute; reflexivity|]. split; [eexists; vm_compute; reflexivity|]. split; [reflexivity|]. split; [vm_compute; reflexivity|]. reflexivity.
Qed.
Print Assumptions C24_tie_refuted.
(** Which of two pending events is delivered: the tracker event exactly when its
    loop is smaller (game loops up to 2^24). *)
Theorem C24_choice_partial : forall mc p it t g i it', reached mc p it -> mg_filters it = None -> next_tracker mc p it (Some t) -> next_game mc p it (Some g) ->
  0 <= fst g <= 2 ^ 24 -> merge_next mc p it = Ok (Some i, it') ->
  handle_transition mc (mg_state it) (if fst t <? fst g then ETracker (fst t) (snd t) else EGame (fst g) (gi_user (snd g)) (gi_name (snd g)) (gi_event (snd g))) = Ok (mg_state it', i).
Proof.
  intros mc p it t g i it' Hr Hf Ht Hg Hl E. pose proof (next_kind mc p it t g i it' Hr Hf Ht Hg E) as H1. unfold tracker_first in H1. rewrite (exact_loop_24 _ Hl) in H1. exact H1.
Qed.
Print Assumptions C24_choice_partial.
Example C24_example : exists it t g, reached ex_mc P87702 it /\ mg_filters it = None /\ next_tracker ex_mc P87702 it (Some t) /\ next_game ex_mc P87702 it (Some g) /\ fst t = 8 /\ fst g = 9.
Proof.
  destruct (merge_calls ex_mc P87702 2 (merge_example None)) as [[rs it]| |] eqn:E; [|vm_compute in E; discriminate|vm_compute in E; discriminate].
  exists it. vm_compute in E. injection E as _ <-. eexists. eexists.
  split. { exists ex_init, ex_details, ex_balance, ex_start, (t_sector t_events), (g_sector g_events2), None, 2%nat. eexists. split; [exact ex_starts|]. destruct example_sectors as (A & B & _). split; [exact A|]. split; [exact B|]. vm_compute. reflexivity. }
  split; [reflexivity|]. split; [eexists; vm_compute; reflexivity|]. split; [vm_compute; reflexivity|]. split; reflexivity.
Qed.

(** C25.  Two well-formed sectors: the items of all events, each stream in its
    own order, none lost and none twice; [delivered_as] is spelled out in C22. *)
Theorem C25_interleaved : forall mc p init d b st tevs t gevs g, starts init d b st -> sectors_of mc p tevs t gevs g -> exists ts gs evs,
  Forall2 (fun ev e => fst ev = fst e /\ tracker_from (snd ev) = Ok (snd e)) (at_loops 0 tevs) ts /\
  Forall2 (delivered_as (player_names st)) (filter supported_game (at_loops 0 gevs)) gs /\
  interleaving (map tracker_item ts) (map game_item_event gs) evs /\
  forall n, answers_of (merge_calls mc p n (merge_start st t g None)) = do its <- items_of (run mc st (firstn n evs)); Ok (map Some its ++ repeat None (n - length evs)).
Proof. exact sectors_merged. Qed.
Print Assumptions C25_interleaved.
(** Any two byte strings: the answers of the two iterators, interleaved; an
    answer without item appears only where [l] has a gap. *)
Theorem C25_every_sector : forall mc p init d b st t g, starts init d b st -> bytes_ok t -> bytes_ok g -> mc_build mc = Wrapping \/ no_run 9 t -> exists ta gs l,
  (forall n, tracker_calls (mc_build mc) p n (tracker_start t) = Ok (firstn n (ta ++ repeat None n))) /\
  (forall n, game_calls (mc_build mc) p (player_names st) n (game_start g) = Ok (firstn n (map Some gs ++ repeat None n))) /\
  interleaving (map tracker_item (present ta)) (map game_item_event gs) (present l) /\
  forall n, answers_of (merge_calls mc p n (merge_start st t g None)) = do x <- play mc st (firstn n l); Ok (snd x ++ repeat None (n - length l)).
Proof. exact bytes_merged. Qed.
Print Assumptions C25_every_sector.

Example C25_example : starts ex_init ex_details ex_balance ex_start /\ sectors_of ex_mc P87702 t_events (t_sector t_events) g_events2 (g_sector g_events2) /\
  exists items, answers_of (merge_calls ex_mc P87702 6 (merge_example None)) = Ok (map Some items ++ [None; None]) /\ length items = 4%nat.
Proof.
  split; [exact ex_starts|]. split; [exact example_sectors|].
  destruct (answers_of (merge_calls ex_mc P87702 6 (merge_example None))) as [rs| |] eqn:E; [|vm_compute in E; discriminate|vm_compute in E; discriminate].
  exists (present rs). vm_compute in E. injection E as <-. split; reflexivity.
Qed.

(** C26.  [None] is answered only when neither stream has an event ... *)
Theorem C26_none_pending : forall mc p it it', reached mc p it -> mg_filters it = None -> merge_next mc p it = Ok (None, it') -> next_tracker mc p it None /\ next_game mc p it None.
Proof. exact none_pending. Qed.
Print Assumptions C26_none_pending.
(** ... but not for ever: after a tracker event with an unreadable name others follow. *)
Theorem C26_stays_refuted : exists mc p init d b st t g i, starts init d b st /\ bytes_ok t /\ bytes_ok g /\
  answers_of (merge_calls mc p 2 (merge_start st t g None)) = Ok [None; Some i].
Proof.
  exists ex_mc, P87702, ex_init, ex_details, ex_balance, ex_start, (t_sector [(5, v_type 1 0 [255]); (1, v_done 2 1)]), []. eexists.
  split; [exact ex_starts|]. split; [apply byte_list_ok; vm_compute; reflexivity|]. split; [constructor|]. vm_compute. reflexivity.
Qed.
Print Assumptions C26_stays_refuted.
(** For readable sectors it is: every event comes before the first [None], and
    only [None] after it. *)
Theorem C26_stays_partial : forall mc p init d b st tevs t gevs g, starts init d b st -> sectors_of mc p tevs t gevs g -> exists evs : list sc2_event,
  length evs = (length tevs + length (filter supported_game (at_loops 0%Z gevs)))%nat /\
  forall n answers, answers_of (merge_calls mc p n (merge_start st t g None)) = Ok answers -> exists items,
    answers = map Some items ++ repeat None (n - length evs) /\ length items = Nat.min n (length evs).
Proof. exact sectors_end. Qed.
Print Assumptions C26_stays_partial.
Example C26_example : exists it, merge_calls ex_mc P87702 4 (merge_example None) = Ok it /\ reached ex_mc P87702 (snd it) /\ mg_filters (snd it) = None /\ exists it', merge_next ex_mc P87702 (snd it) = Ok (None, it').
Proof.
  eexists. split; [vm_compute; reflexivity|]. split; [|split; [reflexivity|eexists; vm_compute; reflexivity]].
  exists ex_init, ex_details, ex_balance, ex_start, (t_sector t_events), (g_sector g_events2), None, 4%nat. eexists. split; [exact ex_starts|]. destruct example_sectors as (A & B & _). split; [exact A|]. split; [exact B|]. vm_compute. reflexivity.
Qed.

(** C27.  Run the iterator without filter, up to some call that answers [None].
    With a filter (no [max_events]) it answers what remains when the items the
    filter hides are crossed out, hints included, and is then in the same state.
    This holds for every pair of byte strings and any build. *)
Theorem C27_filters_hide : forall mc p st t g n answers it', bytes_ok t -> bytes_ok g ->
  merge_calls mc p n (merge_start st t g None) = Ok (answers, it') -> last answers None = None ->
  forall f, fi_events f = None ->
  merge_calls mc p (length (filter (let_through f) answers)) (merge_start st t g (Some f)) = Ok (filter (let_through f) answers, with_filters (Some f) it').
Proof. exact filters_hide. Qed.
Print Assumptions C27_filters_hide.
(** What it hides: tracker events outside of the two loops, the limits included,
    and the events that [should_skip] (C71) refuses; nothing else. *)
Theorem C27_hidden : forall f i, let_through f (Some i) = true <->
  (forall l e, it_event i = ETracker l e -> (forall a, fi_min f = Some a -> a <= l) /\ (forall b, fi_max f = Some b -> l <= b)) /\
  event_skip f (it_event i) = false.
Proof. exact let_through_iff. Qed.
Print Assumptions C27_hidden.
Definition no_filter : filters := mk_filters None None None None None None None true.
Example C27_example : exists answers it', merge_calls ex_mc P87702 5 (merge_example None) = Ok (answers, it') /\ last answers None = None /\
  kinds (merge_calls ex_mc P87702 3 (merge_example (Some (mk_filters (Some 4) None (Some 5) None None None None true)))) = Ok [Some (true, 8); Some (false, 9); None].
Proof. eexists. eexists. split; [vm_compute; reflexivity|]. split; [reflexivity|]. vm_compute. reflexivity. Qed.

(** C28, false: one item less than asked for. *)
Theorem C28_count_refuted : exists mc p init d b st t g i, starts init d b st /\ bytes_ok t /\ bytes_ok g /\
  answers_of (merge_calls mc p 1 (merge_start st t g (Some no_filter))) = Ok [Some i] /\
  answers_of (merge_calls mc p 9 (merge_start st t g (Some (set_events (Some 1) no_filter)))) = Ok (repeat None 9).
Proof.
  exists ex_mc, P87702, ex_init, ex_details, ex_balance, ex_start, (t_sector t_events), (g_sector g_events2). eexists. split; [exact ex_starts|]. destruct example_sectors as (A & B & _).
  split; [exact A|]. split; [exact B|]. split; [vm_compute; reflexivity|]. vm_compute. reflexivity.
Qed.
Print Assumptions C28_count_refuted.
(** With [max_events = N]: the first N - 1 accepted items (none for N = 0 and
    N = 1), and [None] in the place of each later one. *)
Theorem C28_count_partial : forall mc p st t g n answers it', bytes_ok t -> bytes_ok g ->
  merge_calls mc p n (merge_start st t g None) = Ok (answers, it') -> last answers None = None ->
  forall f N, fi_events f = Some N -> 0 <= N -> exists f',
  merge_calls mc p (length (filter (let_through f) answers)) (merge_start st t g (Some f)) =
    Ok (first_items (Z.to_nat N - 1) (filter (let_through f) answers), with_filters (Some f') it').
Proof. exact filters_count. Qed.
Print Assumptions C28_count_partial.
Example C28_example : kinds (merge_calls ex_mc P87702 5 (merge_example (Some (set_events (Some 3) no_filter)))) = Ok [Some (false, 3); Some (true, 3); None; None; None].
Proof. vm_compute. reflexivity. Qed.

(** C29, false of game events. *)
Theorem C29_bounds_refuted : exists mc p it i it' f a, reached mc p it /\ mg_filters it = Some f /\ fi_min f = Some a /\ merge_next mc p it = Ok (Some i, it') /\ event_loop (it_event i) < a.
Proof.
  exists ex_mc, P87702, (merge_example (Some (mk_filters None None (Some 100) None None None None true))). eexists. eexists. eexists. exists 100.
  split. { eexists ex_init, ex_details, ex_balance, ex_start, (t_sector t_events), (g_sector g_events2), _, O, []. split; [exact ex_starts|]. destruct example_sectors as (A & B & _). split; [exact A|]. split; [exact B|]. reflexivity. }
  split; [reflexivity|]. split; [reflexivity|]. split; [vm_compute; reflexivity|]. reflexivity.
Qed.
Print Assumptions C29_bounds_refuted.
(** It holds of tracker events. *)
Theorem C29_bounds_partial : forall mc p it i it' f l e, reached mc p it -> mg_filters it = Some f -> merge_next mc p it = Ok (Some i, it') -> it_event i = ETracker l e ->
  (forall a, fi_min f = Some a -> a <= l) /\ (forall b, fi_max f = Some b -> l <= b).
Proof. exact loops_bounded. Qed.
Print Assumptions C29_bounds_partial.
Example C29_example : kinds (merge_calls ex_mc P87702 4 (merge_example (Some (mk_filters None None (Some 4) (Some 8) None None None true)))) = Ok [Some (false, 3); Some (true, 8); Some (false, 9); None].
Proof. vm_compute. reflexivity. Qed.

(** C30.  User ids take five bits, so comparing them as [u8] is harmless here. *)
Theorem C30_player : forall mc p it i it' f q, reached mc p it -> mg_filters it = Some f -> fi_player f = Some q -> merge_next mc p it = Ok (Some i, it') ->
  match it_event i with
  | EGame _ uid _ _ => uid = q
  | ETracker _ e => match controlling_player e with Some c => c = q | None => True end
  end.
Proof. exact players_kept. Qed.
Print Assumptions C30_player.
Example C30_example : exists i it', merge_next ex_mc P87702 (merge_start ex_start [] (g_sector g_events2) (Some (mk_filters (Some 4) None None None None None None true))) = Ok (Some i, it') /\
  match it_event i with EGame _ uid _ _ => uid = 4 | _ => False end.
Proof. eexists. eexists. split; [vm_compute; reflexivity|]. reflexivity. Qed.

(** C71, false: [should_skip] itself takes any user id and compares it modulo 256. *)
Theorem C71_user_id_refuted : exists f uid l n e, fi_player f = Some 1 /\ in_i64 uid = true /\ uid <> 1 /\ event_skip f (EGame l uid n e) = false.
Proof. exists (mk_filters (Some 1) None None None None None None true), 257, 0, None, (GUnitClick 1). split; [reflexivity|]. split; [reflexivity|]. split; [lia|reflexivity]. Qed.
Print Assumptions C71_user_id_refuted.
(** For user ids that fit, and for tracker events, it hides exactly what the
    player filter, the unit name filter and [include_stats] ask for. *)
Theorem C71_should_skip_partial : forall f e, (forall l uid n x, e = EGame l uid n x -> 0 <= uid <= 255) ->
  event_skip f e = true <->
  match e with
  | EGame _ uid _ _ => exists q, fi_player f = Some q /\ uid <> q
  | ETracker _ (TUnitDied x) => exists q, fi_player f = Some q /\ ud_killer_player x <> Some q
  | ETracker _ x =>
      (exists q c, fi_player f = Some q /\ controlling_player x = Some c /\ c <> q) \/
      (exists s c, fi_unit f = Some s /\ named_unit x = Some c /\ c <> s) \/
      (exists y, x = TPlayerStats y) /\ fi_stats f = false
  end.
Proof. exact should_skip_spec. Qed.
Print Assumptions C71_should_skip_partial.
Example C71_example : event_skip (mk_filters (Some 2) None None None None (Some "SCV") None true) (ETracker 5 (TUnitBorn (mk_unit_born 7 1 "Drone" 2 2 10 20 None None None))) = true.
Proof. reflexivity. Qed.
