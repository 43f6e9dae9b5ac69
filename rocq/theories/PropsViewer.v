(** * C104-C108: the terminal viewer *)
From Coq Require Import Ascii Permutation.
From Verif Require Import Base Types Utf8 F32 F32Facts BitSpec BitPacked BitProofs BitInterp BitFormat BitEncode BitFacts Versioned VersionedEncode ByteTypes BitTypes Dispatch Events Tags Maps Lobby Balance
  Convert ConvertSpec ConvertFacts ConvertTracker Stream StreamFacts Iterators StreamSpec SectorEncode IteratorFacts IteratorStreams State StateSpec StateExample PropsIterators
  Merge MergeSpec MergeFacts MergeStreams MergeProofs PropsMerge Viewer ViewerSpec ViewerFacts.
#[local] Open Scope string_scope.
#[local] Open Scope Z_scope.
#[local] Open Scope list_scope.

(** A replay of three players: two units appear, the third player selects one. *)
Definition w_player (n : string) (slot c : Z) : player_details := mk_player n (mk_toon 2 0 1 7) "Terr" (255, c, 2, 3) 2 0 100 0 "Win" (Some slot) "".
Definition w_details : details := mk_details [w_player "ana" 0 10; w_player "bob" 1 20; w_player "eve" 2 30] "map" 0 0 [] 1 0.
Definition w_lobby (u v w : Z) : init_data :=
  mk_init 1 "sha" "f" 87702 [mk_initial "ana" None; mk_initial "bob" None; mk_initial "eve" None] (mk_description true 200 176) [ex_slot u 0; ex_slot v 1; ex_slot w 2].
Definition w_init : init_data := w_lobby 0 1 2.
Definition w_state (i : init_data) : state := match initial_state i w_details ex_balance with Ok st => st | _ => mk_state [] [] [] end.
Definition w_tevs : list (Z * val) := [(0, v_done 1 0); (1, v_type 7 1 [83; 67; 86]); (0, v_type 8 1 [83; 67; 86])].
Definition w_gevs : list (Z * (Z * val)) := [(2, (2, game_value (GSelectionDelta (mk_selection 10 0 SMNone [] [unit_tag 7 1])))); (1, click 0 262145)].
Definition w_t : list Z := Eval vm_compute in t_sector w_tevs.
Definition w_g : list Z := Eval vm_compute in g_sector w_gevs.
Definition w_merged (i : init_data) (f : option filters) : merged := merge_start (w_state i) w_t w_g f.
Definition w_turn (k : key) : turn := (Some (IKey k KPress), false).
Definition w_show (i : init_data) (f : option filters) (ts : list turn) : outcome (list frame) :=
  do a <- new_app ex_mc P87702 (w_merged i f) (de_players w_details) (200, 176); do x <- view ex_mc P87702 ts a; Ok (fst x).
Lemma w_starts : forall u v w, starts (w_lobby u v w) w_details ex_balance (w_state (w_lobby u v w)).
Proof.
  intros u v w. assert (E : initial_state (w_lobby u v w) w_details ex_balance = Ok (w_state (w_lobby u v w))) by reflexivity. eexists. split; [exact E|]. auto.
Qed.
Lemma w_bytes : bytes_ok w_t /\ bytes_ok w_g. Proof. split; apply byte_list_ok; vm_compute; reflexivity. Qed.
Lemma w_readable : Forall (fun ev => well_named (snd ev)) w_tevs.
Proof.
  apply Forall_cons; [right; apply all_utf8_nil; reflexivity|].
  apply Forall_cons; [right; unfold all_utf8; change (texts _) with [[83; 67; 86]]; constructor; [eexists; reflexivity|constructor]|].
  apply Forall_cons; [right; unfold all_utf8; change (texts _) with [[83; 67; 86]]; constructor; [eexists; reflexivity|constructor]|constructor].
Qed.
Lemma w_sectors : sectors_of ex_mc P87702 w_tevs w_t w_gevs w_g.
Proof.
  split; [apply w_bytes|]. split; [apply w_bytes|]. split; [apply encode_tracker_sector; vm_compute; reflexivity|]. split; [exact w_readable|].
  apply quirk_free_sector; [apply encode_user_sector; [vm_compute; reflexivity|vm_compute; reflexivity]|]. repeat constructor; vm_compute; reflexivity.
Qed.
Lemma w_shown : forall i f ts fs, w_show i f ts = Ok fs -> exists a z, new_app ex_mc P87702 (w_merged i f) (de_players w_details) (200, 176) = Ok a /\ view ex_mc P87702 ts a = Ok (fs, z).
Proof. intros i f ts fs E. unfold w_show in E. apply obind_ok in E as (a & Ea & E). apply obind_ok in E as ([fs' z] & Ev & E). injection E as <-. eauto. Qed.
(** The frames: kind and loop of the event, circles, lines of the two panels. *)
Definition outline (f : frame) : option (bool * Z) * nat * nat * nat := (kind (fr_event f), length (fr_circles f), length (fr_first f), length (fr_second f)).
Definition outlines (r : outcome (list frame)) : outcome (list (option (bool * Z) * nat * nat * nat)) := do l <- r; Ok (map outline l).
Definition w_forward : list turn := [w_turn (KChar "n"%char); w_turn KUp; (Some (IMouse (MDrag 3 4)), true); (Some (IKey KRight KRelease), false); w_turn (KChar " "%char); w_turn KRight; w_turn KRight; w_turn KEsc; w_turn KRight].
Definition w_frames : list frame := Eval vm_compute in match w_show w_init None w_forward with Ok l => l | _ => [] end.
Lemma w_example : exists a z, new_app ex_mc P87702 (w_merged w_init None) (de_players w_details) (200, 176) = Ok a /\ view ex_mc P87702 w_forward a = Ok (w_frames, z).
Proof. apply (w_shown w_init None w_forward w_frames). vm_compute. reflexivity. Qed.

(** C104.  For any two sectors, filter and turns: a frame is drawn at the start
    and after every turn until the viewer is told to quit; the event pane shows
    the answer of the last call of [next], the first one coming after the items of
    loop 0 and each press of a next key making one call; the map shows the state
    right after these calls. *)
Theorem C104_stepping : forall mc p init d b st t g f players size a ts frames z', starts init d b st -> bytes_ok t -> bytes_ok g ->
  new_app mc p (merge_start st t g f) players size = Ok a -> view mc p ts a = Ok (frames, z') ->
  (exists m, before_quit ts m /\ length frames = Datatypes.S (length m)) /\
  exists z, forall k fr, nth_error frames k = Some fr -> exists n answers it', presses (firstn k ts) n /\
    merge_calls mc p (Datatypes.S z + n) (merge_start st t g f) = Ok (answers, it') /\ opens_after z answers /\
    fr_event fr = last answers None /\ map_shows (mg_state it') (fr_circles fr) /\ cameras_show (get_player_color players) (mg_state it') (fr_boxes fr).
Proof. exact viewer_steps. Qed.
Print Assumptions C104_stepping.
(** [presses] and [before_quit] say one thing only. *)
Theorem C104_turns : forall l, (exists n, presses l n /\ forall m, presses l m -> m = n) /\ (exists q, before_quit l q /\ forall r, before_quit l r -> r = q).
Proof. exact turns_unique. Qed.
Print Assumptions C104_turns.
Example C104_example : starts w_init w_details ex_balance (w_state w_init) /\ bytes_ok w_t /\ bytes_ok w_g /\
  (exists a z, new_app ex_mc P87702 (w_merged w_init None) (de_players w_details) (200, 176) = Ok a /\ view ex_mc P87702 w_forward a = Ok (w_frames, z)) /\
  map outline w_frames = [(Some (true, 1), 1%nat, 0%nat, 0%nat); (Some (true, 1), 2%nat, 0%nat, 0%nat); (Some (true, 1), 2%nat, 0%nat, 0%nat); (Some (true, 1), 2%nat, 0%nat, 0%nat);
    (Some (true, 1), 2%nat, 0%nat, 0%nat); (Some (false, 2), 2%nat, 0%nat, 0%nat); (Some (false, 3), 2%nat, 0%nat, 0%nat); (None, 2%nat, 0%nat, 0%nat)].
Proof. split; [apply w_starts|]. split; [apply w_bytes|]. split; [apply w_bytes|]. split; [exact w_example|]. vm_compute. reflexivity. Qed.

(** C105, false: when the limit on events is reached the pane is empty, but the
    map goes on ... *)
Definition w_limit : filters := mk_filters None None None None None None (Some 2) false.
Definition w_limited : list frame := Eval vm_compute in match w_show w_init (Some w_limit) [w_turn KRight] with Ok l => l | _ => [] end.
Theorem C105_limit_refuted : exists mc p init d b st tevs t gevs g f players size a ts frames z' i j fi fj, starts init d b st /\ sectors_of mc p tevs t gevs g /\
  new_app mc p (merge_start st t g (Some f)) players size = Ok a /\ view mc p ts a = Ok (frames, z') /\
  (i <= j)%nat /\ nth_error frames i = Some fi /\ nth_error frames j = Some fj /\ fr_event fi = None /\ length (fr_circles fj) <> length (fr_circles fi).
Proof.
  destruct (w_shown w_init (Some w_limit) [w_turn KRight] w_limited) as (a & z & Ea & Ev); [vm_compute; reflexivity|].
  exists ex_mc, P87702, w_init, w_details, ex_balance, (w_state w_init), w_tevs, w_t, w_gevs, w_g, w_limit, (de_players w_details), (200, 176), a, [w_turn KRight], w_limited, z, 0%nat, 1%nat.
  eexists. eexists. split; [apply w_starts|]. split; [exact w_sectors|]. split; [exact Ea|]. split; [exact Ev|]. split; [lia|]. split; [reflexivity|]. split; [reflexivity|]. split; [reflexivity|]. cbn. discriminate.
Qed.
Print Assumptions C105_limit_refuted.
(** ... and after a tracker event with an unreadable name more events follow. *)
Theorem C105_unreadable_refuted : exists mc p init d b st t g players size a ts frames z' i j fi fj e, starts init d b st /\ bytes_ok t /\ bytes_ok g /\
  new_app mc p (merge_start st t g None) players size = Ok a /\ view mc p ts a = Ok (frames, z') /\
  (i <= j)%nat /\ nth_error frames i = Some fi /\ nth_error frames j = Some fj /\ fr_event fi = None /\ fr_event fj = Some e.
Proof.
  pose (t := t_sector [(5, v_type 1 0 [255]); (1, v_done 2 1)]).
  destruct (do a <- new_app ex_mc P87702 (merge_start ex_start t [] None) [] (200, 176); do x <- view ex_mc P87702 [w_turn KRight] a; Ok (a, x)) as [[a [fs z]]| |] eqn:E; [|vm_compute in E; discriminate|vm_compute in E; discriminate].
  assert (Q : match fs with [f1; f2] => match fr_event f1, fr_event f2 with None, Some _ => true | _, _ => false end | _ => false end = true).
  { change fs with (fst (snd (a, (fs, z)))). replace (a, (fs, z)) with (match (do a <- new_app ex_mc P87702 (merge_start ex_start t [] None) [] (200, 176); do x <- view ex_mc P87702 [w_turn KRight] a; Ok (a, x)) with Ok y => y | _ => (a, (fs, z)) end) by (rewrite E; reflexivity). vm_compute. reflexivity. }
  apply obind_ok in E as (a1 & Ea & E). apply obind_ok in E as ([fs1 z1] & Ev & E). assert (a1 = a /\ fs1 = fs /\ z1 = z) as (-> & -> & ->) by (repeat split; congruence).
  destruct fs as [|f1 [|f2 [|? ?]]]; try discriminate. destruct (fr_event f1) eqn:E1; [discriminate|]. destruct (fr_event f2) as [e|] eqn:E2; [|discriminate].
  exists ex_mc, P87702, ex_init, ex_details, ex_balance, ex_start, t, [], [], (200, 176), a, [w_turn KRight], [f1; f2], z, 0%nat, 1%nat, f1, f2, e.
  split; [exact ex_starts|]. split; [apply byte_list_ok; vm_compute; reflexivity|]. split; [constructor|]. split; [exact Ea|]. split; [exact Ev|]. split; [lia|]. auto.
Qed.
Print Assumptions C105_unreadable_refuted.
(** Otherwise, with any filter without a limit, an empty pane stays, and so does
    everything else. *)
Theorem C105_end_partial : forall mc p init d b st tevs t gevs g f players size a ts frames z', starts init d b st -> sectors_of mc p tevs t gevs g -> match f with Some f => fi_events f = None | None => True end ->
  new_app mc p (merge_start st t g f) players size = Ok a -> view mc p ts a = Ok (frames, z') ->
  forall i j fi fj, (i <= j)%nat -> nth_error frames i = Some fi -> nth_error frames j = Some fj -> fr_event fi = None -> fj = fi.
Proof. exact viewer_ends. Qed.
Print Assumptions C105_end_partial.
Example C105_example : starts w_init w_details ex_balance (w_state w_init) /\ sectors_of ex_mc P87702 w_tevs w_t w_gevs w_g /\
  map (fun f => kind (fr_event f)) (match w_show w_init None [w_turn KRight; w_turn KRight; w_turn KRight; w_turn KRight; w_turn KRight] with Ok l => l | _ => [] end) = [Some (true, 1); Some (true, 1); Some (false, 2); Some (false, 3); None; None].
Proof. split; [apply w_starts|]. split; [exact w_sectors|]. vm_compute. reflexivity. Qed.

(** C106.  What is on the map, in terms of the events alone: the one in the pane,
    if any, is the last; there is one circle for every unit that appeared and has
    not died, and one box for every user, at the last place his camera went to. *)
Theorem C106_map : forall mc p init d b st t g f players size a ts frames z' k fr, starts init d b st -> bytes_ok t -> bytes_ok g ->
  new_app mc p (merge_start st t g f) players size = Ok a -> view mc p ts a = Ok (frames, z') -> nth_error frames k = Some fr ->
  exists evs items st', run mc st evs = Ok (st', items) /\ (forall i, fr_event fr = Some i -> exists before, items = before ++ [i]) /\
    (exists ids, NoDup ids /\ (forall i, In i ids <-> alive i evs) /\ Forall2 (fun i c => exists u, unit_of st' i = Some u /\ circle_shows u c) ids (fr_circles fr)) /\
    (exists uids, NoDup uids /\ (forall u, In u uids <-> user_of st u <> None) /\
      Forall2 (fun u c => bx_center c = match last_some (camera_target u) evs with Some x => x | None => mk_point 0 0 end) uids (fr_boxes fr)).
Proof. exact viewer_map. Qed.
Print Assumptions C106_map.
Example C106_example : map (fun f => map ci_color (fr_circles f)) (firstn 2 w_frames) = [[(244, 245, 248)]; [(244, 245, 248); (244, 245, 248)]] /\
  map (fun f => map bx_center (fr_boxes f)) (firstn 1 w_frames) = [[mk_point 0 0; mk_point 0 0; mk_point 0 0]].
Proof. split; vm_compute; reflexivity. Qed.

(** C107, false: the selection of a third player is in neither panel ... *)
Definition w_three : list turn := [w_turn KRight; w_turn KRight].
Theorem C107_third_refuted : exists mc p init d b st tevs t gevs g players size a ts frames z' fr u, starts init d b st /\ sectors_of mc p tevs t gevs g /\
  new_app mc p (merge_start st t g None) players size = Ok a /\ view mc p ts a = Ok (frames, z') /\ nth_error frames (length ts) = Some fr /\
  units_at (mg_state (ap_iter z')) (indices (selection (mg_state (ap_iter z')) u)) <> [] /\ fr_first fr = [] /\ fr_second fr = [].
Proof.
  destruct (do a <- new_app ex_mc P87702 (w_merged w_init None) (de_players w_details) (200, 176); do x <- view ex_mc P87702 w_three a; Ok (a, x)) as [[a [fs z]]| |] eqn:E; [|vm_compute in E; discriminate|vm_compute in E; discriminate].
  pose (test := fun x : viewer * (list frame * viewer) => match nth_error (fst (snd x)) 2 with
    | Some f => match fr_first f, fr_second f, units_at (mg_state (ap_iter (snd (snd x)))) (indices (selection (mg_state (ap_iter (snd (snd x)))) 2)) with [], [], _ :: _ => true | _, _, _ => false end
    | None => false end).
  assert (Q : test (a, (fs, z)) = true).
  { replace (a, (fs, z)) with (match (do a <- new_app ex_mc P87702 (w_merged w_init None) (de_players w_details) (200, 176); do x <- view ex_mc P87702 w_three a; Ok (a, x)) with Ok y => y | _ => (a, (fs, z)) end) by (rewrite E; reflexivity). vm_compute. reflexivity. }
  unfold test in Q. cbn [fst snd] in Q. apply obind_ok in E as (a1 & Ea & E). apply obind_ok in E as ([fs1 z1] & Ev & E). assert (a1 = a /\ fs1 = fs /\ z1 = z) as (-> & -> & ->) by (repeat split; congruence).
  destruct (nth_error fs 2) as [f|] eqn:Ef; [|discriminate]. destruct (fr_first f) eqn:F1; [|discriminate]. destruct (fr_second f) eqn:F2; [|discriminate].
  exists ex_mc, P87702, w_init, w_details, ex_balance, (w_state w_init), w_tevs, w_t, w_gevs, w_g, (de_players w_details), (200, 176), a, w_three, fs, z, f, 2.
  split; [apply w_starts|]. split; [exact w_sectors|]. split; [exact Ea|]. split; [exact Ev|]. split; [exact Ef|]. split; [|auto]. intros K. rewrite K in Q. discriminate.
Qed.
Print Assumptions C107_third_refuted.
(** ... and which player has the first panel depends on how a hash map happens to
    be walked: the same replay, the same keys. *)
Definition w_turned : state := mk_state [] (rev (st_users (w_state w_init))) ex_balance.
Definition w_walk (st : state) : outcome (list frame) :=
  do a <- new_app ex_mc P87702 (merge_start st w_t w_g None) (de_players w_details) (200, 176); do x <- view ex_mc P87702 w_three a; Ok (fst x).
Lemma w_walked : forall st l, w_walk st = Ok l -> exists a z, new_app ex_mc P87702 (merge_start st w_t w_g None) (de_players w_details) (200, 176) = Ok a /\ view ex_mc P87702 w_three a = Ok (l, z).
Proof. intros st l E. unfold w_walk in E. apply obind_ok in E as (a & Ea & E). apply obind_ok in E as ([fs0 z] & Ev & E). injection E as <-. eauto. Qed.
Definition w_frames1 : list frame := Eval vm_compute in match w_walk (w_state w_init) with Ok l => l | _ => [] end.
Definition w_frames2 : list frame := Eval vm_compute in match w_walk w_turned with Ok l => l | _ => [] end.
Theorem C107_order_refuted : exists mc p init d b st st' t g players size ts frames frames' f f' k, starts init d b st /\ starts init d b st' /\ bytes_ok t /\ bytes_ok g /\
  (exists a z, new_app mc p (merge_start st t g None) players size = Ok a /\ view mc p ts a = Ok (frames, z)) /\
  (exists a z, new_app mc p (merge_start st' t g None) players size = Ok a /\ view mc p ts a = Ok (frames', z)) /\
  nth_error frames k = Some f /\ nth_error frames' k = Some f' /\ fr_event f = fr_event f' /\ fr_first f <> fr_first f'.
Proof.
  exists ex_mc, P87702, w_init, w_details, ex_balance, (w_state w_init), w_turned, w_t, w_g, (de_players w_details), (200, 176), w_three, w_frames1, w_frames2. eexists. eexists. exists 2%nat.
  split; [apply w_starts|]. split.
  { exists (w_state w_init). split; [reflexivity|]. split; [reflexivity|]. split; [reflexivity|]. apply Permutation_sym, Permutation_rev. }
  split; [apply w_bytes|]. split; [apply w_bytes|]. split; [apply w_walked; vm_compute; reflexivity|]. split; [apply w_walked; vm_compute; reflexivity|].
  split; [reflexivity|]. split; [reflexivity|]. split; [reflexivity|]. cbn. discriminate.
Qed.
Print Assumptions C107_order_refuted.
(** The panels show the selections of two users (if there are two): the
    registered units of each, in order, with name, index and ability. *)
Theorem C107_panels_partial : forall mc p init d b st t g f players size a ts frames z' k fr, starts init d b st -> bytes_ok t -> bytes_ok g ->
  new_app mc p (merge_start st t g f) players size = Ok a -> view mc p ts a = Ok (frames, z') -> nth_error frames k = Some fr ->
  exists evs items st' uids, run mc st evs = Ok (st', items) /\ (forall i, fr_event fr = Some i -> exists before, items = before ++ [i]) /\
    NoDup uids /\ (forall u, In u uids <-> user_of st u <> None) /\
    match uids with
    | [] => fr_first fr = [] /\ fr_second fr = []
    | [u] => selection_shows st' u (fr_first fr) /\ fr_second fr = []
    | u :: v :: _ => selection_shows st' u (fr_first fr) /\ selection_shows st' v (fr_second fr)
    end.
Proof. exact viewer_panels. Qed.
Print Assumptions C107_panels_partial.
Example C107_example : (exists a z, new_app ex_mc P87702 (merge_start w_turned w_t w_g None) (de_players w_details) (200, 176) = Ok a /\ view ex_mc P87702 w_three a = Ok (w_frames2, z)) /\
  option_map fr_first (nth_error w_frames2 2) = Some [mk_line "SCV" 7 ""].
Proof. split; [apply w_walked; vm_compute; reflexivity|reflexivity]. Qed.

(** C108, false: a player is given the colour of the one whose slot number is the
    user number, here the other player's. *)
Definition w_swapped : list frame := Eval vm_compute in match w_show (w_lobby 1 0 2) None [] with Ok l => l | _ => [] end.
Theorem C108_swapped_refuted : exists mc p init d b st t g size a ts frames z' fr u us c, starts init d b st /\ bytes_ok t /\ bytes_ok g /\
  new_app mc p (merge_start st t g None) (de_players d) size = Ok a /\ view mc p ts a = Ok (frames, z') /\ nth_error frames 0 = Some fr /\
  user_of st u = Some us /\ nth_error (fr_boxes fr) 0 = Some c /\ nth_error (map fst (st_users st)) 0 = Some u /\ bx_color c <> Some (rgb_of (ld_player (us_lobby us))) /\
  exists v vs, user_of st v = Some vs /\ v <> u /\ bx_color c = Some (rgb_of (ld_player (us_lobby vs))).
Proof.
  destruct (w_shown (w_lobby 1 0 2) None [] w_swapped) as (a & z & Ea & Ev); [vm_compute; reflexivity|].
  exists ex_mc, P87702, (w_lobby 1 0 2), w_details, ex_balance, (w_state (w_lobby 1 0 2)), w_t, w_g, (200, 176), a, [], w_swapped, z.
  eexists. exists 1. eexists. eexists. split; [apply w_starts|]. split; [apply w_bytes|]. split; [apply w_bytes|]. split; [exact Ea|]. split; [exact Ev|]. split; [reflexivity|].
  split; [vm_compute; reflexivity|]. split; [reflexivity|]. split; [reflexivity|]. split; [cbn; discriminate|]. exists 0. eexists. split; [vm_compute; reflexivity|]. split; [lia|]. reflexivity.
Qed.
Print Assumptions C108_swapped_refuted.
(** When the slot number of a player is his user number (below 256) and no two
    players have the same slot, his box and the name above his events have the
    colour of the details. *)
Theorem C108_colors_partial : forall mc p init d b st t g f size a ts frames z' k fr, starts init d b st -> bytes_ok t -> bytes_ok g ->
  new_app mc p (merge_start st t g f) (de_players d) size = Ok a -> view mc p ts a = Ok (frames, z') -> nth_error frames k = Some fr ->
  (forall x y, In x (de_players d) -> In y (de_players d) -> pd_slot x = pd_slot y -> x = y) ->
  let right u c := forall us, user_of st u = Some us -> pd_slot (ld_player (us_lobby us)) = Some u -> 0 <= u <= 255 -> c = Some (rgb_of (ld_player (us_lobby us))) in
  (exists uids, NoDup uids /\ (forall u, In u uids <-> user_of st u <> None) /\ Forall2 (fun u c => right u (bx_color c)) uids (fr_boxes fr)) /\
  (forall i l u n e, fr_event fr = Some i -> it_event i = EGame l u n e -> exists c, fr_name_color fr = Some c /\ right u c).
Proof. exact viewer_colors. Qed.
Print Assumptions C108_colors_partial.
Example C108_example : (forall x y, In x (de_players w_details) -> In y (de_players w_details) -> pd_slot x = pd_slot y -> x = y) /\
  option_map (fun us => pd_slot (ld_player (us_lobby us))) (user_of (w_state w_init) 2) = Some (Some 2) /\
  map (fun f => map bx_color (fr_boxes f)) (firstn 1 w_frames) = [[Some (10, 2, 3); Some (20, 2, 3); Some (30, 2, 3)]] /\
  option_map fr_name_color (nth_error w_frames 5) = Some (Some (Some (30, 2, 3))).
Proof.
  split; [|split; [vm_compute; reflexivity|split; vm_compute; reflexivity]].
  intros x y. cbn. intros [<-|[<-|[<-|[]]]] [<-|[<-|[<-|[]]]]; cbn; intros E; try discriminate; reflexivity.
Qed.
