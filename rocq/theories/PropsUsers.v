(** * C119: the filter for the user with a name *)
From Verif Require Import Base Types F32 Utf8 BitSpec BitFacts BitEncode Dispatch ByteTypes BitTypes Events Tags Maps Lobby Balance Convert ConvertSpec Stream Iterators StreamSpec SectorEncode State StateSpec StateExample
  Merge MergeSpec PropsIterators PropsMerge UserSpec UserFacts.
#[local] Open Scope string_scope.
#[local] Open Scope Z_scope.
#[local] Open Scope list_scope.

(** C119, false: in a two-player lobby where the users have the numbers of
    their seats, the filter for "bob" shows a unit of "ana" (players are numbered
    from one by the tracker events) ... *)
Definition duel_init : init_data :=
  mk_init 1 "sha" "f" 87702 [mk_initial "ana" None; mk_initial "bob" None] (mk_description true 200 176) [ex_slot 0 0; ex_slot 1 1].
Definition duel_start : state := match initial_state duel_init ex_details ex_balance with Ok st => st | _ => mk_state [] [] [] end.
Lemma duel_starts : starts duel_init ex_details ex_balance duel_start.
Proof. exists duel_start. split; [reflexivity|]. split; [reflexivity|]. split; [reflexivity|]. apply Permutation.Permutation_refl. Qed.
Lemma duel_seated : seated duel_init ex_details.
Proof.
  split; [cbn; constructor; [intros [E|[]]; discriminate|constructor; [intros []|constructor]]|].
  intros p [<-|[<-|[]]]; eexists; (split; [reflexivity|]); (split; [eexists; split; [|]|]).
  all: try (intros s [<-|[<-|[]]] E; cbn in E; try discriminate; reflexivity).
  1: left; reflexivity. 1: reflexivity. 1: right; left; reflexivity. reflexivity.
Qed.
Definition t_of (e : sc2_event) : Z * val := match e with ETracker l x => match tracker_value x with Some v => (l, v) | None => (l, VNull) end | EGame l _ _ _ => (l, VNull) end.
Definition duel_tracker : list Z := Eval vm_compute in t_sector (map t_of [ex_setup 1 0; ex_setup 2 1; ex_born 5 7 "SCV" 1]).
Definition any_filter : filters := mk_filters None None None None None None None true.
Definition bob_filter : filters := set_player_id_from_user_name any_filter "bob" ex_details.
Theorem C119_units_refuted : exists mc p init d b st t g f answers it' i u c, starts init d b st /\ seated init d /\ bytes_ok t /\ bytes_ok g /\
  NoDup (map pd_name (de_players d)) /\ In "bob" (map pd_name (de_players d)) /\
  merge_calls mc p 2 (merge_start st t g (Some (set_player_id_from_user_name f "bob" d))) = Ok (answers, it') /\
  In (Some i) answers /\ it_hint i = HRegistered u c /\ su_player u = Some "ana".
Proof.
  assert (B : match merge_calls ex_mc P87702 2 (merge_start duel_start duel_tracker [] (Some bob_filter)) with
    | Ok ([_; Some i], _) => match it_hint i with HRegistered u _ => su_player u = Some "ana" | _ => False end | _ => False end) by (vm_compute; reflexivity).
  destruct (merge_calls ex_mc P87702 2 (merge_start duel_start duel_tracker [] (Some bob_filter))) as [[answers it']| |] eqn:E; try contradiction.
  destruct answers as [|a [|[i|] [|]]]; try contradiction. destruct (it_hint i) as [u c| | | | | | |] eqn:Eh; try contradiction.
  exists ex_mc, P87702, duel_init, ex_details, ex_balance, duel_start, duel_tracker, [], any_filter. exists [a; Some i], it', i, u, c.
  split; [exact duel_starts|]. split; [exact duel_seated|]. split; [apply byte_list_ok; vm_compute; reflexivity|]. split; [constructor|].
  split; [cbn; constructor; [intros [Q|[]]; discriminate|constructor; [intros []|constructor]]|]. split; [right; left; reflexivity|].
  split; [exact E|]. split; [right; left; reflexivity|]. split; [exact Eh|exact B].
Qed.
Print Assumptions C119_units_refuted.
(** ... where the seats and the users have other numbers it shows what another
    user does ... *)
Definition swapped_init : init_data :=
  mk_init 1 "sha" "f" 87702 [mk_initial "ana" None; mk_initial "bob" None] (mk_description true 200 176) [ex_slot 1 0; ex_slot 0 1].
Definition swapped_start : state := match initial_state swapped_init ex_details ex_balance with Ok st => st | _ => mk_state [] [] [] end.
Definition swapped_game : list Z := Eval vm_compute in g_sector [(3, click 0 262145); (6, click 1 262146)].
Lemma swapped_starts : starts swapped_init ex_details ex_balance swapped_start.
Proof. exists swapped_start. split; [reflexivity|]. split; [reflexivity|]. split; [reflexivity|]. apply Permutation.Permutation_refl. Qed.
Theorem C119_commands_refuted : exists mc p init d b st t g f answers it' i l u e, starts init d b st /\ bytes_ok t /\ bytes_ok g /\
  NoDup (map pd_name (de_players d)) /\ In "bob" (map pd_name (de_players d)) /\
  merge_calls mc p 2 (merge_start st t g (Some (set_player_id_from_user_name f "bob" d))) = Ok (answers, it') /\
  answers = [Some i; None] /\ it_event i = EGame l u (Some "ana") e.
Proof.
  assert (B : match merge_calls ex_mc P87702 2 (merge_start swapped_start [] swapped_game (Some bob_filter)) with
    | Ok ([Some i; None], _) => match it_event i with EGame _ _ (Some n) _ => n = "ana" | _ => False end | _ => False end) by (vm_compute; reflexivity).
  destruct (merge_calls ex_mc P87702 2 (merge_start swapped_start [] swapped_game (Some bob_filter))) as [[answers it']| |] eqn:E; try contradiction.
  destruct answers as [|[i|] [|[|] [|]]]; try contradiction. destruct (it_event i) as [|l u [n|] e] eqn:Eh; try contradiction. subst n.
  exists ex_mc, P87702, swapped_init, ex_details, ex_balance, swapped_start, [], swapped_game, any_filter. exists [Some i; None], it', i, l, u, e.
  split; [exact swapped_starts|]. split; [constructor|]. split; [apply byte_list_ok; vm_compute; reflexivity|].
  split; [cbn; constructor; [intros [Q|[]]; discriminate|constructor; [intros []|constructor]]|]. split; [right; left; reflexivity|].
  split; [exact E|]. split; [reflexivity|exact Eh].
Qed.
Print Assumptions C119_commands_refuted.
(** ... a name nobody has changes nothing, so without an earlier choice every
    player is shown ... *)
Theorem C119_unknown : forall f name d, ~ In name (map pd_name (de_players d)) -> set_player_id_from_user_name f name d = f.
Proof. exact choose_unknown. Qed.
Print Assumptions C119_unknown.
(** ... and a name somebody has chooses the seat of the last one with it, or, if
    he has none, removes an earlier choice. *)
Theorem C119_choice : forall f name d p, last_named name d p -> fi_player (set_player_id_from_user_name f name d) = pd_slot p.
Proof. exact choose_last. Qed.
Print Assumptions C119_choice.
Theorem C119_other_filters : forall f name d, same_but_player f (set_player_id_from_user_name f name d).
Proof. exact choose_others. Qed.
Print Assumptions C119_other_filters.
(** What is left: where every player has a seat and the users have the numbers
    of the seats, every game event shown is one of a user with that name,
    whatever the bytes of the two sectors and for any other filters. *)
Theorem C119_commands_partial : forall mc p init d b st t g f name n answers it', starts init d b st -> bytes_ok t -> bytes_ok g -> seated init d -> In name (map pd_name (de_players d)) ->
  merge_calls mc p n (merge_start st t g (Some (set_player_id_from_user_name f name d))) = Ok (answers, it') ->
  Forall (fun i => match it_event i with EGame _ _ shown _ => shown = Some name | ETracker _ _ => True end) (present answers).
Proof. exact named_events. Qed.
Print Assumptions C119_commands_partial.
(** And the name on a game event is always that of the user of the event. *)
Theorem C119_names : forall mc p init d b st t g f n answers it', starts init d b st -> bytes_ok t -> bytes_ok g -> merge_calls mc p n (merge_start st t g f) = Ok (answers, it') ->
  Forall (fun i => match it_event i with EGame _ u shown _ => shown = player_names st u | ETracker _ _ => True end) (present answers).
Proof. exact event_names. Qed.
Print Assumptions C119_names.
Example C119_example : seated duel_init ex_details /\ last_named "bob" ex_details (ex_player "bob" 1) /\ fi_player bob_filter = Some 1 /\
  fi_player (set_player_id_from_user_name bob_filter "eve" ex_details) = Some 1 /\
  exists answers it', merge_calls ex_mc P87702 2 (merge_start duel_start [] swapped_game (Some bob_filter)) = Ok (answers, it') /\ length (present answers) = 1%nat /\
    player_names duel_start 1 = Some "bob".
Proof.
  split; [exact duel_seated|]. split; [exists [ex_player "ana" 0], []; split; [reflexivity|]; split; [reflexivity|intros []]|]. split; [reflexivity|]. split; [reflexivity|].
  destruct (merge_calls ex_mc P87702 2 (merge_start duel_start [] swapped_game (Some bob_filter))) as [[answers it']| |] eqn:E; [|vm_compute in E; discriminate|vm_compute in E; discriminate].
  exists answers, it'. split; [reflexivity|]. split; [|reflexivity].
  assert (B : match merge_calls ex_mc P87702 2 (merge_start duel_start [] swapped_game (Some bob_filter)) with Ok (a, _) => length (present a) = 1%nat | _ => False end) by (vm_compute; reflexivity).
  rewrite E in B. exact B.
Qed.
