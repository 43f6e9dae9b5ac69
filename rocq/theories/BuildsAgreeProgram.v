(** * Builds with and without overflow checks: state machine, tables, program *)
From Verif Require Import Base F32 Types Versioned ByteTypes BitInterp BitTypes Dispatch Tags Utf8 Events Convert Stream Iterators Maps Balance Lobby Times DetailsData State Merge Rows Files Archive Cli Viewer CacheFiles BalanceJson Program BuildsAgree.
#[local] Open Scope string_scope.
#[local] Open Scope Z_scope.
#[local] Open Scope list_scope.

(** The same machine, but for the overflow checks. *)
Notation checked sort := (mk_machine Checked sort).
Notation release sort := (mk_machine Wrapping sort).
(** What is left behind is the same too, unless the first run panics. *)
Definition same_run {A} (x y : outcome unit * A) : Prop := fst x <> Panic -> y = x.
Lemma same_run_refl : forall A (x : outcome unit * A), same_run x x.
Proof. intros A x _. reflexivity. Qed.

(** ** Positions *)
Lemma tags_ovf_same : forall z, same (Tags.ovf_i32 Checked z) (Tags.ovf_i32 Wrapping z).
Proof. intros z. unfold Tags.ovf_i32. destruct (in_i32 z); [apply same_refl|apply same_panic]. Qed.
Lemma cache_ovf_same : forall z, same (CacheFiles.ovf_i32 Checked z) (CacheFiles.ovf_i32 Wrapping z).
Proof. intros z. unfold CacheFiles.ovf_i32. destruct (in_i32 z); [apply same_refl|apply same_panic]. Qed.
#[export] Hint Resolve tags_ovf_same cache_ovf_same : same.
Lemma positions_loop_same : forall n l i, (length l <= n)%nat -> same (positions_loop Checked i l) (positions_loop Wrapping i l).
Proof.
  induction n as [|n IH]; intros [|d [|x [|y l]]] i H; cbn [length] in H; try lia; cbn [positions_loop]; try apply same_refl. sames.
  apply same_bind; [apply IH; lia|]. intros res _. apply same_refl.
Qed.
Lemma positions_same : forall i l, same (to_unit_positions_vec Checked i l) (to_unit_positions_vec Wrapping i l).
Proof. intros i l. apply (positions_loop_same (length l)). lia. Qed.

Section Machine.
  Variable sort : list sc2_unit -> list sc2_unit.
  Lemma transition_same : forall st e, same (handle_transition (checked sort) st e) (handle_transition (release sort) st e).
  Proof.
    intros st [l x|l uid n x]; cbn [handle_transition].
    - apply same_bind; [|intros [? [? ?]] _; apply same_refl]. destruct x; cbn [handle_tracker_event]; try apply same_refl.
      unfold handle_unit_position. cbn [mc_build]. apply same_bind; [apply positions_same|]. intros ps _. apply same_refl.
    - apply same_bind; [|intros [? [? ?]] _; apply same_refl]. destruct x; cbn [handle_game_event]; try apply same_refl.
  Qed.
  Lemma run_same : forall evs st, same (run (checked sort) st evs) (run (release sort) st evs).
  Proof.
    induction evs as [|e evs IH]; intros st; cbn [run]; [apply same_refl|]. apply same_bind; [apply transition_same|]. intros [st' i] _.
    apply same_bind; [apply IH|]. intros [st'' is] _. apply same_refl.
  Qed.
  Variable p : proto.
  Lemma fill_tracker_same : forall it, same (fill_tracker (checked sort) p it) (fill_tracker (release sort) p it).
  Proof. intros it. unfold fill_tracker. destruct (mg_next_tracker it); [apply same_refl|]. cbn [mc_build]. apply same_bind; [apply tracker_next_same|]. intros [x s] _. apply same_refl. Qed.
  Lemma fill_game_same : forall it, same (fill_game (checked sort) p it) (fill_game (release sort) p it).
  Proof. intros it. unfold fill_game. destruct (mg_next_game it); [apply same_refl|]. cbn [mc_build]. apply same_bind; [apply game_next_same|]. intros [x s] _. apply same_refl. Qed.
  Lemma advance_same : forall it, same (advance (checked sort) p it) (advance (release sort) p it).
  Proof. intros it. unfold advance. apply same_bind; [apply fill_tracker_same|]. intros a _. apply same_bind; [apply fill_game_same|]. intros b _. apply same_refl. Qed.
  Lemma merge_fuel_same : forall n it, same (merge_fuel (checked sort) p n it) (merge_fuel (release sort) p n it).
  Proof.
    induction n as [|n IH]; intros it; cbn [merge_fuel]; [apply same_refl|]. unfold round. apply same_bind; [apply advance_same|]. intros [[e|] it1] _; [|apply same_refl].
    apply same_bind; [apply transition_same|]. intros [st i] _. cbv zeta. destruct (mg_filters (with_state st it1)) as [f|]; [|apply same_refl].
    destruct (skip_event f (it_event i)); [apply IH|apply same_refl].
  Qed.
  Lemma merge_next_same : forall it, same (merge_next (checked sort) p it) (merge_next (release sort) p it).
  Proof. intros it. apply merge_fuel_same. Qed.
  Lemma merge_calls_same : forall n it, same (merge_calls (checked sort) p n it) (merge_calls (release sort) p n it).
  Proof.
    induction n as [|n IH]; intros it; cbn [merge_calls]; [apply same_refl|]. apply same_bind; [apply merge_next_same|]. intros [r it1] _.
    apply same_bind; [apply IH|]. intros [rs it2] _. apply same_refl.
  Qed.
  Lemma collect_fuel_same : forall n it, same (collect_fuel (checked sort) p n it) (collect_fuel (release sort) p n it).
  Proof.
    induction n as [|n IH]; intros it; cbn [collect_fuel]; [apply same_refl|]. apply same_bind; [apply merge_next_same|]. intros [[r|] it1] _; [|apply same_refl].
    apply same_bind; [apply IH|]. intros rs _. apply same_refl.
  Qed.
  Lemma table_same : forall A (rows : item -> list A) it, same (table (checked sort) p rows it) (table (release sort) p rows it).
  Proof. intros A rows it. unfold table. apply same_bind; [apply collect_fuel_same|]. intros l _. apply same_refl. Qed.

  (** ** Viewer *)
  Lemma take_turn_same : forall t a, same (take_turn (checked sort) p t a) (take_turn (release sort) p t a).
  Proof.
    intros [i b] a. unfold take_turn. cbn [fst snd]. apply same_bind; [|intros a' _; apply same_refl]. destruct i as [[k kind|m|]|]; try apply same_refl.
    assert (F : same (forward (checked sort) p a) (forward (release sort) p a)) by (unfold forward; apply same_bind; [apply merge_next_same|]; intros [j it] _; apply same_refl).
    unfold handle_key_press. destruct kind; try apply same_refl. destruct k as [c| | | | | |]; try apply same_refl; try exact F.
    destruct c as [b0 b1 b2 b3 b4 b5 b6 b7]. destruct b0, b1, b2, b3, b4, b5, b6, b7; try apply same_refl; exact F.
  Qed.
  Lemma view_same : forall ts a, same (view (checked sort) p ts a) (view (release sort) p ts a).
  Proof.
    induction ts as [|t ts IH]; intros a; cbn [view]; destruct (ap_exit a); try apply same_refl. apply same_bind; [apply take_turn_same|]. intros a' _.
    apply same_bind; [apply IH|]. intros [fs z] _. apply same_refl.
  Qed.
  Lemma skip_zero_same : forall n i it, same (skip_zero (checked sort) p n i it) (skip_zero (release sort) p n i it).
  Proof.
    induction n as [|n IH]; intros [i|] it; cbn [skip_zero]; try apply same_refl. destruct (item_loop i =? 0); [|apply same_refl].
    apply same_bind; [apply merge_next_same|]. intros [i' it'] _. apply IH.
  Qed.
  Lemma new_app_same : forall it players size, same (new_app (checked sort) p it players size) (new_app (release sort) p it players size).
  Proof.
    intros it players size. unfold new_app. apply same_bind; [apply merge_next_same|]. intros [i it1] _. apply same_bind; [apply skip_zero_same|]. intros [i' it2] _. apply same_refl.
  Qed.
End Machine.

(** ** Replay files *)
Lemma time_same : forall a b, same (transform_to_naivetime Checked a b) (transform_to_naivetime Wrapping a b).
Proof.
  intros a b. unfold transform_to_naivetime, i64_sub. apply same_bind; [apply ovf_i64_same|]. intros x _. apply same_bind; [apply ovf_i64_same|]. intros y _. cbv zeta.
  apply same_bind; [|intros n _; apply same_refl]. destruct (in_u32 _); [apply same_refl|apply same_panic].
Qed.
Lemma details_new_same : forall f l, same (details_new Checked f l) (details_new Wrapping f l).
Proof.
  intros f l. unfold details_new. apply same_bind; [apply vparse_same|]. intros [r v] _. apply same_bind; [apply same_refl|]. intros d _. unfold set_details_metadata.
  apply same_bind; [apply time_same|]. intros t _. apply same_refl.
Qed.
Lemma init_new_same : forall n f s l, same (init_new Checked n f s l) (init_new Wrapping n f s l).
Proof. intros n f s l. unfold init_new. apply same_bind; [apply bparse_same|]. intros [r v] _. apply same_refl. Qed.
Lemma checked_header_same : forall a, same (checked_header Checked a) (checked_header Wrapping a).
Proof.
  intros a. unfold checked_header, read_protocol_header. apply same_bind; [|intros [s b] _; apply same_refl]. destruct (ar_user a) as [l|]; [|apply same_refl].
  apply same_bind; [apply vparse_same|]. intros [r v] _. apply same_refl.
Qed.
Ltac in_file := apply same_bind; [apply checked_header_same|]; intros ? _; apply same_bind; [apply same_refl|]; intros ? _.
Lemma file_tracker_same : forall a, same (file_tracker_events Checked a) (file_tracker_events Wrapping a).
Proof. intros a. unfold file_tracker_events. in_file. apply read_tracker_same. Qed.
Lemma file_game_same : forall a, same (file_game_events Checked a) (file_game_events Wrapping a).
Proof. intros a. unfold file_game_events. in_file. apply read_game_same. Qed.
Lemma file_message_same : forall a, same (file_message_events Checked a) (file_message_events Wrapping a).
Proof. intros a. unfold file_message_events. in_file. apply read_message_same. Qed.
Lemma file_details_same : forall f a, same (file_details Checked f a) (file_details Wrapping f a).
Proof. intros f a. unfold file_details. in_file. destruct (dispatch_details _); apply details_new_same. Qed.
Lemma file_raw_same : forall a, same (file_raw_details Checked a) (file_raw_details Wrapping a).
Proof. intros a. unfold file_raw_details. in_file. destruct (dispatch_details _); (apply same_bind; [apply vparse_same|]; intros [r v] _; apply same_refl). Qed.
Lemma file_init_same : forall n f a, same (file_init Checked n f a) (file_init Wrapping n f a).
Proof. intros n f a. unfold file_init. in_file. apply same_bind; [destruct (dispatch_init _); apply init_new_same|]. intros d _. apply same_refl. Qed.
Lemma init_try_same : forall w p f, same (init_try_from Checked w p f) (init_try_from Wrapping w p f).
Proof. intros w p f. unfold init_try_from. apply same_bind; [apply same_refl|]. intros a _. apply file_init_same. Qed.
Lemma details_try_same : forall w d, same (details_try_from Checked w d) (details_try_from Wrapping w d).
Proof. intros w d. unfold details_try_from. apply same_bind; [apply same_refl|]. intros a _. apply file_details_same. Qed.
Lemma lobby_try_same : forall w d, same (lobby_try_from Checked w d) (lobby_try_from Wrapping w d).
Proof. intros w d. unfold lobby_try_from. apply same_bind; [apply details_try_same|]. intros a _. apply same_refl. Qed.
Lemma iterator_new_same : forall w d all, same (iterator_new Checked w d all) (iterator_new Wrapping w d all).
Proof.
  intros w d all. unfold iterator_new. do 3 (apply same_bind; [apply same_refl|]; intros ? _). apply same_bind; [|intros st _; apply same_refl].
  unfold state_try_from. apply same_bind; [apply details_try_same|]. intros x _. apply same_bind; [apply lobby_try_same|]. intros l _. apply same_refl.
Qed.
Lemma readable_same : forall A B (f g : A -> Z -> outcome B), (forall x i, same (f x i) (g x i)) -> forall l i, same (readable_from f i l) (readable_from g i l).
Proof.
  intros A B f g H. induction l as [|x l IH]; intros i; cbn [readable_from]; [apply same_refl|]. pose proof (H x i) as K.
  destruct (f x i) as [b|e|]; [| |apply same_panic]; rewrite (K ltac:(discriminate)); [|apply IH]. apply same_bind; [apply IH|]. intros bs _. apply same_refl.
Qed.
Lemma usize_same : forall a b, same (usize_sub Checked a b) (usize_sub Wrapping a b).
Proof. intros a b. unfold usize_sub. destruct (b <=? a); [apply same_refl|apply same_panic]. Qed.
Lemma entries_same : forall t s1 s2, (forall p n, same (s1 p n) (s2 p n)) -> forall es max src acc,
  same (entry_loop Checked t s1 max src es acc) (entry_loop Wrapping t s2 max src es acc).
Proof.
  intros t s1 s2 H. induction es as [|[name|] es IH]; intros max src acc; cbn [entry_loop]; try apply same_refl. cbv zeta. destruct (is_dir t (src ++ [name])).
  - apply same_bind; [apply usize_same|]. intros n _. apply same_bind; [apply H|]. intros sub _. destruct sub; [apply IH|]. apply same_bind; [apply usize_same|]. intros r _. apply IH.
  - destruct (is_replay_name name && is_file t (src ++ [name]))%bool; [|apply IH]. destruct (max <=? _); [apply same_refl|apply IH].
Qed.
Lemma matching_same : forall t d p n, same (get_matching_files Checked t d p n) (get_matching_files Wrapping t d p n).
Proof. intros t. induction d as [|d IH]; intros p n; cbn [get_matching_files]; [apply same_refl|]. destruct (t p) as [[es|]| |]; try apply same_refl; apply entries_same, IH. Qed.
Lemma choose_same : forall t w p c, same (choose_sources Checked t w p c) (choose_sources Wrapping t w p c).
Proof. intros t w p c. unfold choose_sources. apply same_bind; [apply matching_same|]. intros files _. apply same_bind; [apply readable_same, init_try_same|]. intros inits _. apply same_refl. Qed.
Lemma stats_loop_same : forall w vs l a us ms, same (stats_loop Checked w vs l a us ms) (stats_loop Wrapping w vs l a us ms).
Proof.
  intros w vs. induction l as [|d l IH]; intros a us ms; cbn [stats_loop]; [apply same_refl|]. cbv zeta. pose proof (details_try_same w d) as K.
  destruct (details_try_from Checked w d) as [x|e|]; [| |apply same_panic]; rewrite (K ltac:(discriminate)); apply IH.
Qed.
Lemma scan_same : forall t w all order p, same (scan_path Checked t w all order p) (scan_path Wrapping t w all order p).
Proof.
  intros t w all order p. unfold scan_path. apply same_bind; [apply matching_same|]. intros files _. apply same_bind.
  - apply readable_same. intros x i. unfold try_read_init_data. apply same_bind; [apply same_refl|]. intros a _. destruct (path_text x); [apply file_init_same|apply same_refl].
  - intros inits _. apply same_bind; [apply stats_loop_same|]. intros [[ab us] ms] _. apply same_refl.
Qed.

(** ** Exported tables *)
Lemma map_out_same : forall A B (f g : A -> outcome B), (forall x, same (f x) (g x)) -> forall l, same (map_out f l) (map_out g l).
Proof. intros A B f g H. induction l as [|x l IH]; cbn [map_out]; [apply same_refl|]. apply same_bind; [apply H|]. intros b _. apply same_bind; [apply IH|]. intros bs _. apply same_refl. Qed.
Lemma details_rows_same : forall w d, same (details_rows Checked w d) (details_rows Wrapping w d).
Proof.
  intros w d. unfold details_rows. pose proof (lobby_try_same w d) as K. destruct (lobby_try_from Checked w d) as [x|e|]; [| |apply same_panic]; rewrite (K ltac:(discriminate)); apply same_refl.
Qed.
Lemma source_rows_same : forall A sort w all (rows : Z -> item -> list A) d, same (source_rows (checked sort) w all rows d) (source_rows (release sort) w all rows d).
Proof.
  intros A sort w all rows d. unfold source_rows. cbn [mc_build]. pose proof (iterator_new_same w d all) as K. destruct (iterator_new Checked w d all) as [x|e|]; [| |apply same_panic]; rewrite (K ltac:(discriminate)); [|apply same_refl].
  apply same_bind; [apply table_same|]. intros l _. apply same_refl.
Qed.
Lemma batches_same : forall A (f g : full_init -> outcome (option (list A))), (forall d, same (f d) (g d)) -> forall l, same_run (batches f l) (batches g l).
Proof.
  intros A f g H. induction l as [|d l IH]; cbn [batches]; [apply same_run_refl|]. pose proof (H d) as K. destruct (f d) as [[[|r rs]|]|e|]; [| | | |intros Q; cbn in Q; congruence]; rewrite (K ltac:(discriminate)); try apply IH; [|apply same_run_refl].
  destruct (batches f l) as [o bs]. intros P. rewrite (IH P). reflexivity.
Qed.
Lemma write_table_same : forall sort w all ok order sources n, same_run (write_table (checked sort) w all ok order sources n) (write_table (release sort) w all ok order sources n).
Proof.
  intros sort w all ok order sources n.
  assert (R : forall A (c : list (list A) -> content) rows name, same_run (if ok name then file_of name c (batches (source_rows (checked sort) w all rows) (order n sources)) else (Err (EOther "io"), []))
     (if ok name then file_of name c (batches (source_rows (release sort) w all rows) (order n sources)) else (Err (EOther "io"), []))).
  { intros A c rows name. destruct (ok name); [|apply same_run_refl]. intros P. unfold file_of in *. cbn [fst] in P.
    rewrite (batches_same A _ _ (source_rows_same A sort w all rows) (order n sources) P). reflexivity. }
  destruct n; unfold write_table; cbv zeta beta; try apply R. cbn [mc_build].
  assert (K : same (all_details_rows Checked w sources) (all_details_rows Wrapping w sources)) by (unfold all_details_rows; apply same_bind; [apply map_out_same, details_rows_same|]; intros ls _; apply same_refl).
  destruct (all_details_rows Checked w sources) as [r|e|]; [| |intros Q; cbn in Q; congruence]; rewrite (K ltac:(discriminate)); apply same_run_refl.
Qed.
Lemma write_tables_same : forall (f g : table_name -> outcome unit * list arrow_file), (forall n, same_run (f n) (g n)) -> forall l, same_run (write_tables f l) (write_tables g l).
Proof.
  intros f g H. induction l as [|n l IH]; cbn [write_tables]; [apply same_run_refl|]. pose proof (H n) as K. destruct (f n) as [[u|e|] fs]; [| |intros Q; cbn in Q; congruence]; rewrite (K ltac:(cbn; discriminate)); [|apply same_run_refl].
  destruct (write_tables f l) as [o' fs']. intros P. rewrite (IH P). reflexivity.
Qed.
Lemma snapshot_same : forall sort w all dir ok order sources, same_run (write_snapshot (checked sort) w all dir ok order sources) (write_snapshot (release sort) w all dir ok order sources).
Proof. intros sort w all dir ok order sources. unfold write_snapshot. destruct dir; [|apply same_run_refl]. apply write_tables_same. intros n. apply write_table_same. Qed.
Lemma export_same : forall sort t w all dir ok order p c, same_run (export_replays (checked sort) t w all dir ok order p c) (export_replays (release sort) t w all dir ok order p c).
Proof.
  intros sort t w all dir ok order p c. unfold export_replays. cbn [mc_build]. pose proof (choose_same t w p c) as K.
  destruct (choose_sources Checked t w p c) as [x|e|]; [| |intros Q; cbn in Q; congruence]; rewrite (K ltac:(discriminate)); [apply snapshot_same|apply same_run_refl].
Qed.

(** ** [get] *)
Lemma use_same : forall A (x y : outcome A) f g, same x y -> (forall a, same_run (f a) (g a)) -> same_run (use x f) (use y g).
Proof. intros A x y f g H K. destruct x as [a|e|]; cbn [use stop]; [| |intros Q; cbn in Q; congruence]; rewrite (H ltac:(discriminate)); [apply K|apply same_run_refl]. Qed.
Lemma andthen_same : forall a b c d, same_run a b -> same_run c d -> same_run (andthen a c) (andthen b d).
Proof.
  intros [[u|e|] la] b [oc lc] d H K P; unfold andthen in *; cbn [fst snd] in *; [| |congruence]; rewrite (H ltac:(cbn; discriminate)); cbn [fst snd]; [|reflexivity].
  rewrite (K P). reflexivity.
Qed.
Lemma print_fuel_same : forall sort p show n it, same_run (print_fuel (checked sort) p show n it) (print_fuel (release sort) p show n it).
Proof.
  intros sort p show. induction n as [|n IH]; intros it; cbn [print_fuel]; [apply same_run_refl|]. apply use_same; [apply merge_next_same|]. intros [[i|] it1]; cbn [fst snd]; [|apply same_run_refl].
  apply andthen_same; [apply same_run_refl|apply IH].
Qed.
Lemma get_one_same : forall sort w all c r a d, same_run (get_one (checked sort) w all c r a d) (get_one (release sort) w all c r a d).
Proof.
  intros sort w all c r a d. unfold get_one. cbv zeta. cbn [mc_build]. destruct r; try apply same_run_refl.
  3: apply use_same; [apply file_message_same|]; intros l; apply same_run_refl.
  3: apply use_same; [apply file_raw_same|]; intros l; apply same_run_refl.
  all: apply use_same; [apply iterator_new_same|]; intros it; apply andthen_same; [apply same_run_refl|]; apply andthen_same; [apply print_fuel_same|apply same_run_refl].
Qed.
Lemma get_loop_same : forall sort w all c r l, same_run (get_loop (checked sort) w all c r l) (get_loop (release sort) w all c r l).
Proof.
  intros sort w all c r. induction l as [|p l IH]; cbn [get_loop]; [apply same_run_refl|]. apply andthen_same; [|exact IH]. unfold get_source.
  destruct (open_file w (path_string p)) as [a|e|]; [|apply same_run_refl..]. destruct (path_text p); [|apply same_run_refl]. cbn [mc_build]. apply use_same; [apply file_init_same|]. intros d. apply get_one_same.
Qed.
Lemma get_cmd_same : forall sort t w all c r p, same_run (handle_get_cmd (checked sort) t w all c r p) (handle_get_cmd (release sort) t w all c r p).
Proof. intros sort t w all c r p. unfold handle_get_cmd. apply use_same; [apply same_refl|]. intros l. apply get_loop_same. Qed.
Lemma tui_same : forall sort w all c a d, same (tui_one (checked sort) w all c a d) (tui_one (release sort) w all c a d).
Proof.
  intros sort w all c a d. unfold tui_one. cbn [mc_build]. apply same_bind; [apply iterator_new_same|]. intros it _. apply same_bind; [apply file_raw_same|]. intros x _. apply new_app_same.
Qed.

(** ** Map files *)
Lemma pair32_same : forall x y, same (pair32 Checked x y) (pair32 Wrapping x y).
Proof. intros x y. unfold pair32. sames. Qed.
Lemma height_same : forall l m, same (parse_height_map Checked l m) (parse_height_map Wrapping l m).
Proof.
  intros l m. unfold parse_height_map. do 2 (apply same_bind; [apply same_refl|]; intros ? _). do 2 (apply same_bind; [apply same_refl|]; intros [? ?] _).
  apply same_bind; [apply pair32_same|]. intros dims _. destruct (negb _); [apply same_refl|]. apply same_bind; [apply same_refl|]. intros [? ?] _.
  do 2 (apply same_bind; [apply cache_ovf_same|]; intros ? _). destruct (_ <? _); [apply same_refl|]. apply same_bind; [apply cache_ovf_same|]. intros ? _. apply same_refl.
Qed.

(** ** The program *)
Definition with_machine {U} (mc : machine) (os : outside U) : outside U :=
  mk_outside U (os_enc os) (os_dec os) (os_id os) (os_xml os) (os_view os) (os_assets os) (os_generate os) mc (os_tree os) (os_world os)
    (os_path os) (os_is_dir os) (os_creates os) (os_arrival os) (os_walk os).
Lemma process_same : forall U (os : outside U) sort order order' ds a,
  fst (fst (process (with_machine (checked sort) os) order order' ds a)) <> Panic ->
  process (with_machine (release sort) os) order order' ds a = process (with_machine (checked sort) os) order order' ds a.
Proof.
  intros U os sort order order' ds a. unfold process. change (balance_data (with_machine (checked sort) os)) with (balance_data os). change (balance_data (with_machine (release sort) os)) with (balance_data os).
  destruct (balance_data os order ds a) as [m|e|]; cbn [use_run]; [|reflexivity..]. unfold viewed, with_machine.
  cbn [os_machine os_tree os_world os_path os_view os_is_dir os_creates os_arrival os_walk mc_build]. destruct (ag_command a) as [| | |r|c|tag].
  - reflexivity.
  - reflexivity.
  - intros P. set (al := map _ m) in *. pose proof (scan_same (os_tree os) (os_world os) al (os_walk os) (os_path os (ag_source a))) as K.
    destruct (scan_path Checked (os_tree os) (os_world os) al (os_walk os) (os_path os (ag_source a))) as [x|e|]; cbn [use_run fst] in *; [| |congruence]; rewrite (K ltac:(discriminate)); reflexivity.
  - destruct (balance_data os order' ds a) as [m'|e|]; cbn [use_run]; [|reflexivity..]. intros P. set (al := map _ m') in *.
    pose proof (get_cmd_same sort (os_tree os) (os_world os) al (ag_options a) r (os_path os (ag_source a))) as K.
    destruct (handle_get_cmd (checked sort) (os_tree os) (os_world os) al (ag_options a) r (os_path os (ag_source a))) as [o l]. cbn [fst] in P. rewrite (K P). reflexivity.
  - destruct (ag_output a) as [out|]; [|reflexivity]. intros P. set (al := map _ m) in *.
    pose proof (export_same sort (os_tree os) (os_world os) al (os_is_dir os out) (os_creates os out) (os_arrival os) (os_path os (ag_source a)) c) as K.
    destruct (export_replays (checked sort) (os_tree os) (os_world os) al (os_is_dir os out) (os_creates os out) (os_arrival os) (os_path os (ag_source a)) c) as [o l]. cbn [fst] in P. rewrite (K P). reflexivity.
  - reflexivity.
Qed.
