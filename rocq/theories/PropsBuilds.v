(** * C131: builds with and without overflow checks

    [Checked] is a build with overflow checks (debug), [Wrapping] one without
    (release). *)
From Verif Require Import Base Vlq Types Versioned BitSpec BitPacked BitInterp ByteTypes BitTypes Dispatch Convert Stream Iterators Header Tags Events Balance Times State StateExample Merge PropsMerge Rows PropsRows Files Archive PropsArchive Cli PropsCli Viewer CacheFiles BalanceFiles Program PropsProgram BuildsAgree BuildsAgreeProgram PropsTags.
#[local] Open Scope string_scope.
#[local] Open Scope Z_scope.
#[local] Open Scope list_scope.

(** The decoders, for every layout of the two families and every input. *)
Theorem C131_decoders : (forall l, parse_vlq_int Checked l <> Panic -> parse_vlq_int Wrapping l = parse_vlq_int Checked l) /\
  (forall t l, vparse Checked t l <> Panic -> vparse Wrapping t l = vparse Checked t l) /\
  (forall t c, bparse Checked t c <> Panic -> bparse Wrapping t c = bparse Checked t c) /\
  (forall l, header_parse Checked l <> Panic -> header_parse Wrapping l = header_parse Checked l).
Proof. split; [exact vlq_same|]. split; [exact vparse_same|]. split; [exact bparse_same|exact header_same]. Qed.
Print Assumptions C131_decoders.
(** The event readers: all at once, or [n] calls of the iterators. *)
Theorem C131_readers : forall p,
  (forall l, read_tracker_events Checked p l <> Panic -> read_tracker_events Wrapping p l = read_tracker_events Checked p l) /\
  (forall l, read_game_events Checked p l <> Panic -> read_game_events Wrapping p l = read_game_events Checked p l) /\
  (forall l, read_message_events Checked p l <> Panic -> read_message_events Wrapping p l = read_message_events Checked p l) /\
  (forall n s, tracker_calls Checked p n s <> Panic -> tracker_calls Wrapping p n s = tracker_calls Checked p n s) /\
  (forall names n s, game_calls Checked p names n s <> Panic -> game_calls Wrapping p names n s = game_calls Checked p names n s).
Proof.
  intros p. split; [exact (read_tracker_same p)|]. split; [exact (read_game_same p)|]. split; [exact (read_message_same p)|]. split; [exact (tracker_calls_same p)|exact (game_calls_same p)].
Qed.
Print Assumptions C131_readers.
(** The readers of a replay file. *)
Theorem C131_files : forall a,
  (file_tracker_events Checked a <> Panic -> file_tracker_events Wrapping a = file_tracker_events Checked a) /\
  (file_game_events Checked a <> Panic -> file_game_events Wrapping a = file_game_events Checked a) /\
  (file_message_events Checked a <> Panic -> file_message_events Wrapping a = file_message_events Checked a) /\
  (forall i, file_details Checked i a <> Panic -> file_details Wrapping i a = file_details Checked i a) /\
  (forall n i, file_init Checked n i a <> Panic -> file_init Wrapping n i a = file_init Checked n i a).
Proof.
  intros a. split; [exact (file_tracker_same a)|]. split; [exact (file_game_same a)|]. split; [exact (file_message_same a)|]. split; [intros i; exact (file_details_same i a)|intros n i; exact (file_init_same n i a)].
Qed.
Print Assumptions C131_files.
(** The state after any history of events and what it reports, and [n] calls of the
    merged iterator, from any state and with any filters. *)
Theorem C131_history : forall sort st evs, run (mk_machine Checked sort) st evs <> Panic -> run (mk_machine Wrapping sort) st evs = run (mk_machine Checked sort) st evs.
Proof. intros sort st evs. exact (run_same sort evs st). Qed.
Print Assumptions C131_history.
Theorem C131_merged : forall sort p n it, merge_calls (mk_machine Checked sort) p n it <> Panic -> merge_calls (mk_machine Wrapping sort) p n it = merge_calls (mk_machine Checked sort) p n it.
Proof. exact merge_calls_same. Qed.
Print Assumptions C131_merged.
(** The files of a map, and the time of a replay. *)
Theorem C131_maps : (forall l m, parse_height_map Checked l m <> Panic -> parse_height_map Wrapping l m = parse_height_map Checked l m) /\
  (forall t o, transform_to_naivetime Checked t o <> Panic -> transform_to_naivetime Wrapping t o = transform_to_naivetime Checked t o).
Proof. split; [exact height_same|exact time_same]. Qed.
Print Assumptions C131_maps.
(** The viewer on a replay: the frames of any turns. *)
Theorem C131_viewer : forall sort w all c a d,
  (tui_one (mk_machine Checked sort) w all c a d <> Panic -> tui_one (mk_machine Wrapping sort) w all c a d = tui_one (mk_machine Checked sort) w all c a d) /\
  (forall p ts v, view (mk_machine Checked sort) p ts v <> Panic -> view (mk_machine Wrapping sort) p ts v = view (mk_machine Checked sort) p ts v).
Proof. intros sort w all c a d. split; [exact (tui_same sort w all c a d)|exact (view_same sort)]. Qed.
Print Assumptions C131_viewer.
(** Every run of the program: how it ends, what it prints and exports, and the
    directories it leaves.  [with_machine mc os]: the outside world [os], with the
    machine [mc]. *)
Theorem C131_program : forall U (os : outside U) sort order order' ds a,
  fst (fst (process (with_machine (mk_machine Checked sort) os) order order' ds a)) <> Panic ->
  process (with_machine (mk_machine Wrapping sort) os) order order' ds a = process (with_machine (mk_machine Checked sort) os) order order' ds a.
Proof. exact process_same. Qed.
Print Assumptions C131_program.

Definition ends_b {A} (x : outcome A) : bool := match x with Panic => false | _ => true end.
Lemma ends_ok : forall A (x : outcome A), ends_b x = true -> x <> Panic.
Proof. intros A [a|e|] H; discriminate. Qed.
(** The hypotheses hold for the replays of the other files; and the builds do
    differ where the first panics. *)
Example C131_example : read_tracker_events Checked P87702 (r_t) <> Panic /\ file_details Checked 0 a_good <> Panic /\
  run (mk_machine Checked (mc_sort ex_mc)) ex_start ex_events <> Panic /\ merge_calls (mk_machine Checked (mc_sort ex_mc)) P87702 5 (merge_example None) <> Panic.
Proof.
  repeat split; apply ends_ok; vm_compute; reflexivity.
Qed.
Definition far_positions : list sc2_event := [ETracker 9 (TUnitPosition (mk_unit_positions 7 [0; 2 ^ 30; 11]))].
Example C131_differ : parse_vlq_int Checked [128; 128; 128; 128; 128; 128; 128; 128; 128; 128; 1; 5] = Panic /\ (exists v, parse_vlq_int Wrapping [128; 128; 128; 128; 128; 128; 128; 128; 128; 128; 1; 5] = Ok ([5], v)) /\
  run (mk_machine Checked (mc_sort ex_mc)) ex_state far_positions = Panic /\ exists r, run (mk_machine Wrapping (mc_sort ex_mc)) ex_state far_positions = Ok r.
Proof.
  split; [vm_compute; reflexivity|]. split; [eexists; vm_compute; reflexivity|]. split; [vm_compute; reflexivity|]. 
  assert (B : match run (mk_machine Wrapping (mc_sort ex_mc)) ex_state far_positions with Ok _ => true | _ => false end = true) by (vm_compute; reflexivity).
  destruct (run (mk_machine Wrapping (mc_sort ex_mc)) ex_state far_positions) as [r|e|]; [|discriminate..]. exists r. reflexivity.
Qed.
Example C131_program_example : exists files, let r := process (with_machine (mk_machine Checked (mc_sort ex_mc)) ex_outside) (fun _ l => l) (fun _ l => l) (fun _ => None) (mk_args "r" "" "" (Some "out") (CmdExport any_props) (mk_cli None None None None None None true false)) in
  fst (fst r) = Ok tt /\ snd (fst r) = [FArrow files] /\ length files = 7%nat.
Proof.
  set (r := process _ _ _ _ _).
  assert (B : match r with (Ok _, [FArrow files], _) => length files = 7%nat | _ => False end) by (vm_compute; reflexivity).
  destruct r as [[o l] ds']. destruct o as [[]|e|]; [|contradiction..]. destruct l as [|[?|? ?|f|?|? ?] [|? ?]]; try contradiction. exists f. repeat split; assumption.
Qed.
