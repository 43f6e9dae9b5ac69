(** * Tables of replays with damaged sectors: proofs *)
From Verif Require Import Base Types Tags Events Maps Lobby Balance BitSpec BitFormat BitTypes Convert ConvertSpec Stream StreamFacts Iterators Dispatch VersionedSpec ByteTypes StreamSpec IteratorFacts IteratorStreams State StateFacts StateSpec StateSteps StateProofs Merge MergeSpec MergeFacts MergeStreams MergeProofs DetailsData Rows RowSpec RowFacts RowLife RowCommands.
#[local] Open Scope string_scope.
#[local] Open Scope Z_scope.
#[local] Open Scope list_scope.

(** The events up to the first gap. *)
Fixpoint up_to_gap {A} (l : list (option A)) : list A :=
  match l with Some a :: l' => a :: up_to_gap l' | _ => [] end.
Lemma up_to_gap_some : forall A (l : list A), up_to_gap (map Some l) = l.
Proof. intros A l. induction l as [|a l IH]; cbn; [reflexivity|now rewrite IH]. Qed.
Lemma schedule_gap : forall ta ga, exists ta1 ta2, ta = ta1 ++ ta2 /\
  interleaving (map tracker_item (present ta1)) (map game_item_event ga) (up_to_gap (schedule ta ga)) /\ (ta2 = [] \/ exists ta3, ta2 = None :: ta3).
Proof.
  induction ta as [|t ta IHt]; intros ga.
  - exists [], []. split; [reflexivity|]. split; [|left; reflexivity]. induction ga as [|g ga IHg]; cbn; constructor. exact IHg.
  - induction ga as [|g ga IHg].
    + destruct t as [t|]; cbn [schedule up_to_gap].
      * destruct (IHt []) as (a & c & E & I & R). exists (Some t :: a), c. split; [now rewrite E|]. split; [|exact R]. cbn. constructor. exact I.
      * exists [], (None :: ta). split; [reflexivity|]. split; [constructor|right; eauto].
    + destruct t as [t|]; cbn [schedule].
      * destruct (tracker_first (fst t) (fst g)); cbn [up_to_gap].
        -- destruct (IHt (g :: ga)) as (a & c & E & I & R). exists (Some t :: a), c. split; [now rewrite E|]. split; [|exact R]. cbn. apply il_left. exact I.
        -- destruct IHg as (a & c & E & I & R). exists a, c. split; [exact E|]. split; [|exact R]. cbn [map]. apply il_right. exact I.
      * cbn [up_to_gap]. destruct (IHt ga) as (a & c & E & I & R). exists (None :: a), c. split; [now rewrite E|]. split; [|exact R]. cbn. apply il_right. exact I.
Qed.

Section Damaged.
  Variable mc : machine.
  Variable p : proto.
  Notation build := (mc_build mc).
  Lemma collect_gap : forall names l n it, good it -> wf (mg_state it) -> mg_filters it = None ->
    scheduled mc p names it l -> (left_over it < n)%nat -> collect_fuel mc p n it = items_of (run mc (mg_state it) (up_to_gap l)).
  Proof.
    intros names. induction l as [|o l IH]; intros n it Hg Hw Hf Hs Hn; (destruct n as [|n]; [lia|]); cbn [collect_fuel];
      rewrite (merge_unfold mc p it Hg); unfold round; destruct (advance_scheduled _ _ _ _ _ Hs) as (it1 & Ea & Hs1); rewrite Ea; cbn [obind];
      destruct (advance_facts mc p _ _ _ Hg Ea) as (Hg1 & L1 & S1 & F1); rewrite Hf in F1; cbn [hd map tl up_to_gap] in *.
    - reflexivity.
    - destruct o as [e|]; [|reflexivity]. cbn [pending run] in *.
      rewrite S1. destruct (handle_transition mc (mg_state it) e) as [[st i]| |] eqn:Eh; cbn [obind]; try reflexivity. cbv zeta.
      change (mg_filters (with_state st it1)) with (mg_filters it1). rewrite F1. cbn [obind].
      assert (Hs2 : scheduled mc p names (with_state st it1) l).
      { destruct Hs1 as (Hx & Hs1). split; [|exact Hs1]. cbn. intros u. rewrite (step_names mc _ _ _ _ Hw Eh u), <- S1. apply Hx. }
      assert (IH' := IH n (with_state st it1) Hg1 (step_wf _ _ _ _ _ Hw Eh) F1 Hs2). change (left_over (with_state st it1)) with (left_over it1) in IH'.
      specialize (IH' ltac:(lia)). cbn [with_state mg_state] in IH'. unfold with_state in *. rewrite IH'. unfold items_of. destruct (run mc st (up_to_gap l)) as [[st2 is]| |]; reflexivity.
  Qed.
  (** The answers of the game iterator, whatever the bytes. *)
  Lemma game_any : forall names g, bytes_ok g -> exists gs, game_will mc p names (game_start g) gs.
  Proof. intros names g Hg. destruct (game_describe build p names g Hg) as (gevs & r & gs & _ & _ & _ & Dg). exists gs. exact Dg. Qed.

  Lemma whole_tracker : forall init d b st tevs t g A (rows : item -> list A), starts init d b st -> bytes_ok t -> bytes_ok g ->
    tracker_sector tevs t -> Forall (fun ev => well_named (snd ev)) tevs -> exists ts gs evs,
    tracker_events_of tevs ts /\
    (forall n, game_calls build p (player_names st) n (game_start g) = Ok (firstn n (map Some gs ++ repeat None n))) /\
    interleaving (map tracker_item ts) (map game_item_event gs) evs /\
    table mc p rows (merge_start st t g None) = (do its <- items_of (run mc st evs); Ok (flat_map rows its)).
  Proof.
    intros init d b st tevs t g A rows Hst Ht Hg St Wt. destruct (tracker_delivers build p tevs t Ht St Wt) as (ts & Ft & Dt).
    destruct (game_any (player_names st) g Hg) as (gs & Dg). exists ts, gs, (present (schedule (map Some ts) gs)).
    split; [exact Ft|]. split; [exact Dg|]. split. { rewrite <- (present_map _ ts) at 1. apply schedule_interleaving. }
    unfold table, collect. rewrite (collect_scheduled mc p (player_names st) (present (schedule (map Some ts) gs))); [reflexivity|now apply start_good|apply (starts_wf _ _ _ _ Hst)|reflexivity| |lia].
    rewrite <- schedule_some. now apply start_scheduled.
  Qed.
  Lemma any_sectors : forall init d b st t g A (rows : item -> list A), starts init d b st -> bytes_ok t -> bytes_ok g -> build = Wrapping \/ no_run 9 t -> exists k ta gs evs,
    tracker_calls build p (S k) (tracker_start t) = Ok (ta ++ [None]) /\
    (forall n, game_calls build p (player_names st) n (game_start g) = Ok (firstn n (map Some gs ++ repeat None n))) /\
    interleaving (map tracker_item (present ta)) (map game_item_event gs) evs /\
    table mc p rows (merge_start st t g None) = (do its <- items_of (run mc st evs); Ok (flat_map rows its)).
  Proof.
    intros init d b st t g A rows Hst Ht Hg Hb. destruct (tracker_answers build p t Ht Hb) as (evs & rest & _ & _ & ta & _ & Dt).
    destruct (game_any (player_names st) g Hg) as (gs & Dg). destruct (schedule_gap ta gs) as (ta1 & ta2 & E & I & R).
    exists (length ta1), ta1, gs, (up_to_gap (schedule ta gs)). split.
    { rewrite Dt. subst ta. f_equal. rewrite <- app_assoc, firstn_app. replace (S (length ta1) - length ta1)%nat with 1%nat by lia. rewrite firstn_all2 by lia. f_equal.
      destruct R as [-> | (ta3 & ->)]; reflexivity. }
    split; [exact Dg|]. split; [exact I|]. unfold table, collect.
    rewrite (collect_gap (player_names st) (schedule ta gs)); [reflexivity|now apply start_good|apply (starts_wf _ _ _ _ Hst)|reflexivity| |lia]. now apply start_scheduled.
  Qed.
  Lemma table_of_run : forall A (rows : item -> list A) f, tracker_rows mc rows f -> forall init d b st evs (a : list (Z * tracker_event)) gs res, starts init d b st ->
    interleaving (map tracker_item a) (map game_item_event gs) evs ->
    (do its <- items_of (run mc st evs); Ok (flat_map rows its)) = Ok res -> res = rows_from (f st) [] a.
  Proof.
    intros A rows f [Ft Fg] init d b st evs a gs res Hst I E. apply obind_ok in E as (its & Ei & E). injection E as <-. unfold items_of in Ei. apply obind_ok in Ei as ([st' its'] & Er & Ei). injection Ei as <-.
    rewrite <- (interleaving_tracker _ _ _ I). cbn [snd].
    eapply (table_rows mc A rows (f st) st); [intros; eapply Ft; eassumption|exact Fg|]. split; [exists init, d, b; exact Hst|exact Er].
  Qed.
  Lemma whole_rows : forall A (rows : item -> list A) f, tracker_rows mc rows f -> forall init d b st tevs t g res, starts init d b st -> bytes_ok t -> bytes_ok g ->
    tracker_sector tevs t -> Forall (fun ev => well_named (snd ev)) tevs -> table mc p rows (merge_start st t g None) = Ok res ->
    exists ts, tracker_events_of tevs ts /\ res = rows_from (f st) [] ts.
  Proof.
    intros A rows f Hf init d b st tevs t g res Hst Ht Hg St Wt E. destruct (whole_tracker init d b st tevs t g A rows Hst Ht Hg St Wt) as (ts & gs & evs & F1 & _ & I & C).
    exists ts. split; [exact F1|]. rewrite C in E. exact (table_of_run A rows f Hf init d b st evs ts gs res Hst I E).
  Qed.
  Lemma events_of_unique : forall tevs ts ts', tracker_events_of tevs ts -> tracker_events_of tevs ts' -> ts = ts'.
  Proof.
    intros tevs ts ts' F. unfold tracker_events_of in *. revert ts'. induction F as [|ev e evs ts [E1 E2] F IH]; intros ts' F'; inversion F' as [|x y l l' [E3 E4] F2]; subst; [reflexivity|].
    f_equal; [|apply IH, F2]. destruct e as [l0 e0], y as [l1 e1]. cbn [fst snd] in *. congruence.
  Qed.
  Lemma rows_agree : forall A (rows : item -> list A) f, tracker_rows mc rows f -> forall init d b st tevs t g g' res res', starts init d b st -> bytes_ok t -> bytes_ok g -> bytes_ok g' ->
    tracker_sector tevs t -> Forall (fun ev => well_named (snd ev)) tevs -> table mc p rows (merge_start st t g None) = Ok res -> table mc p rows (merge_start st t g' None) = Ok res' -> res = res'.
  Proof.
    intros A rows f Hf init d b st tevs t g g' res res' Hst Ht Hg Hg' St Wt E E'.
    destruct (whole_rows A rows f Hf init d b st tevs t g res Hst Ht Hg St Wt E) as (ts & F & ->).
    destruct (whole_rows A rows f Hf init d b st tevs t g' res' Hst Ht Hg' St Wt E') as (ts' & F' & ->). now rewrite (events_of_unique _ _ _ F F').
  Qed.
  Lemma whole_tables : forall fs init d b st tevs t g, starts init d b st -> bytes_ok t -> bytes_ok g ->
    tracker_sector tevs t -> Forall (fun ev => well_named (snd ev)) tevs -> exists ts, tracker_events_of tevs ts /\
    (forall res, table mc p (stats_of_item fs) (merge_start st t g None) = Ok res ->
       Forall2 (stats_spec fs) (filter (fun ev => String.eqb (variant (snd ev)) "EPlayerStats") (at_loops 0 tevs)) res) /\
    (forall res, table mc p (upgrades_of_item fs) (merge_start st t g None) = Ok res -> res = rows_from (upgrade_spec fs) [] ts) /\
    (forall res, table mc p (died_of_item fs) (merge_start st t g None) = Ok res -> res = rows_from (died_spec (mc_build mc) st fs) [] ts) /\
    (forall res, table mc p (born_of_item fs) (merge_start st t g None) = Ok res -> res = rows_from (born_spec (mc_build mc) st fs) [] ts).
  Proof.
    intros fs init d b st tevs t g Hst Ht Hg St Wt. destruct (whole_tracker init d b st tevs t g unit (fun _ => []) Hst Ht Hg St Wt) as (ts & _ & _ & F & _).
    exists ts. split; [exact F|].
    assert (R : forall A (rows : item -> list A) f, tracker_rows mc rows f -> forall res, table mc p rows (merge_start st t g None) = Ok res -> res = rows_from (f st) [] ts).
    { intros A rows f Hf res E. destruct (whole_rows A rows f Hf init d b st tevs t g res Hst Ht Hg St Wt E) as (ts' & F' & ->). now rewrite (events_of_unique _ _ _ F F'). }
    split; [|split; [exact (R _ _ _ (upgrades_rows_ok mc fs))|split; [exact (R _ _ _ (died_rows_ok mc fs))|exact (R _ _ _ (born_rows_ok mc fs))]]].
    intros res E. rewrite (R _ _ _ (stats_rows_ok mc fs) res E). exact (stats_from_events mc p fs tevs t ts Ht St F).
  Qed.
  Lemma same_tables : forall fs init d b st tevs t g g', starts init d b st -> bytes_ok t -> bytes_ok g -> bytes_ok g' ->
    tracker_sector tevs t -> Forall (fun ev => well_named (snd ev)) tevs ->
    (forall r r', table mc p (stats_of_item fs) (merge_start st t g None) = Ok r -> table mc p (stats_of_item fs) (merge_start st t g' None) = Ok r' -> r = r') /\
    (forall r r', table mc p (upgrades_of_item fs) (merge_start st t g None) = Ok r -> table mc p (upgrades_of_item fs) (merge_start st t g' None) = Ok r' -> r = r') /\
    (forall r r', table mc p (died_of_item fs) (merge_start st t g None) = Ok r -> table mc p (died_of_item fs) (merge_start st t g' None) = Ok r' -> r = r') /\
    (forall r r', table mc p (born_of_item fs) (merge_start st t g None) = Ok r -> table mc p (born_of_item fs) (merge_start st t g' None) = Ok r' -> r = r').
  Proof.
    intros fs init d b st tevs t g g' Hst Ht Hg Hg' St Wt.
    split; [|split; [|split]]; intros r r' E E';
    [refine (rows_agree _ _ _ (stats_rows_ok mc fs) init d b st tevs t g g' r r' Hst Ht Hg Hg' St Wt E E')
    |refine (rows_agree _ _ _ (upgrades_rows_ok mc fs) init d b st tevs t g g' r r' Hst Ht Hg Hg' St Wt E E')
    |refine (rows_agree _ _ _ (died_rows_ok mc fs) init d b st tevs t g g' r r' Hst Ht Hg Hg' St Wt E E')
    |refine (rows_agree _ _ _ (born_rows_ok mc fs) init d b st tevs t g g' r r' Hst Ht Hg Hg' St Wt E E')].
  Qed.
  Lemma whole_commands : forall fs init d b st t gevs g, starts init d b st -> bytes_ok t -> bytes_ok g -> build = Wrapping \/ no_run 9 t ->
    user_sector (crate build) (game_type p) gevs (stream (g, 0%nat)) -> exists k ta gs evs,
    tracker_calls build p (S k) (tracker_start t) = Ok (ta ++ [None]) /\
    Forall2 (delivered_as (player_names st)) (filter supported_game (at_loops 0 gevs)) gs /\
    interleaving (map tracker_item (present ta)) (map game_item_event gs) evs /\
    (forall res, table mc p (points_of_item fs) (merge_start st t g None) = Ok res -> res = flat_map (point_spec fs) (states_before mc st evs)) /\
    (forall res, table mc p (targets_of_item fs) (merge_start st t g None) = Ok res -> res = flat_map (target_spec fs) (states_before mc st evs)).
  Proof.
    intros fs init d b st t gevs g Hst Ht Hg Hb Sg. destruct (tracker_answers build p t Ht Hb) as (evs & rest & _ & _ & ta & _ & Dt).
    destruct (game_delivers build p (player_names st) gevs g Hg Sg) as (gs & Fg & Dg). destruct (schedule_gap ta gs) as (ta1 & ta2 & E & I & R).
    exists (length ta1), ta1, gs, (up_to_gap (schedule ta gs)). split.
    { rewrite Dt. subst ta. f_equal. rewrite <- app_assoc, firstn_app. replace (S (length ta1) - length ta1)%nat with 1%nat by lia. rewrite firstn_all2 by lia. f_equal.
      destruct R as [-> | (ta3 & ->)]; reflexivity. }
    split; [exact Fg|]. split; [exact I|].
    assert (C : forall A (rows : item -> list A), table mc p rows (merge_start st t g None) = (do its <- items_of (run mc st (up_to_gap (schedule ta gs))); Ok (flat_map rows its))).
    { intros A rows. unfold table, collect.
      rewrite (collect_gap (player_names st) (schedule ta gs)); [reflexivity|now apply start_good|apply (starts_wf _ _ _ _ Hst)|reflexivity| |lia]. now apply start_scheduled. }
    assert (T : forall A (rows : item -> list A) f, (forall st e st' it, wf st -> handle_transition mc st e = Ok (st', it) -> rows it = f (st, e)) ->
      forall res, table mc p rows (merge_start st t g None) = Ok res -> res = flat_map f (states_before mc st (up_to_gap (schedule ta gs)))).
    { intros A rows f Hf res Er. rewrite C in Er. apply obind_ok in Er as (its & Ei & Er). injection Er as <-. unfold items_of in Ei. apply obind_ok in Ei as ([st' its'] & Eu & Ei). injection Ei as <-.
      eapply game_table; [exact Hf|apply (starts_wf _ _ _ _ Hst)|exact Eu]. }
    split; [exact (T _ _ _ (points_step mc fs))|exact (T _ _ _ (targets_step mc fs))].
  Qed.
End Damaged.
