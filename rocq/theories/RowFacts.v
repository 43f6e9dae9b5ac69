(** * The rows of the exported tables: proofs *)
From Verif Require Import Base Types F32 F32Facts Tags Events Maps Lobby Balance BitSpec BitPacked BitProofs BitFormat BitTypes Convert ConvertSpec Typed ConvertFacts ConvertTracker Stream StreamFacts Iterators Dispatch VersionedSpec ByteTypes StreamSpec IteratorFacts IteratorStreams State StateFacts StateSpec StateSteps StateProofs StateEvents StateMore Merge MergeSpec MergeFacts MergeStreams MergeProofs DetailsData Rows RowSpec.
#[local] Open Scope string_scope.
#[local] Open Scope Z_scope.
#[local] Open Scope list_scope.

(** ** Collecting *)
Section Collect.
  Variable mc : machine.
  Variable p : proto.
  Lemma collect_scheduled : forall names evs n it, good it -> wf (mg_state it) -> mg_filters it = None ->
    scheduled mc p names it (map Some evs) -> (left_over it < n)%nat -> collect_fuel mc p n it = items_of (run mc (mg_state it) evs).
  Proof.
    intros names. induction evs as [|e evs IH]; intros n it Hg Hw Hf Hs Hn; (destruct n as [|n]; [lia|]); cbn [collect_fuel];
      rewrite (merge_unfold mc p it Hg); unfold round; destruct (advance_scheduled _ _ _ _ _ Hs) as (it1 & Ea & Hs1); rewrite Ea; cbn [obind];
      destruct (advance_facts mc p _ _ _ Hg Ea) as (Hg1 & L1 & S1 & F1); rewrite Hf in F1; cbn [hd map tl pending run] in *.
    - reflexivity.
    - rewrite S1. destruct (handle_transition mc (mg_state it) e) as [[st i]| |] eqn:Eh; cbn [obind]; try reflexivity. cbv zeta.
      change (mg_filters (with_state st it1)) with (mg_filters it1). rewrite F1. cbn [obind].
      assert (Hs2 : scheduled mc p names (with_state st it1) (map Some evs)).
      { destruct Hs1 as (Hx & Hs1). split; [|exact Hs1]. cbn. intros u. rewrite (step_names mc _ _ _ _ Hw Eh u), <- S1. apply Hx. }
      assert (IH' := IH n (with_state st it1) Hg1 (step_wf _ _ _ _ _ Hw Eh) F1 Hs2). change (left_over (with_state st it1)) with (left_over it1) in IH'.
      specialize (IH' ltac:(lia)). cbn [with_state mg_state] in IH'. unfold with_state in *. rewrite IH'. unfold items_of. destruct (run mc st evs) as [[st2 is]| |]; reflexivity.
  Qed.
  Lemma sectors_collected : forall init d b st tevs t gevs g, starts init d b st -> sectors_of mc p tevs t gevs g -> exists ts gs evs,
    tracker_events_of tevs ts /\
    Forall2 (delivered_as (player_names st)) (filter supported_game (at_loops 0 gevs)) gs /\
    interleaving (map tracker_item ts) (map game_item_event gs) evs /\
    collect mc p (merge_start st t g None) = items_of (run mc st evs).
  Proof.
    intros init d b st tevs t gevs g Hst Hp. destruct (sectors_scheduled mc p tevs t gevs g st None Hp) as (ts & gs & evs & F1 & F2 & I & _ & S).
    exists ts, gs, evs. split; [exact F1|]. split; [exact F2|]. split; [exact I|]. destruct Hp as (Ht & Hg & _). unfold collect.
    apply (collect_scheduled (player_names st)); [now apply start_good|apply (starts_wf _ _ _ _ Hst)|reflexivity|exact S|lia].
  Qed.
End Collect.

(** ** Tables of tracker events *)
Definition tracker_part (evs : list sc2_event) : list (Z * tracker_event) :=
  flat_map (fun e => match e with ETracker l x => [(l, x)] | EGame _ _ _ _ => [] end) evs.
Lemma tracker_part_app : forall a b, tracker_part (a ++ b) = tracker_part a ++ tracker_part b.
Proof. intros. unfold tracker_part. apply flat_map_app. Qed.
Lemma interleaving_tracker : forall ts gs evs, interleaving (map tracker_item ts) (map game_item_event gs) evs -> tracker_part evs = ts.
Proof.
  intros ts gs evs I. remember (map tracker_item ts) as a eqn:Ea. remember (map game_item_event gs) as b eqn:Eb. revert ts gs Ea Eb.
  induction I as [|x a b l I IH|x a b l I IH]; intros ts gs Ea Eb.
  - destruct ts; [reflexivity|discriminate].
  - destruct ts as [|[tl te] ts]; [discriminate|]. injection Ea as -> Ea. cbn. f_equal. apply (IH ts gs Ea Eb).
  - destruct gs as [|g gs]; [discriminate|]. injection Eb as -> Eb. cbn. apply (IH ts gs Ea Eb).
Qed.
Lemma rows_from_app : forall E A (f : list E -> E -> list A) l1 l2 b, rows_from f b (l1 ++ l2) = rows_from f b l1 ++ rows_from f (b ++ l1) l2.
Proof.
  intros E A f l1. induction l1 as [|e l1 IH]; intros l2 b; cbn [app rows_from]; [rewrite app_nil_r; reflexivity|].
  rewrite IH, app_assoc, <- (app_assoc b). reflexivity.
Qed.
Lemma rows_from_snoc : forall E A (f : list E -> E -> list A) l e, rows_from f [] (l ++ [e]) = rows_from f [] l ++ f l e.
Proof. intros. rewrite rows_from_app. cbn [rows_from]. rewrite app_nil_r. reflexivity. Qed.
Lemma history_snoc : forall mc st0 evs e st its, history mc st0 (evs ++ [e]) st its ->
  exists st1 its1 it, history mc st0 evs st1 its1 /\ handle_transition mc st1 e = Ok (st, it) /\ its = its1 ++ [it].
Proof. intros mc st0 evs e st its [Hs Hr]. apply run_snoc in Hr as (st1 & its1 & it & A & B & C). exists st1, its1, it. split; [split; assumption|]. auto. Qed.
(** A table made from the right. *)
Lemma table_rows : forall mc A (rows : item -> list A) (f : list (Z * tracker_event) -> Z * tracker_event -> list A) st0,
  (forall evs st its l e st' it, history mc st0 evs st its -> handle_transition mc st (ETracker l e) = Ok (st', it) -> rows it = f (tracker_part evs) (l, e)) ->
  (forall st l u n e st' it, handle_transition mc st (EGame l u n e) = Ok (st', it) -> rows it = []) ->
  forall evs st its, history mc st0 evs st its -> flat_map rows its = rows_from f [] (tracker_part evs).
Proof.
  intros mc A rows f st0 Ht Hg evs. induction evs as [|e evs IH] using rev_ind; intros st its Hh.
  - destruct Hh as [_ Hr]. cbn in Hr. injection Hr as _ <-. reflexivity.
  - apply history_snoc in Hh as (st1 & its1 & it & Hh & He & ->). rewrite flat_map_app, (IH _ _ Hh), tracker_part_app. cbn [flat_map]. rewrite app_nil_r.
    destruct e as [l e|l u n e]; cbn.
    + rewrite rows_from_snoc. f_equal. eapply Ht; eassumption.
    + rewrite app_nil_r, (Hg _ _ _ _ _ _ _ He), app_nil_r. reflexivity.
Qed.
(** The rows of tracker events, and no others, from the events before them. *)
Definition tracker_rows (mc : machine) {A} (rows : item -> list A) (f : state -> list (Z * tracker_event) -> Z * tracker_event -> list A) : Prop :=
  (forall st0 evs st its l e st' it, history mc st0 evs st its -> handle_transition mc st (ETracker l e) = Ok (st', it) -> rows it = f st0 (tracker_part evs) (l, e)) /\
  (forall st l u n e st' it, handle_transition mc st (EGame l u n e) = Ok (st', it) -> rows it = []).
Lemma tracker_table : forall mc p A (rows : item -> list A) f, tracker_rows mc rows f ->
  forall init d b st tevs t gevs g res, starts init d b st -> sectors_of mc p tevs t gevs g ->
  table mc p rows (merge_start st t g None) = Ok res ->
  exists ts, tracker_events_of tevs ts /\ res = rows_from (f st) [] ts.
Proof.
  intros mc p A rows f [Ht Hg] init d b st tevs t gevs g res Hst Hp E. destruct (sectors_collected mc p init d b st tevs t gevs g Hst Hp) as (ts & gs & evs & F1 & F2 & I & C).
  unfold table in E. rewrite C in E. apply obind_ok in E as (its & Ei & E). injection E as <-. unfold items_of in Ei. apply obind_ok in Ei as ([st' its'] & Er & Ei). injection Ei as <-.
  exists ts. split; [exact F1|]. cbn [snd]. rewrite <- (interleaving_tracker _ _ _ I).
  eapply (table_rows mc A rows (f st) st); [intros; eapply Ht; eassumption|exact Hg|]. split; [exists init, d, b; exact Hst|exact Er].
Qed.
Lemma game_item : forall mc st l u n e st' it, handle_transition mc st (EGame l u n e) = Ok (st', it) -> exists e', it_event it = EGame l u n e'.
Proof. intros mc st l u n e st' it Hh. apply transition_game in Hh as (e' & h & _ & ->). exists e'. reflexivity. Qed.
Lemma tracker_item_event : forall mc st l e st' it, handle_transition mc st (ETracker l e) = Ok (st', it) ->
  it_event it = ETracker l (match e with TUpgrade x => TUpgrade (mk_upgrade (ug_player_id x) (player_name_of (st_users st) (ug_player_id x)) (ug_name x) (ug_count x)) | _ => e end).
Proof.
  intros mc st l e st' it Hh. apply transition_tracker in Hh as (e' & h & Hh & ->). cbn [it_event]. f_equal.
  destruct e; cbn [handle_tracker_event] in Hh; try (injection Hh as <- <- <-; reflexivity).
  - injection Hh as Hh. unfold handle_unit_born in Hh. destruct (match ub_creator_index e with Some c => _ | None => _ end) as [units cr]. destruct (mget _ units); injection Hh as _ <- _; reflexivity.
  - unfold handle_unit_died in Hh. apply obind_ok in Hh as (users & _ & Hh). destruct (mget _ _); injection Hh as _ <- _; reflexivity.
  - injection Hh as Hh. unfold handle_unit_type_change in Hh. destruct (mget _ _); injection Hh as _ <- _; reflexivity.
  - injection Hh as Hh. unfold handle_unit_done in Hh. destruct (mget _ _); injection Hh as _ <- _; reflexivity.
  - unfold handle_unit_position in Hh. apply obind_ok in Hh as (l' & _ & Hh). destruct (position_loop _ _ _). injection Hh as _ <- _; reflexivity.
Qed.

(** Upgrades. *)
Lemma upgrades_rows_ok : forall mc fs, tracker_rows mc (upgrades_of_item fs) (fun _ => upgrade_spec fs).
Proof.
  intros mc fs. split.
  - intros st0 evs st its l e st' it _ Hh. unfold upgrades_of_item, upgrade_spec. rewrite (tracker_item_event _ _ _ _ _ _ Hh). cbn [fst snd]. destruct e; reflexivity.
  - intros st l u n e st' it Hh. unfold upgrades_of_item. destruct (game_item _ _ _ _ _ _ _ _ Hh) as (e' & ->). reflexivity.
Qed.
Lemma upgrades_table : forall mc p fs init d b st tevs t gevs g res, starts init d b st -> sectors_of mc p tevs t gevs g ->
  table mc p (upgrades_of_item fs) (merge_start st t g None) = Ok res ->
  exists ts, tracker_events_of tevs ts /\ res = rows_from (upgrade_spec fs) [] ts.
Proof. intros mc p fs. apply (tracker_table mc p), upgrades_rows_ok. Qed.
(** Statistics. *)
Definition stats_rows_spec (fs : Z) (before : list (Z * tracker_event)) (e : Z * tracker_event) : list stats_row :=
  match snd e with TPlayerStats x => [stats_row_new x (fst e) fs] | _ => [] end.
Lemma stats_columns_names : map snd stats_columns = map fst stats_columns /\ map fst stats_columns = map (fun x => fst (fst x)) stats_table.
Proof. split; reflexivity. Qed.
Lemma stats_table_names : NoDup (map fst stats_columns).
Proof.
  assert (H : forall l : list string, (fix nd l := match l with [] => true | x :: l' => negb (existsb (String.eqb x) l') && nd l' end) l = true -> NoDup l).
  { induction l as [|x l IH]; intros E; constructor; apply andb_prop in E as [E1 E2]; [|auto].
    intros Hx. rewrite (proj2 (existsb_exists (String.eqb x) l)) in E1; [discriminate|]. exists x. split; [exact Hx|apply String.eqb_refl]. }
  apply H. vm_compute. reflexivity.
Qed.
Lemma stats_rows_ok : forall mc fs, tracker_rows mc (stats_of_item fs) (fun _ => stats_rows_spec fs).
Proof.
  intros mc fs. split.
  - intros st0 evs st its l e st' it _ Hh. unfold stats_of_item, stats_rows_spec. rewrite (tracker_item_event _ _ _ _ _ _ Hh). cbn [fst snd]. destruct e; reflexivity.
  - intros st l u n e st' it Hh. unfold stats_of_item. destruct (game_item _ _ _ _ _ _ _ _ Hh) as (e' & ->). reflexivity.
Qed.
Lemma stats_rows : forall mc p fs init d b st tevs t gevs g res, starts init d b st -> sectors_of mc p tevs t gevs g ->
  table mc p (stats_of_item fs) (merge_start st t g None) = Ok res ->
  exists ts, tracker_events_of tevs ts /\ res = rows_from (stats_rows_spec fs) [] ts.
Proof. intros mc p fs. apply (tracker_table mc p), stats_rows_ok. Qed.

Lemma map_out_names : forall A B (f : A -> outcome B) (ka : A -> string) (kb : B -> string), (forall a b, f a = Ok b -> kb b = ka a) ->
  forall l r, map_out f l = Ok r -> map kb r = map ka l.
Proof.
  intros A B f ka kb H. induction l as [|a l IH]; intros r E; cbn [map_out] in E; [injection E as <-; reflexivity|].
  apply obind_ok in E as (x & Ex & E). apply obind_ok in E as (xs & Exs & E). injection E as <-. cbn [map]. rewrite (H _ _ Ex), (IH _ Exs). reflexivity.
Qed.
Lemma stats_from_names : forall v st, stats_from v = Ok st -> map fst st = map fst stats_columns.
Proof.
  intros v st E. rewrite (proj2 stats_columns_names). unfold stats_from in E. revert E. apply map_out_names.
  intros [[n src] dv] [n' z] E. apply obind_ok in E as (y & _ & E). injection E as <- _. reflexivity.
Qed.
Lemma stats_spec_of : forall fs l v x, vtyped ba_ReplayTrackerEEventId v = true -> tracker_from v = Ok (TPlayerStats x) ->
  variant v = "EPlayerStats" /\ stats_spec fs (l, v) (stats_row_new x l fs).
Proof.
  intros fs l v x Ht E. pose proof (tracker_from_typed v Ht) as Hr. unfold tracker_result in Hr. destruct (String.eqb_spec (variant v) "EPlayerStats") as [Ev|_].
  - split; [exact Ev|]. destruct Hr as (id & ss & st & Hv & E' & [Hn Hs]). rewrite E in E'. injection E' as ->. exists id, ss. split; [exact Hv|].
    assert (Hnames : map fst st = map fst stats_columns).
    { subst v. clear -E. change (tracker_from (VChoice "EPlayerStats" (VStruct [("m_player_id", VInt id); ("m_stats", VStruct ss)])))
        with (do st <- stats_from (VStruct ss); Ok (TPlayerStats (mk_player_stats id st))) in E.
      apply obind_ok in E as (y & E & Ey). injection Ey as ->. apply stats_from_names in E. exact E. }
    cbn [stats_row_new sr_player sr_loop sr_seconds sr_fs sr_values ps_player_id ps_stats fst]. repeat (split; [reflexivity|]).
    rewrite map_map. cbn [fst]. split.
    + rewrite Hn, <- (map_map fst (append "m_score_value_") st), Hnames, map_map. reflexivity.
    + intros n z Hin. rewrite <- (Hs n z Hin). apply in_map_iff. exists (n, n). cbn [fst snd]. split; [reflexivity|].
      assert (Hi : In n (map fst stats_columns)).
      { rewrite <- Hnames. apply (in_map fst) in Hin. cbn [fst] in Hin. rewrite Hn in Hin. apply in_map_iff in Hin as (y & Ey & Hy). apply append_inj in Ey. subst n. apply in_map, Hy. }
      apply in_map_iff in Hi as (c & Ec & Hc). assert (Hd : forall c, In c stats_columns -> snd c = fst c).
      { apply Forall_forall. repeat constructor. }
      destruct c as [a b]. specialize (Hd _ Hc). cbn in *. congruence.
  - exfalso. destruct (String.eqb (variant v) "EUpgrade").
    + destruct Hr as (e & Hr & _). congruence.
    + destruct Hr as [(e & E' & Hv & _)|[E' _]]; [|congruence]. rewrite E in E'. injection E' as <-. cbn in Hv. discriminate.
Qed.

Lemma rows_from_const : forall E A (f : E -> list A) l b, rows_from (fun _ => f) b l = flat_map f l.
Proof. intros E A f l. induction l as [|e l IH]; intros b; cbn [rows_from flat_map]; [reflexivity|]. rewrite IH. reflexivity. Qed.
Definition is_stats (ev : Z * val) : bool := String.eqb (variant (snd ev)) "EPlayerStats".
Lemma stats_from_events : forall (mc : machine) (p : proto) fs tevs t ts, bytes_ok t -> tracker_sector tevs t -> tracker_events_of tevs ts ->
  Forall2 (stats_spec fs) (filter (fun ev => String.eqb (variant (snd ev)) "EPlayerStats") (at_loops 0 tevs)) (rows_from (stats_rows_spec fs) [] ts).
Proof.
  intros mc p fs tevs t ts Ht St F. destruct (holds_typed _ _ _ _ _ (sector_holds (mc_build mc) p _ _ St) Ht) as [T _].
  assert (T' : Forall (fun ev => vtyped ba_ReplayTrackerEEventId (snd ev) = true) (at_loops 0 tevs)).
  { apply (at_loops_typed _ (fun v => vtyped ba_ReplayTrackerEEventId v = true)). eapply Forall_impl; [|exact T]. intros ev [_ H]. exact H. }
  change (stats_rows_spec fs) with (fun (_ : list (Z * tracker_event)) => stats_rows_spec fs []). rewrite rows_from_const.
  unfold tracker_events_of in F. clear -F T'. induction F as [|[l v] [l' e] evs ts [El Ee] F IH]; [constructor|]. inversion T' as [|x y Hx Hy]; subst. specialize (IH Hy).
  cbn [fst snd] in *. subst l'. cbn [filter flat_map snd]. destruct (String.eqb_spec (variant v) "EPlayerStats") as [Ev|Ev].
  - pose proof (tracker_from_typed v Hx) as Hr. unfold tracker_result in Hr. rewrite Ev in Hr. cbn [String.eqb Ascii.eqb Bool.eqb] in Hr. destruct Hr as (id & ss & st & _ & E' & _).
    rewrite Ee in E'. injection E' as ->. cbn [stats_rows_spec snd fst app]. constructor; [|exact IH]. apply stats_spec_of; assumption.
  - destruct e; cbn [stats_rows_spec snd fst app]; try exact IH. exfalso. apply Ev. eapply (proj1 (stats_spec_of fs l v e Hx Ee)).
Qed.
Lemma stats_table_ok : forall mc p fs init d b st tevs t gevs g res, starts init d b st -> sectors_of mc p tevs t gevs g ->
  table mc p (stats_of_item fs) (merge_start st t g None) = Ok res ->
  Forall2 (stats_spec fs) (filter (fun ev => String.eqb (variant (snd ev)) "EPlayerStats") (at_loops 0 tevs)) res.
Proof.
  intros mc p fs init d b st tevs t gevs g res Hst Hp E. destruct (stats_rows mc p fs init d b st tevs t gevs g res Hst Hp E) as (ts & F & ->).
  destruct Hp as (Ht & _ & St & _). exact (stats_from_events mc p fs tevs t ts Ht St F).
Qed.

Lemma table_collected : forall mc p init d b st tevs t gevs g A (rows : item -> list A), starts init d b st -> sectors_of mc p tevs t gevs g -> exists ts gs evs,
  tracker_events_of tevs ts /\ Forall2 (delivered_as (player_names st)) (filter supported_game (at_loops 0 gevs)) gs /\
  interleaving (map tracker_item ts) (map game_item_event gs) evs /\
  table mc p rows (merge_start st t g None) = do its <- items_of (run mc st evs); Ok (flat_map rows its).
Proof.
  intros mc p init d b st tevs t gevs g A rows Hst Hp. destruct (sectors_collected mc p init d b st tevs t gevs g Hst Hp) as (ts & gs & evs & F1 & F2 & I & C).
  exists ts, gs, evs. split; [exact F1|]. split; [exact F2|]. split; [exact I|]. unfold table. rewrite C. reflexivity.
Qed.
