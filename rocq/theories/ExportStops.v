(** C145, continued: readable replays and the export of them *)
From Verif Require Import Base Types Utf8 F32 F32Facts Versioned VersionedSpec Dispatch Events Tags TagFacts Maps Lobby Balance
  Convert Stream Iterators StreamSpec IteratorStreams State StateSpec StateFacts StateSteps StateProofs Merge MergeSpec MergeFacts MergeStreams MergeProofs DetailsData Rows RowSpec RowFacts
  Files Archive ArchiveSpec ArchiveFacts SnapshotFacts ExportEnds Stops.
#[local] Open Scope Z_scope.
#[local] Open Scope list_scope.

(** The events [tevs] and [gevs] of a readable replay contain one that stops the
    program. *)
Definition stopped_by (mc : machine) (st : state) (tevs : list (Z * val)) (gevs : list (Z * (Z * val))) : Prop :=
  exists ts gs, tracker_events_of tevs ts /\ Forall2 (delivered_as (player_names st)) (filter supported_game (at_loops 0 gevs)) gs /\
    Exists (stops (mc_build mc) (users_of st)) (map tracker_item ts ++ map game_item_event gs).

Lemma tracker_events_unique : forall tevs ts ts', tracker_events_of tevs ts -> tracker_events_of tevs ts' -> ts = ts'.
Proof.
  unfold tracker_events_of. intros tevs. induction (at_loops 0 tevs) as [|a l IH]; intros ts ts' H H'; inversion H; inversion H'; subst; [reflexivity|].
  f_equal; [|apply IH; assumption]. destruct y as [l1 e1], y0 as [l2 e2]. cbn [fst snd] in *. destruct H2 as (A & B), H7 as (C & D). congruence.
Qed.
Lemma delivered_unique : forall names evs gs gs', Forall2 (delivered_as names) evs gs -> Forall2 (delivered_as names) evs gs' -> gs = gs'.
Proof.
  intros names evs. induction evs as [|a l IH]; intros gs gs' H H'; inversion H; inversion H'; subst; [reflexivity|].
  f_equal; [|apply IH; assumption]. destruct y as [l1 [u1 n1 e1]], y0 as [l2 [u2 n2 e2]]. unfold delivered_as in *. cbn [fst snd gi_user gi_name gi_event] in *.
  destruct H2 as (A & B & C & D), H7 as (A' & B' & C' & D'). congruence.
Qed.
Lemma readable_stop : forall mc p init d b st tevs t gevs g A (rows : item -> list A), starts init d b st -> sectors_of mc p tevs t gevs g ->
  (table mc p rows (merge_start st t g None) = Panic <-> stopped_by mc st tevs gevs) /\
  (~ stopped_by mc st tevs gevs -> exists res, table mc p rows (merge_start st t g None) = Ok res).
Proof.
  intros mc p init d b st tevs t gevs g A rows Hst Hs. destruct (table_collected mc p init d b st tevs t gevs g A rows Hst Hs) as (ts & gs & evs & F1 & F2 & I & E).
  assert (Hiff : stopped_by mc st tevs gevs <-> Exists (stops (mc_build mc) (users_of st)) evs).
  { rewrite (interleaving_exists _ _ _ _ _ I). split.
    - intros (ts' & gs' & G1 & G2 & X). rewrite (tracker_events_unique _ _ _ F1 G1), (delivered_unique _ _ _ _ F2 G2). now apply Exists_app in X.
    - intros X. exists ts, gs. split; [exact F1|]. split; [exact F2|]. now apply Exists_app. }
  rewrite E, Hiff. destruct (starts_wf _ _ _ _ Hst) as (Hw & _).
  destruct (items_stop mc st evs Hw) as [(-> & H)|(its & -> & H)]; cbn [obind]; [tauto|].
  split; [|intros _; eauto]. split; [discriminate|tauto].
Qed.
Lemma collect_stop : forall mc p init d b st tevs t gevs g, starts init d b st -> sectors_of mc p tevs t gevs g ->
  (collect mc p (merge_start st t g None) = Panic <-> stopped_by mc st tevs gevs).
Proof.
  intros mc p init d b st tevs t gevs g Hst Hs. destruct (readable_stop mc p init d b st tevs t gevs g unit (fun _ => []) Hst Hs) as (H & _). rewrite <- H. unfold table.
  destruct (collect mc p (merge_start st t g None)); cbn [obind]; split; congruence.
Qed.
Lemma export_stop : forall mc t w all dir ok order source c sources, world_bytes w -> any_order order -> choose_sources (mc_build mc) t w source c = Ok sources ->
  (forall d, In d sources -> details_rows (mc_build mc) w d <> Panic /\ iterator_new (mc_build mc) w d all <> Panic /\
     forall st tb gb, opens (mc_build mc) w all d st tb gb -> exists tevs gevs, sectors_of mc (iterator_proto d) tevs tb gevs gb) ->
  (fst (export_replays mc t w all dir ok order source c) = Ok tt <->
   dir = true /\ (forall n, In n all_tables -> ok (table_file n) = true) /\
   forall d st tb gb tevs gevs, In d sources -> opens (mc_build mc) w all d st tb gb -> sectors_of mc (iterator_proto d) tevs tb gevs gb -> ~ stopped_by mc st tevs gevs).
Proof.
  intros mc t w all dir ok order source c sources Hw Ho Es Hr. unfold export_replays. rewrite Es. cbn iota beta. rewrite (snapshot_ends mc w all dir ok order sources Hw Ho).
  split; intros (Hd & Hk & Hc); split; [exact Hd| |exact Hd|]; (split; [exact Hk|]).
  - intros d st tb gb tevs gevs Hin Hop Hse. destruct (Hc d Hin) as (_ & _ & Hn). specialize (Hn st tb gb Hop). destruct (opens_starts _ _ _ _ _ _ _ Hop) as (x & Hst).
    now rewrite (collect_stop mc _ _ _ _ _ _ _ _ _ Hst Hse) in Hn.
  - intros d Hin. destruct (Hr d Hin) as (H1 & H2 & H3). split; [exact H1|]. split; [exact H2|]. intros st tb gb Hop. destruct (H3 st tb gb Hop) as (tevs & gevs & Hse).
    destruct (opens_starts _ _ _ _ _ _ _ Hop) as (x & Hst). rewrite (collect_stop mc _ _ _ _ _ _ _ _ _ Hst Hse). exact (Hc d st tb gb tevs gevs Hin Hop Hse).
Qed.
