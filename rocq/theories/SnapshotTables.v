(** * From the bytes of the sectors to the files of an export, for every table of events *)
From Coq Require Import Permutation.
From Verif Require Import Base Types Tags BitSpec Dispatch Events Stream Iterators StreamSpec IteratorFacts IteratorStreams Balance Lobby DetailsData DetailsSpec State StateSpec Merge MergeSpec MergeFacts ConvertSpec Rows RowSpec RowFacts RowLife RowCommands Files Archive ArchiveSpec ExportSpec ArchiveFacts SnapshotFacts.
#[local] Open Scope string_scope.
#[local] Open Scope Z_scope.
#[local] Open Scope list_scope.

Lemma source_opened : forall A mc w all (rows : Z -> item -> list A) d st t g l, opens (mc_build mc) w all d st t g -> source_table mc w all rows d l ->
  table mc (iterator_proto d) (rows (xi_fs_id d)) (merge_start st t g None) = Ok l.
Proof.
  intros A mc w all rows d st t g l Ho [(st' & t' & g' & Ho' & El)|[Hn _]]; [|destruct (Hn _ _ _ Ho)].
  assert (Q : iterator_new (mc_build mc) w d all = Ok (merge_start st t g None)) by (apply iterator_new_opens; eauto).
  assert (Q' : iterator_new (mc_build mc) w d all = Ok (merge_start st' t' g' None)) by (apply iterator_new_opens; eauto).
  assert (R : merge_start st t g None = merge_start st' t' g' None) by congruence. rewrite <- R in El. exact El.
Qed.
(** A batch for every source with rows, and no other. *)
Lemma batches_per_source : forall A mc w all (rows : Z -> item -> list A) sources sources' per (spec : full_init -> state -> list (Z * val) -> list (Z * (Z * val)) -> list A -> Prop),
  Permutation sources sources' -> Forall2 (source_table mc w all rows) sources' per ->
  (forall d x st tevs t gevs g l, starts (joined_init d) x (balance_of_version (xi_version d) all) st -> sectors_of mc (iterator_proto d) tevs t gevs g ->
     table mc (iterator_proto d) (rows (xi_fs_id d)) (merge_start st t g None) = Ok l -> spec d st tevs gevs l) ->
  (forall b, In b (filter has_rows per) -> b <> [] /\ exists d, In d sources /\ source_table mc w all rows d b) /\
  forall d st t g tevs gevs, In d sources -> opens (mc_build mc) w all d st t g -> sectors_of mc (iterator_proto d) tevs t gevs g ->
    exists l, spec d st tevs gevs l /\ (l = [] \/ In l (filter has_rows per)).
Proof.
  intros A mc w all rows sources sources' per spec Hp F Hs. split.
  - intros b Hb. apply filter_In in Hb as [Hb Hr]. split; [now intros ->|]. destruct (Forall2_find_r _ _ _ _ _ b F Hb) as (d & Hd & Ht). exists d. split; [|exact Ht]. eapply Permutation_in; [symmetry; exact Hp|exact Hd].
  - intros d st t g tevs gevs Hd Ho Hse. assert (Hd' : In d sources') by (eapply Permutation_in; [exact Hp|exact Hd]). destruct (Forall2_find _ _ _ _ _ d F Hd') as (l & Hl & Ht).
    pose proof (source_opened _ _ _ _ _ _ _ _ _ _ Ho Ht) as El. destruct (opens_starts _ _ _ _ _ _ _ Ho) as (x & Hx). exists l. split; [exact (Hs _ _ _ _ _ _ _ _ Hx Hse El)|].
    destruct l as [|r l]; [now left|right]. apply filter_In. auto.
Qed.

Lemma hold_per_source : forall A mc w all (rows : Z -> item -> list A) sources sources' per (spec : full_init -> state -> list (Z * val) -> list (Z * (Z * val)) -> list A -> Prop),
  Permutation sources sources' -> Forall2 (source_table mc w all rows) sources' per ->
  (forall d x st tevs t gevs g l, starts (joined_init d) x (balance_of_version (xi_version d) all) st -> sectors_of mc (iterator_proto d) tevs t gevs g ->
     table mc (iterator_proto d) (rows (xi_fs_id d)) (merge_start st t g None) = Ok l -> spec d st tevs gevs l) ->
  batches_hold mc w all sources spec (filter has_rows per).
Proof.
  intros A mc w all rows sources sources' per spec Hp F Hs. destruct (batches_per_source A mc w all rows sources sources' per spec Hp F Hs) as [H1 H2]. split; [|exact H2].
  intros b Hb. destruct (H1 b Hb) as (Hn & d & Hd & Ht). split; [exact Hn|]. destruct Ht as [(st & t & g & Ho & El)|[_ ->]]; [|congruence].
  exists d, st, t, g. split; [exact Hd|]. split; [exact Ho|]. intros tevs gevs Hse. destruct (opens_starts _ _ _ _ _ _ _ Ho) as (x & Hx). exact (Hs _ _ _ _ _ _ _ _ Hx Hse El).
Qed.

Lemma snapshot_events : forall mc w all dir ok order sources fs, world_bytes w -> any_order order -> write_snapshot mc w all dir ok order sources = (Ok tt, fs) ->
  exists upgrades born died points targets,
    In (mk_arrow "upgrades.arrow" (CUpgrades upgrades) true) fs /\ In (mk_arrow "unit_born.arrow" (CBorn born) true) fs /\ In (mk_arrow "unit_died.arrow" (CDied died) true) fs /\
    In (mk_arrow "cmd_target_point.arrow" (CPoints points) true) fs /\ In (mk_arrow "cmd_target_unit.arrow" (CTargets targets) true) fs /\
    batches_hold mc w all sources upgrades_in upgrades /\ batches_hold mc w all sources (born_in (mc_build mc)) born /\ batches_hold mc w all sources (died_in (mc_build mc)) died /\
    batches_hold mc w all sources (points_in mc) points /\ batches_hold mc w all sources (targets_in mc) targets.
Proof.
  intros mc w all dir ok order sources fs Hw Ho E. pose proof (snapshot_ok _ _ _ _ _ _ _ _ Hw E) as F.
  destruct (Forall2_find _ _ _ _ _ TUpgrades F ltac:(cbn; tauto)) as (f & Fu & c & -> & Hu). inversion Hu as [| |pu Pu E1 E2| | | |]; subst.
  destruct (Forall2_find _ _ _ _ _ TBorn F ltac:(cbn; tauto)) as (f & Fb & c & -> & Hb). inversion Hb as [| | |pb Pb X152 X252| | |]; subst.
  destruct (Forall2_find _ _ _ _ _ TDied F ltac:(cbn; tauto)) as (f & Fd & c & -> & Hd). inversion Hd as [| | | |pd Pd X153 X253| |]; subst.
  destruct (Forall2_find _ _ _ _ _ TPoints F ltac:(cbn; tauto)) as (f & Fp & c & -> & Hp). inversion Hp as [| | | | |pp Pp X154 X254|]; subst.
  destruct (Forall2_find _ _ _ _ _ TTargets F ltac:(cbn; tauto)) as (f & Ft & c & -> & Ht). inversion Ht as [| | | | | |pt Pt X155 X255]; subst.
  exists (filter has_rows pu), (filter has_rows pb), (filter has_rows pd), (filter has_rows pp), (filter has_rows pt).
  split; [exact Fu|]. split; [exact Fb|]. split; [exact Fd|]. split; [exact Fp|]. split; [exact Ft|].
  split; [|split; [|split; [|split]]].
  - eapply hold_per_source; [apply (Ho TUpgrades)|exact Pu|]. intros d x st tevs t gevs g l Hx Hs El. exact (upgrades_table _ _ _ _ _ _ _ _ _ _ _ _ Hx Hs El).
  - eapply hold_per_source; [apply (Ho TBorn)|exact Pb|]. intros d x st tevs t gevs g l Hx Hs El. exact (born_table _ _ _ _ _ _ _ _ _ _ _ _ Hx Hs El).
  - eapply hold_per_source; [apply (Ho TDied)|exact Pd|]. intros d x st tevs t gevs g l Hx Hs El. exact (died_table _ _ _ _ _ _ _ _ _ _ _ _ Hx Hs El).
  - eapply hold_per_source; [apply (Ho TPoints)|exact Pp|]. intros d x st tevs t gevs g l Hx Hs El. exact (commands_collected mc _ _ _ _ (points_step mc (xi_fs_id d)) _ _ _ _ _ _ _ _ _ Hx Hs El).
  - eapply hold_per_source; [apply (Ho TTargets)|exact Pt|]. intros d x st tevs t gevs g l Hx Hs El. exact (commands_collected mc _ _ _ _ (targets_step mc (xi_fs_id d)) _ _ _ _ _ _ _ _ _ Hx Hs El).
Qed.
