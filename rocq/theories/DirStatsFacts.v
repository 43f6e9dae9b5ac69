From Coq Require Import Permutation.
From Verif Require Import Base DetailsData DetailsSpec State Files Archive ArchiveSpec SnapshotFacts StatsFacts BalanceFiles BalanceSpec BalanceFacts BalanceWrite BalanceXml Program ProgramSpec ProgramFacts DirStats.
#[local] Open Scope string_scope.
#[local] Open Scope Z_scope.
#[local] Open Scope list_scope.
Lemma key_there : forall {U} (m : units U) k, (exists u, In (k, u) m) <-> uget k m <> None.
Proof.
  intros U m [v n]. induction m as [|[[v' n'] u'] m IH]; [split; [intros (u & [])|cbn; congruence]|]. cbn [uget]. unfold key_eqb. cbn [fst snd]. split.
  - intros (u & [H|H]); [injection H as -> -> ->; rewrite Z.eqb_refl, String.eqb_refl; discriminate|]. destruct (_ && _); [discriminate|]. apply IH. eauto.
  - destruct (Z.eqb_spec v' v) as [->|N]; destruct (String.eqb_spec n' n) as [->|N']; cbn [andb]; intros H; try (exists u'; now left); apply IH in H as (u & H); exists u; now right.
Qed.
Lemma viewed_has : forall {U} (os : outside U) m v, has_balance (viewed os m) v = true <-> exists n, uget (v, n) m <> None.
Proof.
  intros U os m v. unfold has_balance, viewed. rewrite existsb_exists. split.
  - intros (e & H & E). apply in_map_iff in H as ([[v' n] u] & <- & H). cbn [fst] in E. apply Z.eqb_eq in E as ->. exists n. apply key_there. eauto.
  - intros (n & H). apply key_there in H as (u & H). exists ((v, n), os_view os u). split; [apply in_map_iff; exists ((v, n), u); auto|]. cbn. apply Z.eqb_refl.
Qed.
Section Stats.
  Context {U : Type}.
  Variable os : outside U.
  Variable d : disk.
  Hypothesis Hg : good_disk d.
  Hypothesis Hp : Permutation (assets_of d) (os_assets os).
  Notation mb := (mc_build (os_machine os)).
  Lemma built_in_units : forall m, read_assets (os_dec os) (os_assets os) [] = Ok m -> forall k, uget k m <> None <-> exists s f c, unit_file d k s f c.
  Proof.
    intros m E k. destruct (fail_together (os_dec os) d (fun _ l => l) (os_assets os) Hg) as (_ & F & _); [intros ? ?; apply Permutation_refl|exact Hp|].
    pose proof (proj1 F (ex_intro _ m E)) as K. destruct (assets_read (os_dec os) d (os_assets os) Hg Hp K) as (m' & E' & H1 & H2 & _). assert (m' = m) as -> by congruence. split.
    - intros H. destruct (uget k m) as [u|] eqn:Q; [|congruence]. destruct (H1 k u Q) as (s & f & c & H3 & _). eauto.
    - intros (s & f & c & H). exact (H2 _ _ _ _ H).
  Qed.
  Lemma library_counts : forall p s files, walks (os_walk os) -> get_matching_files mb (os_tree os) 10 p 1000000 = Ok files -> from_directory os p = Ok s ->
    let replays := readable_replays mb (os_world os) 0 files in
    ds_total s = Z.of_nat (length files) /\ ds_supported s = Z.of_nat (length replays) /\
    (forall b : Z -> bool, (forall v, b v = true <-> exists n t f c, unit_file d (v, n) t f c) -> ds_ability s = Z.of_nat (length (filter (fun x => b (xi_version x)) replays))) /\
    most_frequent 10 (flat_map playing (readable_details mb (os_world os) replays)) (ds_players s) /\
    most_frequent 10 (map xd_title (readable_details mb (os_world os) replays)) (ds_maps s).
  Proof.
    intros p s files Hw Ef E replays. unfold from_directory in E. destruct (read_assets (os_dec os) (os_assets os) []) as [m|e|] eqn:Em; try discriminate. cbn [obind] in E.
    destruct (scan_ok _ _ _ _ _ _ _ _ Hw Ef E) as (A & B & C & D & F). refine (conj A (conj B (conj _ (conj D F)))). intros b Hb. rewrite C. do 2 f_equal. apply filter_ext. intros x.
    apply Bool.eq_iff_eq_true. rewrite viewed_has, Hb. split; intros (n & H); exists n; now apply (built_in_units m Em).
  Qed.
  Lemma library_ends : forall p, world_bytes (os_world os) ->
    ((exists e, from_directory os p = Err e) <-> (exists k s f c, unit_file d k s f c /\ os_dec os c = None) \/ exists e, get_matching_files mb (os_tree os) 10 p 1000000 = Err e) /\
    (from_directory os p = Panic <-> (forall k s f c, unit_file d k s f c -> os_dec os c <> None) /\
       (get_matching_files mb (os_tree os) 10 p 1000000 = Panic \/ exists files, get_matching_files mb (os_tree os) 10 p 1000000 = Ok files /\ Exists (scan_panics mb (os_world os)) files)).
  Proof.
    intros p Hw. destruct (fail_together (os_dec os) d (fun _ l => l) (os_assets os) Hg) as (_ & F & _ & N); [intros ? ?; apply Permutation_refl|exact Hp|].
    unfold from_directory. destruct (read_assets (os_dec os) (os_assets os) []) as [m|e|] eqn:Em; [| |congruence].
    - pose proof (proj1 F (ex_intro _ m eq_refl)) as K. cbn [obind]. destruct (get_matching_files mb (os_tree os) 10 p 1000000) as [files|e|] eqn:Ef.
      + destruct (scan_panic mb (os_tree os) (os_world os) (viewed os m) (os_walk os) p files Hw Ef) as [A B]. split.
        * split; [intros (e & E); destruct (A e E)|]. intros [(k & s & f & c & H & D)|(e & E)]; [destruct (K _ _ _ _ H D)|discriminate].
        * rewrite B. split; [intros H; split; [exact K|]; right; eauto|]. intros (_ & [H|(fs & H & X)]); [discriminate|]. injection H as <-. exact X.
      + unfold scan_path. rewrite Ef. cbn [obind]. split; [split; [intros _; right; eauto|intros _; eauto]|]. split; [discriminate|]. intros (_ & [H|(fs & H & _)]); discriminate.
      + unfold scan_path. rewrite Ef. cbn [obind]. split; [|split; auto]. split; [intros (e & E); discriminate|]. intros [(k & s & f & c & H & D)|(e & E)]; [destruct (K _ _ _ _ H D)|discriminate].
    - cbn [obind]. assert (X : ~ forall k s f c, unit_file d k s f c -> os_dec os c <> None). { intros K. apply F in K as (m & K). discriminate. }
      split; [|split; [discriminate|intros (K & _); contradiction]]. split; [intros _|intros _; eauto]. left. clear F N.
      assert (B : exists k s f c, unit_file d k s f c /\ os_dec os c = None); [|exact B].
      rewrite (read_assets_load (os_dec os)) in Em. assert (L : forall l m x, load (os_dec os) l m = Err x -> exists k c, In (k, c) l /\ os_dec os c = None).
      { induction l as [|[k c] l IH]; intros m x Q; cbn [load] in Q; [discriminate|]. destruct (os_dec os c) as [u|] eqn:D; [|exists k, c; split; [now left|exact D]].
        destruct (IH _ _ Q) as (k' & c' & H & D'). exists k', c'. split; [now right|exact D']. }
      destruct (L _ _ _ Em) as (k & c & H & D). apply (asset_keys_spec (os_dec os) d _ k c Hg Hp) in H as (s & f & H). eauto 6.
  Qed.
  Lemma program_scan : forall (order order' : dir_order) ds a, ag_json a = "" -> ag_command a = CmdScan ->
    process os order order' ds a = match from_directory os (os_path os (ag_source a)) with Ok s => (Ok tt, [FStats s], ds) | Err e => (Err e, [], ds) | Panic => (Panic, [], ds) end.
  Proof.
    intros order order' ds a Hj Hc. unfold process, balance_data, from_directory. rewrite Hj, Hc. cbn [String.eqb]. destruct (read_assets _ _ _) as [m|e|]; cbn [use_run obind]; [|reflexivity|reflexivity]. destruct (scan_path _ _ _ _ _ _); reflexivity.
  Qed.
End Stats.
