(** * C89, continued: when an export succeeds and how it fails *)
From Coq Require Import Permutation.
From Verif Require Import Base Types Convert State StateExample Merge MergeSpec DetailsData Rows PropsRows Files Archive ArchiveSpec ArchiveFacts SnapshotFacts ExportEnds PropsArchive.
#[local] Open Scope string_scope.
#[local] Open Scope Z_scope.
#[local] Open Scope list_scope.

(** C89.  An export succeeds exactly if the output is a directory, all seven files
    can be created in it and no replay stops the program ([calm_replay]) - a replay that cannot be
    opened does no harm. *)
Theorem C89_succeeds : forall mc t w all dir ok order source c sources, world_bytes w -> any_order order -> choose_sources (mc_build mc) t w source c = Ok sources ->
  (fst (export_replays mc t w all dir ok order source c) = Ok tt <->
   dir = true /\ (forall n, In n snapshot_tables -> ok (snapshot_name n) = true) /\ forall d, In d sources -> calm_replay mc w all d).
Proof. intros mc t w all dir ok order source c sources Hw Ho Es. unfold export_replays. rewrite Es. exact (snapshot_ends mc w all dir ok order sources Hw Ho). Qed.
Print Assumptions C89_succeeds.
(** If the output is not a directory nothing is written and the program ends in a
    panic. *)
Theorem C89_no_directory : forall mc t w all ok order source c sources, choose_sources (mc_build mc) t w source c = Ok sources ->
  export_replays mc t w all false ok order source c = (Panic, []).
Proof. intros mc t w all ok order source c sources Es. unfold export_replays. rewrite Es. reflexivity. Qed.
Print Assumptions C89_no_directory.
(** The first file that cannot be created makes it an error, with the files
    before it finished and none after it. *)
Theorem C89_not_created : forall mc t w all ok order source c sources before n after, world_bytes w -> any_order order -> choose_sources (mc_build mc) t w source c = Ok sources ->
  (forall d, In d sources -> calm_replay mc w all d) ->
  snapshot_tables = before ++ n :: after -> (forall x, In x before -> ok (snapshot_name x) = true) -> ok (snapshot_name n) = false ->
  exists e fs, export_replays mc t w all true ok order source c = (Err e, fs) /\ map af_name fs = map snapshot_name before /\ Forall (fun f => af_finished f = true) fs.
Proof.
  intros mc t w all ok order source c sources before n after Hw Ho Es Hc Ht Hk Hn. unfold export_replays. rewrite Es.
  exact (snapshot_not_created mc w all ok order sources before n after Hw Ho Hc Ht Hk Hn).
Qed.
Print Assumptions C89_not_created.

(** The three files of PropsArchive: two replays that are read without harm. *)
Example C89_calm : exists sources, choose_sources (mc_build ex_mc) three_files (a_world all_good) ["r"] any_props = Ok sources /\ length sources = 2%nat /\
  (forall d, In d sources -> calm_replay ex_mc (a_world all_good) a_balance d).
Proof.
  destruct (choose_sources (mc_build ex_mc) three_files (a_world all_good) ["r"] any_props) as [sources|e|] eqn:Es; [|exfalso; vm_compute in Es; discriminate..].
  exists sources. split; [reflexivity|]. split; [assert (L : match choose_sources (mc_build ex_mc) three_files (a_world all_good) ["r"] any_props with Ok l => length l | _ => 0%nat end = 2%nat) by (vm_compute; reflexivity); rewrite Es in L; exact L|].
  destruct C89_example as (Hw & _ & (fs & E & _) & _).
  apply (C89_succeeds ex_mc three_files (a_world all_good) a_balance true always (fun _ l => l) ["r"] any_props sources Hw (fun _ l => Permutation_refl l) Es). rewrite E. reflexivity.
Qed.
(** The fourth file cannot be created. *)
Example C89_full_disk : exists e fs, export_replays ex_mc three_files (a_world all_good) a_balance true (fun s => negb (String.eqb s "unit_born.arrow")) backwards ["r"] any_props = (Err e, fs) /\
  map af_name fs = ["details.arrow"; "stats.arrow"; "upgrades.arrow"].
Proof.
  destruct C89_calm as (sources & Es & _ & Hc). destruct C89_example as (Hw & Hb & _).
  destruct (C89_not_created ex_mc three_files (a_world all_good) a_balance (fun s => negb (String.eqb s "unit_born.arrow")) backwards ["r"] any_props sources [TDetails; TStats; TUpgrades] TBorn [TDied; TPoints; TTargets] Hw Hb Es Hc eq_refl) as (e & fs & E & En & _).
  - intros x Hx. repeat (destruct Hx as [<-|Hx]; [reflexivity|]). destruct Hx.
  - reflexivity.
  - exists e, fs. split; [exact E|exact En].
Qed.
