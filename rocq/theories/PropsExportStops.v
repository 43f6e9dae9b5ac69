(** * C145, continued: readable replays, and an export of them *)
From Verif Require Import Base Types Utf8 F32 F32Facts Versioned VersionedSpec Dispatch Events Tags TagFacts Maps Lobby Balance
  Convert Stream Iterators StreamSpec IteratorStreams State StateSpec StateExample Merge MergeSpec DetailsData Rows RowSpec RowFacts PropsRows
  Files Archive ArchiveSpec ArchiveFacts SnapshotFacts ExportEnds PropsArchive Stops ExportStops.
From Coq Require Import Permutation Lia.
#[local] Open Scope string_scope.
#[local] Open Scope Z_scope.
#[local] Open Scope list_scope.

(** A table of a readable replay: it is the events themselves, as written, that
    decide, the same for every table. *)
Theorem C145_readable : forall mc p init d b st tevs t gevs g A (rows : item -> list A), starts init d b st -> sectors_of mc p tevs t gevs g ->
  (table mc p rows (merge_start st t g None) = Panic <-> stopped_by mc st tevs gevs) /\
  (~ stopped_by mc st tevs gevs -> exists res, table mc p rows (merge_start st t g None) = Ok res).
Proof. exact readable_stop. Qed.
Print Assumptions C145_readable.
(** An export of replays that can be opened without a panic and read if opened:
    it succeeds exactly if the output is a directory, the files can be created
    and no replay contains an event that stops the program. *)
Theorem C145_export : forall mc t w all dir ok order source c sources, world_bytes w -> any_order order -> choose_sources (mc_build mc) t w source c = Ok sources ->
  (forall d, In d sources -> details_rows (mc_build mc) w d <> Panic /\ iterator_new (mc_build mc) w d all <> Panic /\
     forall st tb gb, opens (mc_build mc) w all d st tb gb -> exists tevs gevs, sectors_of mc (iterator_proto d) tevs tb gevs gb) ->
  (fst (export_replays mc t w all dir ok order source c) = Ok tt <->
   dir = true /\ (forall n, In n snapshot_tables -> ok (snapshot_name n) = true) /\
   forall d st tb gb tevs gevs, In d sources -> opens (mc_build mc) w all d st tb gb -> sectors_of mc (iterator_proto d) tevs tb gevs gb -> ~ stopped_by mc st tevs gevs).
Proof. exact export_stop. Qed.
Print Assumptions C145_export.

Lemma one_source : exists d, choose_sources (mc_build ex_mc) three_files (a_world all_good) ["r"] (mk_props 100 1 5 None None) = Ok [d] /\
  details_rows (mc_build ex_mc) (a_world all_good) d <> Panic /\ iterator_new (mc_build ex_mc) (a_world all_good) d a_balance <> Panic /\
  xi_file_name d = "r/a.SC2Replay" /\ iterator_proto d = P87702.
Proof.
  eexists. split; [vm_compute; reflexivity|]. split; [vm_compute; discriminate|]. split; [vm_compute; discriminate|]. split; reflexivity.
Qed.
(** The first replay of the example directory: nothing in it stops the program. *)
Example C145_export_example : exists d, choose_sources (mc_build ex_mc) three_files (a_world all_good) ["r"] (mk_props 100 1 5 None None) = Ok [d] /\
  (forall st tb gb, opens (mc_build ex_mc) (a_world all_good) a_balance d st tb gb -> sectors_of ex_mc (iterator_proto d) r_tevs tb r_gevs gb) /\
  (exists st tb gb, opens (mc_build ex_mc) (a_world all_good) a_balance d st tb gb) /\
  forall st tb gb, opens (mc_build ex_mc) (a_world all_good) a_balance d st tb gb -> ~ stopped_by ex_mc st r_tevs r_gevs.
Proof.
  destruct one_source as (d & Es & H1 & H2 & En & Ep). exists d. split; [exact Es|].
  assert (Hs : forall st tb gb, opens (mc_build ex_mc) (a_world all_good) a_balance d st tb gb -> sectors_of ex_mc (iterator_proto d) r_tevs tb r_gevs gb).
  { intros st tb gb (a & x & _ & Ea & Et & Eg & _). rewrite En in Ea. assert (Q : a = a_good) by (assert (K : a_world all_good "r/a.SC2Replay" = Ok a_good) by reflexivity; congruence). subst a.
    assert (Q : tb = r_t) by (assert (K : ar_sector a_good "replay.tracker.events" = Ok r_t) by reflexivity; congruence).
    assert (Q' : gb = r_g) by (assert (K : ar_sector a_good "replay.game.events" = Ok r_g) by reflexivity; congruence). rewrite Q, Q', Ep. exact r_sectors. }
  split; [exact Hs|]. split.
  { destruct (iterator_new (mc_build ex_mc) (a_world all_good) d a_balance) as [it|e|] eqn:Ei; [|exfalso|congruence].
    - apply iterator_new_opens in Ei as (st & tb & gb & Ho & _). eauto.
    - assert (B : match choose_sources (mc_build ex_mc) three_files (a_world all_good) ["r"] (mk_props 100 1 5 None None) with
        | Ok [d] => match iterator_new (mc_build ex_mc) (a_world all_good) d a_balance with Ok _ => True | _ => False end | _ => False end) by (vm_compute; exact Logic.I).
      rewrite Es, Ei in B. exact B. }
  assert (E : fst (export_replays ex_mc three_files (a_world all_good) a_balance true always (fun _ l => l) ["r"] (mk_props 100 1 5 None None)) = Ok tt) by (vm_compute; reflexivity).
  apply (C145_export ex_mc three_files (a_world all_good) a_balance true always (fun _ l => l) ["r"] _ [d] good_world (fun _ l => Permutation_refl l) Es) in E.
  - destruct E as (_ & _ & Hn). intros st tb gb Ho. exact (Hn d st tb gb r_tevs r_gevs (or_introl eq_refl) Ho (Hs st tb gb Ho)).
  - intros d' [<-|[]]. split; [exact H1|]. split; [exact H2|]. intros st tb gb Ho. exists r_tevs, r_gevs. exact (Hs st tb gb Ho).
Qed.
