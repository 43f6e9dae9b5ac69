(** * C144: the statistics of a directory with the balance data built into the library *)
From Coq Require Import Permutation.
From Verif Require Import Base Convert ConvertSpec Balance DetailsData DetailsSpec State StateExample Files Archive ArchiveSpec SnapshotFacts StatsFacts PropsArchive Cli PropsCli BalanceFiles BalanceSpec PropsBalance Program ProgramSpec PropsProgram DirStats DirStatsFacts.
#[local] Open Scope string_scope.
#[local] Open Scope Z_scope.
#[local] Open Scope list_scope.

(** The numbers; a replay counts as one with abilities exactly if the library has a
    unit file of its version, whatever the unit. *)
Theorem C144_counts : forall {U} (os : outside U) d, good_disk d -> Permutation (assets_of d) (os_assets os) -> forall p s files, walks (os_walk os) ->
  get_matching_files (mc_build (os_machine os)) (os_tree os) 10 p 1000000 = Ok files -> from_directory os p = Ok s ->
  let replays := readable_replays (mc_build (os_machine os)) (os_world os) 0 files in
  ds_total s = Z.of_nat (length files) /\ ds_supported s = Z.of_nat (length replays) /\
  (forall b : Z -> bool, (forall v, b v = true <-> exists n t f c, unit_file d (v, n) t f c) -> ds_ability s = Z.of_nat (length (filter (fun x => b (xi_version x)) replays))) /\
  most_frequent 10 (flat_map playing (readable_details (mc_build (os_machine os)) (os_world os) replays)) (ds_players s) /\
  most_frequent 10 (map xd_title (readable_details (mc_build (os_machine os)) (os_world os) replays)) (ds_maps s).
Proof. exact @library_counts. Qed.
Print Assumptions C144_counts.
(** When it fails, and when it panics. *)
Theorem C144_ends : forall {U} (os : outside U) d, good_disk d -> Permutation (assets_of d) (os_assets os) -> forall p, world_bytes (os_world os) ->
  ((exists e, from_directory os p = Err e) <->
     (exists k s f c, unit_file d k s f c /\ os_dec os c = None) \/ exists e, get_matching_files (mc_build (os_machine os)) (os_tree os) 10 p 1000000 = Err e) /\
  (from_directory os p = Panic <-> (forall k s f c, unit_file d k s f c -> os_dec os c <> None) /\
     (get_matching_files (mc_build (os_machine os)) (os_tree os) 10 p 1000000 = Panic \/
      exists files, get_matching_files (mc_build (os_machine os)) (os_tree os) 10 p 1000000 = Ok files /\ Exists (scan_panics (mc_build (os_machine os)) (os_world os)) files)).
Proof. exact @library_ends. Qed.
Print Assumptions C144_ends.
(** The command [scan] without a JSON directory prints these numbers. *)
Theorem C144_program : forall {U} (os : outside U) (order order' : dir_order) ds a, ag_json a = "" -> ag_command a = CmdScan ->
  process os order order' ds a = match from_directory os (os_path os (ag_source a)) with Ok s => (Ok tt, [FStats s], ds) | Err e => (Err e, [], ds) | Panic => (Panic, [], ds) end.
Proof. exact @program_scan. Qed.
Print Assumptions C144_program.

(** Three replays, two readable, none of the only version built in (80949); with
    the file of that unit in a directory of the version of one of them, one. *)
Definition other_disk : disk := [(["87702"], DDir); (["87702"; "Marine.json"], DFile [1; 7])].
Definition other_outside : outside (list Z) :=
  mk_outside (list Z) ex_enc ex_dec ex_id ex_dec (os_view ex_outside) (assets_of other_disk) (fun _ _ => Ok tt) ex_mc three_files (a_world all_good) (fun s => [s]) (fun _ => true) (fun _ _ => true) (fun _ l => l) (fun l => l).
Lemma other_disk_good : good_disk other_disk.
Proof.
  split; [cbn [map fst other_disk]; repeat (constructor; [intros K; cbn in K; repeat (destruct K as [K|K]; [discriminate|]); destruct K|]); constructor|]. split.
  - repeat constructor; try discriminate; cbn [fst]; vm_compute; intros K; repeat (destruct K as [K|K]; [discriminate|]); destruct K.
  - intros p n x Hi. repeat (destruct Hi as [Hi|Hi]; [injection Hi as E _; destruct p as [|a [|b [|c [|]]]]; cbn in E; injection E; intros; subst; try discriminate; cbn; intuition|]). destruct Hi.
Qed.
Example C144_example : good_disk ex_disk /\ good_disk other_disk /\ Permutation (assets_of ex_disk) (os_assets ex_outside) /\ Permutation (assets_of other_disk) (os_assets other_outside) /\
  walks (os_walk ex_outside) /\ walks (os_walk other_outside) /\ world_bytes (os_world other_outside) /\
  get_matching_files Checked three_files 10 ["r"] 1000000 = Ok [["r"; "a.SC2Replay"]; ["r"; "b.SC2Replay"]; ["r"; "c.SC2Replay"]] /\
  map xi_version (readable_replays Checked (a_world all_good) 0 [["r"; "a.SC2Replay"]; ["r"; "b.SC2Replay"]; ["r"; "c.SC2Replay"]]) = [87702; 75689] /\
  from_directory ex_outside ["r"] = Ok (mk_dir_stats 3 2 0 [("A", 2); ("B", 2)] [("TO", 2)]) /\
  from_directory other_outside ["r"] = Ok (mk_dir_stats 3 2 1 [("A", 2); ("B", 2)] [("TO", 2)]).
Proof.
  split; [apply C116_built_in_ex|]. split; [exact other_disk_good|]. split; [apply C116_built_in_ex|]. split; [apply Permutation_refl|]. split; [intros l; apply Permutation_refl|]. split; [intros l; apply Permutation_refl|].
  split; [exact good_world|]. split; [vm_compute; reflexivity|]. split; [vm_compute; reflexivity|]. split; vm_compute; reflexivity.
Qed.
(** A file that is no unit: an error; a directory that is none. *)
Definition broken_disk : disk := [(["87702"], DDir); (["87702"; "Marine.json"], DFile [])].
Definition broken_outside : outside (list Z) :=
  mk_outside (list Z) ex_enc ex_dec ex_id ex_dec (os_view ex_outside) (assets_of broken_disk) (fun _ _ => Ok tt) ex_mc three_files (a_world all_good) (fun s => [s]) (fun _ => true) (fun _ _ => true) (fun _ l => l) (fun l => l).
Definition bad_outside : outside (list Z) :=
  mk_outside (list Z) ex_enc ex_dec ex_id ex_dec (os_view ex_outside) (assets_of other_disk) (fun _ _ => Ok tt) ex_mc three_files (a_world with_other) (fun s => [s]) (fun _ => true) (fun _ _ => true) (fun _ l => l) (fun l => l).
Example C144_ends_ex : (exists e, from_directory broken_outside ["r"] = Err e) /\ from_directory bad_outside ["r"] = Panic.
Proof. split; [eexists; vm_compute; reflexivity|vm_compute; reflexivity]. Qed.
