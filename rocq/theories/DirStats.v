(** * Statistics of a directory with the balance data of the library

    src/dir_stats.rs:27-36 [SC2ReplaysDirStats::from_directory].  Its argument
    [serial] only chooses between [iter] and [par_iter], which keep the order of
    the files (Archive.v). *)
From Verif Require Import Base State Files Archive BalanceFiles Program.
Definition from_directory {U} (os : outside U) (p : path) : outcome dir_stats :=
  do m <- read_assets (os_dec os) (os_assets os) [];
  scan_path (mc_build (os_machine os)) (os_tree os) (os_world os) (viewed os m) (os_walk os) p.
