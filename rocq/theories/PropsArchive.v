(** * C87-C90: replay files *)
From Coq Require Import Sorted Permutation.
From Verif Require Import Base Types Utf8 Utf8Facts BitSpec BitPacked BitProofs BitInterp BitFormat BitEncode BitFacts Versioned VersionedEncode ByteTypes BitTypes Dispatch Events Tags Maps Lobby Balance
  ConvertSpec ConvertFacts ConvertTracker Stream StreamFacts Iterators StreamSpec SectorEncode IteratorFacts IteratorStreams State StateSpec StateExample Convert PropsConvert PropsIterators
  Merge MergeSpec MergeFacts MergeStreams MergeProofs PropsMerge DetailsData DetailsSpec PropsDetails Rows RowSpec RowFacts PropsRows PropsLobby Files FilesFacts Archive ArchiveSpec ExportSpec ArchiveFacts SnapshotFacts SnapshotTables StatsFacts.
#[local] Open Scope string_scope.
#[local] Open Scope Z_scope.
#[local] Open Scope list_scope.

(** ** A small world *)
Definition a_md5 : val := VStruct [("m_data_deprecated", VOpt None); ("m_data", VBytes [])].
Definition a_header (signature : list Z) (b : Z) : val := VStruct [
  ("m_signature", VBytes signature);
  ("m_version", VStruct [("m_flags", VInt 1); ("m_major", VInt 5); ("m_minor", VInt 0); ("m_revision", VInt 8); ("m_build", VInt b); ("m_base_build", VInt b)]);
  ("m_type", VInt 2); ("m_elapsed_game_loops", VInt 20); ("m_use_scaled_time", VBool true); ("m_ngdp_root_key", a_md5); ("m_data_build_num", VInt b); ("m_replay_compatibility_hash", a_md5);
  ("m_ngdp_root_key_is_dev_data", VBool false)].
Definition encoded (t : vty) (v : val) : list Z := match vencode t v with Some l => l | None => [] end.
Definition good_header : list Z := Eval vm_compute in encoded ba_ReplaySHeader (a_header signature_text 87702).
Definition old_header : list Z := Eval vm_compute in encoded ba_ReplaySHeader (a_header signature_text 75689).
Definition other_header : list Z := Eval vm_compute in encoded ba_ReplaySHeader (a_header [72; 111; 116; 83] 87702).
Definition a_init : list Z := Eval vm_compute in example_sector (example_init (Some (bytes "CLAN"))).
Definition a_details : list Z := Eval vm_compute in encoded ba_GameSDetails
  (example_raw (Some (VList [example_player [65] "ENone" "EWin" (Some (VInt 4)); example_player [66] "ENone" "EWin" None; example_player [67] "EReferee" "EUndecided" None])) [84; 79]).
(** A selection in a group the state does not have. *)
Definition bad_g : list Z := Eval vm_compute in g_sector [(3, (0, game_value (GSelectionDelta (mk_selection 11 0 SMNone [] []))))].
Definition an_archive (user : option (list Z)) (d t g : list Z) : archive :=
  mk_archive user (fun n => if String.eqb n "replay.initData" then Ok a_init else if String.eqb n "replay.details" then Ok d
    else if String.eqb n "replay.tracker.events" then Ok t else if String.eqb n "replay.game.events" then Ok g else Err (EOther "mpq")) "00ff".
(** By name, wherever it is: a replay, an older one, one whose header has another
    signature, one without user data, one that breaks off the iteration, one with
    a short handle, and a file that is not an archive. *)
Definition a_world (listed : list (string * archive)) : world := fun n => match sget n listed with Some a => Ok a | None => Err (EOther "mpq") end.
Definition a_good : archive := an_archive (Some good_header) a_details r_t r_g.
Definition a_old : archive := an_archive (Some old_header) a_details r_t r_g.
Definition a_other : archive := an_archive (Some other_header) a_details r_t r_g.
Definition a_none : archive := an_archive None a_details r_t r_g.
Definition a_breaks : archive := an_archive (Some good_header) a_details r_t bad_g.
Definition a_short : archive := an_archive (Some good_header) short_sector r_t r_g.
(** The directory "r" with these files, and a file that is not an archive. *)
Definition a_tree (names : list string) : tree := fun p => match p with ["r"] => NDir (Some (map Some names)) | [_; n] => NFile | _ => NOther end.
Definition all_good : list (string * archive) := [("r/a.SC2Replay", a_good); ("r/c.SC2Replay", a_old)].
Definition three_files : tree := a_tree ["a.SC2Replay"; "b.SC2Replay"; "c.SC2Replay"].
Definition a_balance : all_balance := [((75689, "SCV"), mk_bunit None [] [] [] None); ((87702, "SCV"), match sget "SCV" ex_balance with Some u => u | None => mk_bunit None [] [] [] None end)].
Definition any_props : ipc_props := mk_props 100 100 5 None None.
Lemma an_archive_bytes : forall u d t g, bytes_ok d -> bytes_ok t -> bytes_ok g -> (forall l, u = Some l -> bytes_ok l) -> archive_bytes (an_archive u d t g).
Proof.
  intros u d t g Hd Ht Hg Hu. split; [exact Hu|]. intros n l E. unfold an_archive, ar_sector in E.
  assert (Hi : bytes_ok a_init) by (apply byte_list_ok; vm_compute; reflexivity).
  repeat match type of E with (if ?b then _ else _) = _ => destruct b; [injection E as <-; assumption|] end. discriminate.
Qed.
Ltac archive_ok := apply an_archive_bytes; try (intros l Q; injection Q as <-); try discriminate; apply byte_list_ok; vm_compute; reflexivity.
Lemma good_bytes : archive_bytes a_good. Proof. archive_ok. Qed.
Lemma old_bytes : archive_bytes a_old. Proof. archive_ok. Qed.
Lemma other_bytes : archive_bytes a_other. Proof. archive_ok. Qed.
Lemma none_bytes : archive_bytes a_none. Proof. archive_ok. Qed.
Lemma breaks_bytes : archive_bytes a_breaks. Proof. archive_ok. Qed.
Lemma short_bytes : archive_bytes a_short. Proof. archive_ok. Qed.
Lemma a_world_bytes : forall l, Forall (fun x => archive_bytes (snd x)) l -> world_bytes (a_world l).
Proof.
  intros l F n a E. unfold a_world in E. destruct (sget n l) as [a'|] eqn:Es; [|discriminate]. injection E as <-. revert Es. induction F as [|[k x] l Hx F IH]; cbn [sget]; [discriminate|].
  destruct (String.eqb k n); [|exact IH]. intros Q. injection Q as <-. exact Hx.
Qed.
Lemma good_world : world_bytes (a_world all_good).
Proof. apply a_world_bytes. repeat constructor; cbn [snd]; [apply good_bytes|apply old_bytes|..]; try apply good_bytes; apply old_bytes. Qed.

(** C87.  Reading the initial data of a replay gives its base build as version,
    its digest, the file id asked for, and what its initData sector shows; the
    file name is the path if it is text, empty otherwise. *)
Theorem C87_init : forall m w p i d, world_bytes w -> init_try_from m w p i = Ok d ->
  exists a, w (path_string p) = Ok a /\ says_init m a d /\ xi_fs_id d = i /\
    ((is_utf8 (bytes_of_str (path_string p)) /\ xi_file_name d = path_string p) \/ (~ is_utf8 (bytes_of_str (path_string p)) /\ xi_file_name d = "")).
Proof. exact init_says. Qed.
Print Assumptions C87_init.
(** A header says one thing. *)
Theorem C87_header : forall m a s b s' b', archive_bytes a -> header_of m a s b -> header_of m a s' b' -> s = s' /\ b = b'.
Proof. exact header_unique. Qed.
Print Assumptions C87_header.
(** The balance data used for a replay is that of its version. *)
Theorem C87_balance : forall m w all d st t g n, opens m w all d st t g -> sget n (st_balance st) = find_balance (xi_version d) n all.
Proof.
  intros m w all d st t g n (a & x & _ & _ & _ & _ & _ & Es). unfold initial_state in Es. apply obind_ok in Es as (ps & _ & Es). injection Es as <-. cbn [st_balance]. apply balance_lookup.
Qed.
Print Assumptions C87_balance.
(** False that files which are not replays give an error: an archive without user
    data and one with another signature panic, in every reader. *)
Theorem C87_error_refuted : forall m,
  (archive_bytes a_none /\ file_tracker_events m a_none = Panic /\ file_game_events m a_none = Panic /\ file_message_events m a_none = Panic /\
    (forall fs, file_details m fs a_none = Panic) /\ (forall n fs, file_init m n fs a_none = Panic)) /\
  (archive_bytes a_other /\ header_of m a_other [72; 111; 116; 83] 87702 /\ file_tracker_events m a_other = Panic /\ file_game_events m a_other = Panic /\ file_message_events m a_other = Panic /\
    (forall fs, file_details m fs a_other = Panic) /\ (forall n fs, file_init m n fs a_other = Panic)).
Proof.
  assert (Ho : forall m, header_of m a_other [72; 111; 116; 83] 87702).
  { intros [|]; (eexists; eexists; eexists; split; [reflexivity|]; split; [vm_compute; reflexivity|]; split; [eexists; eexists; split; [reflexivity|]; split; [left; reflexivity|]; reflexivity|];
      eexists; eexists; split; [reflexivity|]; split; [right; left; reflexivity|]; eexists; eexists; split; [reflexivity|]; split; [do 5 right; left; reflexivity|]; reflexivity). }
  intros m. split; [split; [exact none_bytes|]; apply readers_panic; [left; reflexivity|exact none_bytes]|].
  split; [exact other_bytes|]. split; [apply Ho|]. apply readers_panic; [|exact other_bytes]. right. right. exists [72; 111; 116; 83], 87702. split; [apply Ho|]. unfold signature_text. discriminate.
Qed.
Print Assumptions C87_error_refuted.
(** Exactly when reading the initial data panics. *)
Theorem C87_panics_partial : forall m w p i, world_bytes w -> (init_try_from m w p i = Panic <->
  path_string p <> "" /\ (w (path_string p) = Panic \/ exists a, w (path_string p) = Ok a /\
    (header_panics m a \/ (exists b, header_of m a signature_text b) /\ ar_sector a "replay.initData" = Panic))).
Proof. exact init_panics. Qed.
Print Assumptions C87_panics_partial.
(** The header panics in all readers alike. *)
Theorem C87_readers_partial : forall m a, header_panics m a -> archive_bytes a ->
  file_tracker_events m a = Panic /\ file_game_events m a = Panic /\ file_message_events m a = Panic /\
  (forall fs, file_details m fs a = Panic) /\ (forall name fs, file_init m name fs a = Panic).
Proof. exact readers_panic. Qed.
Print Assumptions C87_readers_partial.
Definition good_sources : list full_init := Eval vm_compute in match choose_sources Checked three_files (a_world all_good) ["r"] any_props with Ok l => l | _ => [] end.
Lemma opens_by : forall m w all d, (exists it, iterator_new m w d all = Ok it) -> exists st t g, opens m w all d st t g.
Proof. intros m w all d (it & E). apply iterator_new_opens in E as (st & t & g & Ho & _). eauto. Qed.
Example C87_example : exists d, init_try_from Checked (a_world all_good) ["r"; "c.SC2Replay"] 2 = Ok d /\ In d good_sources /\
  xi_version d = 75689 /\ xi_sha256 d = "00ff" /\ xi_fs_id d = 2 /\ xi_file_name d = "r/c.SC2Replay" /\
  find_balance (xi_version d) "SCV" a_balance = Some (mk_bunit None [] [] [] None) /\
  exists st t g, opens Checked (a_world all_good) a_balance d st t g.
Proof.
  eexists. split; [vm_compute; reflexivity|]. split; [right; left; reflexivity|]. do 5 (split; [reflexivity|]). apply opens_by. eexists. vm_compute. reflexivity.
Qed.

(** C88.  The exported replays are the first [ip_process_max] of those files
    found (C51) that can be read and have a version between the bounds, both
    included, in order; the file id is the position among the files found. *)
Theorem C88_chosen : forall m t w source c files ds, world_bytes w -> get_matching_files m t (ip_depth c) source (ip_scan_max c) = Ok files ->
  choose_sources m t w source c = Ok ds ->
  ds <> [] /\ Z.of_nat (length ds) <= ip_process_max c /\ StronglySorted (fun a b => xi_fs_id a < xi_fs_id b) ds /\
  Forall (fun d => exists i, xi_fs_id d = Z.of_nat i /\ candidate m w c files i d) ds /\
  forall i d, candidate m w c files i d -> In d ds \/ (Z.of_nat (length ds) = ip_process_max c /\ Forall (fun x => xi_fs_id x < Z.of_nat i) ds).
Proof. exact choose_ok. Qed.
Print Assumptions C88_chosen.
(** False that a file which cannot be read is skipped: next to a replay, a file
    with another signature ends the export. *)
Definition with_other : list (string * archive) := [("r/a.SC2Replay", a_good); ("r/b.SC2Replay", a_other)].
Lemma other_world : world_bytes (a_world with_other).
Proof. apply a_world_bytes. constructor; [apply good_bytes|]. constructor; [apply other_bytes|constructor]. Qed.
Theorem C88_skipped_refuted : exists m t w source c files d, world_bytes w /\ get_matching_files m t (ip_depth c) source (ip_scan_max c) = Ok files /\
  candidate m w c files 0 d /\ choose_sources m t w source c = Panic.
Proof.
  exists Checked, three_files, (a_world with_other), ["r"], any_props, [["r"; "a.SC2Replay"]; ["r"; "b.SC2Replay"]; ["r"; "c.SC2Replay"]]. eexists.
  split; [exact other_world|]. split; [vm_compute; reflexivity|]. split; [exists ["r"; "a.SC2Replay"]; split; [reflexivity|]; split; [vm_compute; reflexivity|split; discriminate]|]. vm_compute. reflexivity.
Qed.
Print Assumptions C88_skipped_refuted.
(** Exactly when choosing panics; once the files are found it gives no error. *)
Theorem C88_panics_partial : forall m t w source c files, world_bytes w -> get_matching_files m t (ip_depth c) source (ip_scan_max c) = Ok files ->
  (forall e, choose_sources m t w source c <> Err e) /\
  (choose_sources m t w source c = Panic <->
    (exists i p, nth_error files i = Some p /\ init_try_from m w p (Z.of_nat i) = Panic) \/ ip_process_max c <= 0 \/ forall i d, ~ candidate m w c files i d).
Proof. exact choose_panic. Qed.
Print Assumptions C88_panics_partial.
(** Three files: a replay, one that is not an archive, and an older replay. *)
Example C88_example : world_bytes (a_world all_good) /\
  get_matching_files Checked three_files 5 ["r"] 100 = Ok [["r"; "a.SC2Replay"]; ["r"; "b.SC2Replay"]; ["r"; "c.SC2Replay"]] /\
  choose_sources Checked three_files (a_world all_good) ["r"] any_props = Ok good_sources /\ map (fun d => (xi_fs_id d, xi_version d)) good_sources = [(0, 87702); (2, 75689)] /\
  (exists d, choose_sources Checked three_files (a_world all_good) ["r"] (mk_props 100 100 5 None (Some 75689)) = Ok [d] /\ xi_fs_id d = 2) /\
  (exists d, choose_sources Checked three_files (a_world all_good) ["r"] (mk_props 100 1 5 (Some 75689) None) = Ok [d] /\ xi_fs_id d = 0).
Proof.
  split; [exact good_world|]. split; [vm_compute; reflexivity|]. split; [vm_compute; reflexivity|]. split; [reflexivity|].
  split; eexists; (split; [vm_compute; reflexivity|reflexivity]).
Qed.

(** C89.  An export that succeeds writes the seven files, each finished: for
    every chosen replay that can be opened and has rows (C76-C81) a batch of
    them, with its file id; the lobby rows (C82) of all in one batch. *)
Theorem C89_serial : forall mc t w all dir ok source c fs, world_bytes w -> export_replays mc t w all dir ok (fun _ l => l) source c = (Ok tt, fs) ->
  exists sources, choose_sources (mc_build mc) t w source c = Ok sources /\
    Forall2 (fun n f => exists x, f = mk_arrow (snapshot_name n) x true /\ content_of mc w all sources n x) snapshot_tables fs.
Proof. exact export_serial. Qed.
Print Assumptions C89_serial.
(** In parallel: the same batches, in some order ... *)
Theorem C89_parallel : forall mc t w all dir ok order source c fs, world_bytes w -> any_order order -> export_replays mc t w all dir ok order source c = (Ok tt, fs) ->
  exists sources, choose_sources (mc_build mc) t w source c = Ok sources /\
    Forall2 (fun n f => exists x x', f = mk_arrow (snapshot_name n) x true /\ content_of mc w all sources n x' /\ same_batches x' x) snapshot_tables fs.
Proof. exact export_ok. Qed.
Print Assumptions C89_parallel.
(** ... and it succeeds, fails or panics as the serial run does. *)
Theorem C89_outcome : forall mc w all dir ok order sources, world_bytes w -> any_order order ->
  fst (write_snapshot mc w all dir ok order sources) = fst (write_snapshot mc w all dir ok (fun _ l => l) sources).
Proof. exact snapshot_outcome. Qed.
Print Assumptions C89_outcome.
(** From bytes to file: the statistics file has, for every chosen replay, one row
    for every PlayerStats event of its tracker sector, with its values (C76), and
    nothing else. *)
Theorem C89_statistics : forall mc w all dir ok order sources fs, world_bytes w -> any_order order -> write_snapshot mc w all dir ok order sources = (Ok tt, fs) ->
  exists batches, In (mk_arrow "stats.arrow" (CStats batches) true) fs /\
    (forall b, In b batches -> exists d, In d sources /\ source_table mc w all stats_of_item d b) /\
    forall d st t g tevs gevs, In d sources -> opens (mc_build mc) w all d st t g -> sectors_of mc (iterator_proto d) tevs t gevs g ->
      let events := filter (fun ev => String.eqb (variant (snd ev)) "EPlayerStats") (at_loops 0 tevs) in
      events = [] \/ exists b, In b batches /\ Forall2 (stats_spec (xi_fs_id d)) events b.
Proof. exact snapshot_stats. Qed.
Print Assumptions C89_statistics.
(** From bytes to files: the other files of events have, for every chosen replay
    that can be opened, a batch of the rows that its events have by C77-C81, and
    no other batches. *)
Theorem C89_events : forall mc w all dir ok order sources fs, world_bytes w -> any_order order -> write_snapshot mc w all dir ok order sources = (Ok tt, fs) ->
  exists upgrades born died points targets,
    In (mk_arrow "upgrades.arrow" (CUpgrades upgrades) true) fs /\ In (mk_arrow "unit_born.arrow" (CBorn born) true) fs /\ In (mk_arrow "unit_died.arrow" (CDied died) true) fs /\
    In (mk_arrow "cmd_target_point.arrow" (CPoints points) true) fs /\ In (mk_arrow "cmd_target_unit.arrow" (CTargets targets) true) fs /\
    batches_hold mc w all sources upgrades_in upgrades /\ batches_hold mc w all sources (born_in (mc_build mc)) born /\ batches_hold mc w all sources (died_in (mc_build mc)) died /\
    batches_hold mc w all sources (points_in mc) points /\ batches_hold mc w all sources (targets_in mc) targets.
Proof. exact snapshot_events. Qed.
Print Assumptions C89_events.
(** False that an export which does not succeed leaves no unfinished file, and
    that one odd replay does not matter: a replay whose game events select in a
    group above ten leaves the details and an unfinished statistics file. *)
Definition with_breaks : list (string * archive) := [("r/a.SC2Replay", a_good); ("r/b.SC2Replay", a_breaks)].
Lemma breaks_world : world_bytes (a_world with_breaks).
Proof. apply a_world_bytes. constructor; [apply good_bytes|]. constructor; [apply breaks_bytes|constructor]. Qed.
Definition always (n : string) : bool := true.
Theorem C89_unfinished_refuted : exists mc t w all source c fs d, world_bytes w /\
  export_replays mc t w all true always (fun _ l => l) source c = (Panic, fs) /\
  map (fun f => (af_name f, af_finished f)) fs = [("details.arrow", true); ("stats.arrow", false)] /\
  choose_sources (mc_build mc) t w source (mk_props 100 1 5 None None) = Ok [d] /\
  exists fs', export_replays mc t w all true always (fun _ l => l) source (mk_props 100 1 5 None None) = (Ok tt, fs').
Proof.
  exists ex_mc, three_files, (a_world with_breaks), a_balance, ["r"], any_props. eexists. eexists.
  split; [exact breaks_world|]. split; [vm_compute; reflexivity|]. split; [reflexivity|]. split; [vm_compute; reflexivity|]. eexists. vm_compute. reflexivity.
Qed.
Print Assumptions C89_unfinished_refuted.
(** What there is when an export does not succeed: the first files, finished and
    with everything in them, and at most one unfinished file, after a panic. *)
Theorem C89_interrupted_partial : forall mc t w all dir ok order source c o fs, world_bytes w -> any_order order -> export_replays mc t w all dir ok order source c = (o, fs) -> o <> Ok tt ->
  fs = [] \/ exists sources k done rest, choose_sources (mc_build mc) t w source c = Ok sources /\ (k < 7)%nat /\ fs = done ++ rest /\
    Forall2 (fun n f => exists x x', f = mk_arrow (snapshot_name n) x true /\ content_of mc w all sources n x' /\ same_batches x' x) (firstn k snapshot_tables) done /\
    (rest = [] \/ exists n x, nth_error snapshot_tables k = Some n /\ n <> TDetails /\ o = Panic /\ rest = [mk_arrow (snapshot_name n) x false]).
Proof. exact export_stops. Qed.
Print Assumptions C89_interrupted_partial.
(** Both replays (the game events are of the newer format): seven files; the units of both, the older one first in a run in
    which it came first.  One with a short handle (C82): no file. *)
Definition rows_in (c : content) : list nat :=
  match c with
  | CDetails l => map (@length _) l | CStats l => map (@length _) l | CUpgrades l => map (@length _) l | CBorn l => map (@length _) l
  | CDied l => map (@length _) l | CPoints l => map (@length _) l | CTargets l => map (@length _) l
  end.
Definition backwards (n : table_name) (l : list full_init) : list full_init := rev l.
Lemma backwards_order : any_order backwards.
Proof. intros n l. apply Permutation_rev. Qed.
Example C89_example : world_bytes (a_world all_good) /\ any_order backwards /\
  (exists fs, export_replays ex_mc three_files (a_world all_good) a_balance true always (fun _ l => l) ["r"] any_props = (Ok tt, fs) /\
    map (fun f => (af_name f, rows_in (af_content f), af_finished f)) fs =
      [("details.arrow", [2], true); ("stats.arrow", [1; 1], true); ("upgrades.arrow", [1; 1], true); ("unit_born.arrow", [4; 4], true);
       ("unit_died.arrow", [1; 1], true); ("cmd_target_point.arrow", [2], true); ("cmd_target_unit.arrow", [2], true)]%nat) /\
  (exists fs, export_replays ex_mc three_files (a_world all_good) a_balance true always backwards ["r"] any_props = (Ok tt, fs) /\
    In (mk_arrow "upgrades.arrow" (CUpgrades [[mk_upgrade_row 1 "Stimpack" 1 5 0 2]; [mk_upgrade_row 1 "Stimpack" 1 5 0 0]]) true) fs) /\
  export_replays ex_mc three_files (a_world [("r/a.SC2Replay", a_short)]) a_balance true always backwards ["r"] any_props = (Panic, []).
Proof.
  split; [exact good_world|]. split; [exact backwards_order|].
  split; [eexists; split; [vm_compute; reflexivity|reflexivity]|]. split; [eexists; split; [vm_compute; reflexivity|right; right; left; reflexivity]|]. vm_compute. reflexivity.
Qed.

(** A replay of the example can be opened and its sectors are those of C76-C81. *)
Example C89_sectors : exists d st t g, In d (rows_of (choose_sources Checked three_files (a_world all_good) ["r"] any_props)) /\
  opens Checked (a_world all_good) a_balance d st t g /\ sectors_of ex_mc (iterator_proto d) r_tevs t r_gevs g.
Proof.
  assert (C : exists d l, choose_sources Checked three_files (a_world all_good) ["r"] any_props = Ok (d :: l) /\ xi_file_name d = "r/a.SC2Replay" /\ iterator_proto d = P87702 /\
    exists it, iterator_new Checked (a_world all_good) d a_balance = Ok it).
  { eexists. eexists. split; [vm_compute; reflexivity|]. split; [reflexivity|]. split; [reflexivity|]. eexists. vm_compute. reflexivity. }
  destruct C as (d & l & Ec & En & Ep & it & Ei). apply iterator_new_opens in Ei as (st & t & g & Ho & _). exists d, st, t, g. rewrite Ec. split; [now left|]. split; [exact Ho|].
  destruct Ho as (a & x & _ & Ea & Et & Eg & _). rewrite En in Ea. assert (Q : a = a_good) by (assert (K : a_world all_good "r/a.SC2Replay" = Ok a_good) by reflexivity; congruence). subst a.
  assert (Q : t = r_t) by (assert (K : ar_sector a_good "replay.tracker.events" = Ok r_t) by reflexivity; congruence).
  assert (Q' : g = r_g) by (assert (K : ar_sector a_good "replay.game.events" = Ok r_g) by reflexivity; congruence). rewrite Q, Q', Ep. exact r_sectors.
Qed.

(** C90.  The numbers of a directory scan: the files found, those readable, those
    of a version with balance data; the ten most frequent names of those who
    played, and of maps, in the replays whose details can be read. *)
Theorem C90_scan : forall m t w all order p files s, walks order -> get_matching_files m t 10 p 1000000 = Ok files -> scan_path m t w all order p = Ok s ->
  let replays := readable_replays m w 0 files in
  ds_total s = Z.of_nat (length files) /\ ds_supported s = Z.of_nat (length replays) /\
  ds_ability s = Z.of_nat (length (filter (fun d => has_balance all (xi_version d)) replays)) /\
  most_frequent 10 (flat_map playing (readable_details m w replays)) (ds_players s) /\
  most_frequent 10 (map xd_title (readable_details m w replays)) (ds_maps s).
Proof. exact scan_ok. Qed.
Print Assumptions C90_scan.
(** False that a directory always gives the same numbers: among equally frequent
    names the order of a hash map decides. *)
Theorem C90_same_refuted : exists m t w all o1 o2 p s1 s2, world_bytes w /\ walks o1 /\ walks o2 /\
  scan_path m t w all o1 p = Ok s1 /\ scan_path m t w all o2 p = Ok s2 /\ ds_players s1 = [("A", 2); ("B", 2)] /\ ds_players s2 = [("B", 2); ("A", 2)].
Proof.
  exists Checked, three_files, (a_world all_good), a_balance, (fun l => l), (@rev _), ["r"]. eexists. eexists.
  split; [exact good_world|]. split; [intros l; apply Permutation_refl|]. split; [intros l; apply Permutation_rev|]. split; [vm_compute; reflexivity|]. split; [vm_compute; reflexivity|]. split; reflexivity.
Qed.
Print Assumptions C90_same_refuted.
(** Exactly when a scan panics; once the files are found it gives no error. *)
Theorem C90_panics_partial : forall m t w all order p files, world_bytes w -> get_matching_files m t 10 p 1000000 = Ok files ->
  (forall e, scan_path m t w all order p <> Err e) /\ (scan_path m t w all order p = Panic <-> Exists (scan_panics m w) files).
Proof. exact scan_panic. Qed.
Print Assumptions C90_panics_partial.
Example C90_example : get_matching_files Checked three_files 10 ["r"] 1000000 = Ok [["r"; "a.SC2Replay"]; ["r"; "b.SC2Replay"]; ["r"; "c.SC2Replay"]] /\
  scan_path Checked three_files (a_world all_good) (tl a_balance) (fun l => l) ["r"] = Ok (mk_dir_stats 3 2 1 [("A", 2); ("B", 2)] [("TO", 2)]) /\
  scan_path Checked three_files (a_world with_other) (tl a_balance) (fun l => l) ["r"] = Panic.
Proof. split; [vm_compute; reflexivity|]. split; vm_compute; reflexivity. Qed.
