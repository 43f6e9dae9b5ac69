(** * C49, C52, C72: ability names and the lobby *)
From Verif Require Import Base Lobby Balance TableSpec TableFacts.
#[local] Open Scope string_scope.
#[local] Open Scope Z_scope.
#[local] Open Scope list_scope.

(** C49.  The name is that of the first line of the unit's own table with this
    link and index, and empty if there is none or the unit is unknown. *)
Theorem C49_ability_name : forall b unit_name link index,
  match sget unit_name b with
  | Some u =>
      (forall name, first_line (command_lines u) link index name -> get_indexed_ability_command_name b unit_name link index = name) /\
      ((forall name, ~ In (link, index, name) (command_lines u)) -> get_indexed_ability_command_name b unit_name link index = "")
  | None => get_indexed_ability_command_name b unit_name link index = ""
  end.
Proof. exact command_name. Qed.
Print Assumptions C49_ability_name.
(** The two cases are all there is. *)
Theorem C49_cases : forall u link index, (exists name, first_line (command_lines u) link index name) \/ (forall name, ~ In (link, index, name) (command_lines u)).
Proof. exact command_name_total. Qed.
Print Assumptions C49_cases.
Definition nexus : bal_unit := mk_bunit None
  [mk_bability "Rally" None [mk_bcommand (Some "Never") 0]; mk_bability "Boost" (Some 7) [mk_bcommand (Some "Cast") 0; mk_bcommand None 1]]
  [mk_bref "Hidden" (Some 7) (Some 0); mk_bref "Probe" (Some 8) (Some 0); mk_bref "NoLink" None (Some 0)]
  [mk_bref "Pylon" (Some 8) (Some 0); mk_bref "Gate" (Some 8) (Some 2)] (Some [mk_bresearch "Warp" 9 3]).
Example C49_example : forall b, b = [("Nexus", nexus)] ->
  first_line (command_lines nexus) 7 0 "Boost.Cast" /\
  map (fun x => get_indexed_ability_command_name b (fst (fst x)) (snd (fst x)) (snd x)) [("Nexus", 7, 0); ("Nexus", 7, 1); ("Nexus", 8, 0); ("Nexus", 8, 2); ("Nexus", 9, 3); ("Nexus", 9, 4); ("SCV", 7, 0)]
  = ["Boost.Cast"; "Boost."; "Train.Probe"; "Build.Gate"; "Research.Warp"; ""; ""].
Proof. intros b ->. split; [|reflexivity]. exists []. eexists. split; [reflexivity|]. intros s []. Qed.

(** C52.  The entries are the players with a slot of their own, in order, each
    with the first such slot ... *)
Theorem C52_lobby : forall init d, exists entries, lobby_details_of init d = Ok entries /\
  keeps (has_slot (id_slots init)) (map ld_player entries) (de_players d) /\
  Forall (fun e => exists i, first_slot (id_slots init) (ld_player e) i (ld_slot e)) entries.
Proof. exact lobby_pairs. Qed.
Print Assumptions C52_lobby.
(** ... and the data of this replay. *)
Theorem C52_common : forall init d entries, lobby_details_of init d = Ok entries -> Forall (fun e =>
  ld_title e = de_title d /\ ld_description e = id_description init /\ ld_time_utc e = de_time_utc d /\ ld_time_offset e = de_time_offset d /\
  ld_handles e = de_handles d /\ ld_sha256 e = id_sha256 init /\ ld_file e = id_file init /\ ld_fs_id e = de_fs_id d /\ ld_datetime e = de_datetime d /\
  ld_setup_player e = None /\ ld_setup_slot e = None) entries.
Proof. exact lobby_common. Qed.
Print Assumptions C52_common.
(** The names listed for a replay: those of the players that do not observe, in
    order. *)
Theorem C52_player_names : forall d, exists ps, keeps (fun p => pd_observe p = 0) ps (de_players d) /\ get_player_names d = map pd_name ps.
Proof. exact player_names_kept. Qed.
Print Assumptions C52_player_names.
Definition some_player (name : string) (slot : option Z) : player_details := mk_player name (mk_toon 2 3 1 44) "Zerg" (255, 180, 20, 30) 2 0 100 0 "Win" slot "".
Definition two_users (first second : Z) : init_data := mk_init 7 "sha" "a.SC2Replay" 87702 [mk_initial "Anna" (Some "AX"); mk_initial "Bert" None]
  (mk_description true 152 168) [mk_slot 2 (Some first) 0 0 "" (Some 0) ""; mk_slot 2 (Some second) 1 0 "" (Some 1) ""].
Definition some_details : details := mk_details [some_player "Bert" (Some 1); some_player "Gone" None; some_player "Anna" (Some 0)] "Map" 5 6 ["h"] 7 8.
Example C52_example : exists a b, lobby_details_of (two_users 0 1) some_details = Ok [a; b] /\
  (pd_name (ld_player a), ls_user_id (ld_slot a), pd_name (ld_player b), ls_user_id (ld_slot b)) = ("Bert", Some 1, "Anna", Some 0).
Proof. eexists. eexists. split; reflexivity. Qed.

(** C72, false: the initial data are looked up by the position of the slot, not
    by the user id of the slot. *)
Theorem C72_names_refuted : exists init d e u, lobby_details_of init d = Ok [e] /\ ls_user_id (ld_slot e) = Some (Z.of_nat 1) /\ nth_error (id_initial init) 1 = Some u /\ ld_init_name e <> uid_name u.
Proof.
  exists (two_users 1 0), (mk_details [some_player "Bert" (Some 0)] "Map" 5 6 ["h"] 7 8). eexists. eexists. split; [reflexivity|]. split; [reflexivity|]. split; [reflexivity|]. discriminate.
Qed.
Print Assumptions C72_names_refuted.
(** Which name and clan tag are reported, in every case ... *)
Theorem C72_names_partial : forall init d entries, lobby_details_of init d = Ok entries -> Forall (fun e => exists i, first_slot (id_slots init) (ld_player e) i (ld_slot e) /\
  ld_init_name e = match nth_error (id_initial init) i with Some u => uid_name u | None => "" end /\
  ld_init_clan e = match nth_error (id_initial init) i with Some u => match uid_clan u with Some c => c | None => "" end | None => "" end) entries.
Proof. exact lobby_names. Qed.
Print Assumptions C72_names_partial.
(** ... which is right when users sit in slots of their own number. *)
Theorem C72_user_names_partial : forall init d entries, lobby_details_of init d = Ok entries ->
  (forall i s, nth_error (id_slots init) i = Some s -> ls_user_id s = Some (Z.of_nat i)) ->
  Forall (fun e => exists k, ls_user_id (ld_slot e) = Some k /\
    ld_init_name e = match nth_error (id_initial init) (Z.to_nat k) with Some u => uid_name u | None => "" end) entries.
Proof. exact lobby_user_names. Qed.
Print Assumptions C72_user_names_partial.
Example C72_example : (forall i s, nth_error (id_slots (two_users 0 1)) i = Some s -> ls_user_id s = Some (Z.of_nat i)) /\
  exists a b, lobby_details_of (two_users 0 1) some_details = Ok [a; b] /\ (ld_init_name a, ld_init_clan a, ld_init_name b, ld_init_clan b) = ("Bert", "", "Anna", "AX").
Proof.
  split; [|eexists; eexists; split; reflexivity]. intros [|[|i]] s; cbn; [intros [= <-]; reflexivity|intros [= <-]; reflexivity|destruct i; discriminate].
Qed.
