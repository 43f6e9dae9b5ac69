(** * Details, lobby slots and their join *)
From Verif Require Import Base.
#[local] Open Scope string_scope.
#[local] Open Scope Z_scope.
#[local] Open Scope list_scope.

(** Model of src/details.rs:338-343 [ToonNameDetails]. *)
Record toon := mk_toon { to_region : Z; to_program : Z; to_realm : Z; to_id : Z }.
(** Model of src/details.rs:321-333 [PlayerDetails]. *)
Record player_details := mk_player {
  pd_name : string; pd_toon : toon; pd_race : string; pd_color : Z * Z * Z * Z; pd_control : Z; pd_team : Z;
  pd_handicap : Z; pd_observe : Z; pd_result : string; pd_slot : option Z; pd_hero : string }.
(** Model of src/details.rs:239-261 [Details]: the fields the join reads.
    [ext_datetime] is kept as an opaque number. *)
Record details := mk_details {
  de_players : list player_details; de_title : string; de_time_utc : Z; de_time_offset : Z;
  de_handles : list string; de_fs_id : Z; de_datetime : Z }.
(** Model of src/init_data/mod.rs:289-333 [LobbySlot]: the fields read by the
    library; the others, which are only copied, are left out. *)
Record lobby_slot := mk_slot {
  ls_control : Z; ls_user_id : option Z; ls_team_id : Z; ls_observe : Z; ls_hero : string;
  ls_slot : option Z; ls_toon : string }.
(** Model of src/init_data/mod.rs:101-121 [UserInitialData]: name and clan tag. *)
Record user_initial := mk_initial { uid_name : string; uid_clan : option string }.
(** Model of [GameDescription] (src/init_data/mod.rs:128-157): the fields copied
    to the flat rows. *)
Record game_description := mk_description { gd_is_blizzard : bool; gd_map_x : Z; gd_map_y : Z }.
(** Model of src/init_data/mod.rs:27-38 [InitData] with [LobbySyncState] and
    [LobbyState.slots] inlined. *)
Record init_data := mk_init {
  id_fs_id : Z; id_sha256 : string; id_file : string; id_version : Z;
  id_initial : list user_initial; id_description : game_description; id_slots : list lobby_slot }.
(** Model of src/details.rs:164-182 [PlayerLobbyDetails]. *)
Record lobby_details := mk_lobby {
  ld_player : player_details; ld_slot : lobby_slot; ld_title : string; ld_description : game_description;
  ld_time_utc : Z; ld_time_offset : Z; ld_init_name : string; ld_init_clan : string;
  ld_setup_player : option Z; ld_setup_slot : option Z;
  ld_handles : list string; ld_sha256 : string; ld_file : string; ld_fs_id : Z; ld_datetime : Z }.

(** The [for] loop of src/details.rs:195-205. *)
Fixpoint slot_loop (idx : nat) (p : player_details) (l : list lobby_slot) : option nat :=
  match l with
  | [] => None
  | s :: l' =>
      match ls_slot s, pd_slot p with
      | Some a, Some b => if a =? b then Some idx else slot_loop (Datatypes.S idx) p l'
      | _, _ => slot_loop (Datatypes.S idx) p l'
      end
  end.
(** The closure of src/details.rs:193-234.  The index of [slots[slot_idx]] comes
    from the loop, so a missing element is the panic that cannot happen. *)
Definition lobby_of (init : init_data) (d : details) (p : player_details) : outcome (option lobby_details) :=
  match slot_loop 0 p (id_slots init) with
  | None => Ok None
  | Some i =>
      match nth_error (id_slots init) i with
      | None => Panic
      | Some s =>
          let u := nth_error (id_initial init) i in
          Ok (Some (mk_lobby p s (de_title d) (id_description init) (de_time_utc d) (de_time_offset d)
            match u with Some u => uid_name u | None => "" end
            match u with Some u => match uid_clan u with Some c => c | None => "" end | None => "" end
            None None (de_handles d) (id_sha256 init) (id_file init) (de_fs_id d) (de_datetime d)))
      end
  end.
Fixpoint filter_map_out {A B} (f : A -> outcome (option B)) (l : list A) : outcome (list B) :=
  match l with
  | [] => Ok []
  | a :: l' => do b <- f a; do bs <- filter_map_out f l'; Ok (match b with Some b => b :: bs | None => bs end)
  end.
(** Model of src/details.rs:184-237 [TryFrom<&InitData> for Vec<PlayerLobbyDetails>],
    after the details have been read. *)
Definition lobby_details_of (init : init_data) (d : details) : outcome (list lobby_details) :=
  filter_map_out (lobby_of init d) (de_players d).
(** Model of src/details.rs:291-303 [get_player_names]. *)
Definition get_player_names (d : details) : list string :=
  map pd_name (filter (fun p => pd_observe p =? 0) (de_players d)).
