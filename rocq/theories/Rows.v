(** * The rows of the exported tables

    src/tracker_events/arrow_store, src/game_events/arrow_store, src/details.rs,
    src/init_data/arrow_store.rs and the [collect_into_*] methods of
    src/state/mod.rs.  The writing of the rows to Arrow files is not modelled. *)
From Coq Require Import Ascii.
From Verif Require Import Base F32 Tags Events Maps Balance Lobby Convert Utf8 ConvertSpec Stream Iterators Dispatch State Merge DetailsData.
#[local] Open Scope string_scope.
#[local] Open Scope Z_scope.
#[local] Open Scope list_scope.

(** ** Seconds: src/lib.rs:183-198 *)
(** [68.58391_f32]: 8989430 * 2^-17. *)
Definition f32_loop_ms : f32 := S754_finite false 8989430 (-17).
Definition f32_1000 : f32 := f32_of_int 1000.
(** [x as u32]: truncation towards zero, saturating, NaN to 0. *)
Definition f32_to_u32 (x : f32) : Z :=
  match x with
  | S754_zero _ | S754_nan => 0
  | S754_infinity s => if s then 0 else two32 - 1
  | S754_finite s m e =>
      let a := if 0 <=? e then Z.pos m * 2 ^ e else Z.pos m / 2 ^ (- e) in
      if s then 0 else Z.min (two32 - 1) a
  end.
(** Model of src/lib.rs:194-198 [convert_game_loop_to_seconds]. *)
Definition game_seconds (l : Z) : Z := f32_to_u32 (f32_div (f32_mul (f32_of_int l) f32_loop_ms) f32_1000).
(** Model of src/lib.rs:189-191 [convert_tracker_loop_to_seconds];
    [TRACKER_SPEED_RATIO] is 1. *)
Definition tracker_seconds (l : Z) : Z := game_seconds (f32_to_i64 (f32_mul f32_one (f32_of_int l))).

(** ** Tracker events *)
(** The struct literal of src/tracker_events/arrow_store/player_stats_flat_row.rs:72-116:
    column and source field.  (Written by a script from the source.) *)
Definition stats_columns : list (string * string) := [
  ("minerals_current", "minerals_current");
  ("vespene_current", "vespene_current");
  ("minerals_collection_rate", "minerals_collection_rate");
  ("vespene_collection_rate", "vespene_collection_rate");
  ("workers_active_count", "workers_active_count");
  ("minerals_used_in_progress_army", "minerals_used_in_progress_army");
  ("minerals_used_in_progress_economy", "minerals_used_in_progress_economy");
  ("minerals_used_in_progress_technology", "minerals_used_in_progress_technology");
  ("vespene_used_in_progress_army", "vespene_used_in_progress_army");
  ("vespene_used_in_progress_economy", "vespene_used_in_progress_economy");
  ("vespene_used_in_progress_technology", "vespene_used_in_progress_technology");
  ("minerals_used_current_army", "minerals_used_current_army");
  ("minerals_used_current_economy", "minerals_used_current_economy");
  ("minerals_used_current_technology", "minerals_used_current_technology");
  ("vespene_used_current_army", "vespene_used_current_army");
  ("vespene_used_current_economy", "vespene_used_current_economy");
  ("vespene_used_current_technology", "vespene_used_current_technology");
  ("minerals_lost_army", "minerals_lost_army");
  ("minerals_lost_economy", "minerals_lost_economy");
  ("minerals_lost_technology", "minerals_lost_technology");
  ("vespene_lost_army", "vespene_lost_army");
  ("vespene_lost_economy", "vespene_lost_economy");
  ("vespene_lost_technology", "vespene_lost_technology");
  ("minerals_killed_army", "minerals_killed_army");
  ("minerals_killed_economy", "minerals_killed_economy");
  ("minerals_killed_technology", "minerals_killed_technology");
  ("vespene_killed_army", "vespene_killed_army");
  ("vespene_killed_economy", "vespene_killed_economy");
  ("vespene_killed_technology", "vespene_killed_technology");
  ("food_used", "food_used");
  ("food_made", "food_made");
  ("minerals_used_active_forces", "minerals_used_active_forces");
  ("vespene_used_active_forces", "vespene_used_active_forces");
  ("minerals_friendly_fire_army", "minerals_friendly_fire_army");
  ("minerals_friendly_fire_economy", "minerals_friendly_fire_economy");
  ("minerals_friendly_fire_technology", "minerals_friendly_fire_technology");
  ("vespene_friendly_fire_army", "vespene_friendly_fire_army");
  ("vespene_friendly_fire_economy", "vespene_friendly_fire_economy");
  ("vespene_friendly_fire_technology", "vespene_friendly_fire_technology")].
(** Model of src/tracker_events/arrow_store/player_stats_flat_row.rs:17-61
    [PlayerStatsFlatRow], the [i32] columns by name. *)
Record stats_row := mk_stats_row { sr_player : Z; sr_values : list (string * option Z); sr_loop : Z; sr_seconds : Z; sr_fs : Z }.
(** Model of player_stats_flat_row.rs:65-117 [new].  A field of [PlayerStats]
    that is not there is [None]: RowFacts.v proves it never happens. *)
Definition stats_row_new (e : player_stats_event) (l fs : Z) : stats_row :=
  mk_stats_row (ps_player_id e) (map (fun c => (fst c, stat (snd c) (ps_stats e))) stats_columns) l (tracker_seconds l) fs.
(** Model of src/tracker_events/arrow_store/upgrade_event_flat_row.rs:15-41. *)
Record upgrade_row := mk_upgrade_row { ur_player : Z; ur_name : string; ur_count : Z; ur_loop : Z; ur_seconds : Z; ur_fs : Z }.
Definition upgrade_row_new (e : upgrade_event) (l fs : Z) : upgrade_row :=
  mk_upgrade_row (ug_player_id e) (ug_name e) (ug_count e) l (tracker_seconds l) fs.
(** Model of src/tracker_events/arrow_store/unit_died_event_flat_row.rs:17-32. *)
Record died_row := mk_died_row {
  dr_name : string; dr_index : Z; dr_recycle : Z; dr_killer_player : option Z; dr_x : Z; dr_y : Z;
  dr_killer_name : string; dr_killer_index : option Z; dr_killer_recycle : option Z; dr_loop : Z; dr_seconds : Z; dr_fs : Z }.
(** Model of unit_died_event_flat_row.rs:36-67 [new]. *)
Definition died_row_new (e : unit_died_event) (l fs : Z) (h : hint) : option died_row :=
  match h with
  | HUnregistered killer killed =>
      Some (mk_died_row (su_name killed) (ud_index e) (ud_recycle e) (ud_killer_player e) (ud_x e) (ud_y e)
        (match killer with Some k => su_name k | None => "" end) (ud_killer_index e) (ud_killer_recycle e) l (tracker_seconds l) fs)
  | _ => None
  end.
(** Model of src/tracker_events/arrow_store/unit_born_event_flat_row.rs:19-35. *)
Record born_row := mk_born_row {
  br_index : Z; br_recycle : Z; br_name : string; br_control : option Z; br_upkeep : option Z; br_x : f32; br_y : f32;
  br_creator_index : option Z; br_creator_recycle : option Z; br_creator_name : option string; br_ability : option string;
  br_loop : Z; br_seconds : Z; br_fs : Z; br_player : option string }.
Definition name_of_creator (c : option sc2_unit) : option string := match c with Some u => Some (su_name u) | None => None end.
(** Model of unit_born_event_flat_row.rs:41-73 [from_unit_born]. *)
Definition born_row_of_born (e : unit_born_event) (l fs : Z) (h : hint) : option born_row :=
  match h with
  | HRegistered u c =>
      Some (mk_born_row (ub_index e) (ub_recycle e) (ub_name e) (Some (ub_control e)) (Some (ub_upkeep e))
        (f32_of_int (ub_x e)) (f32_of_int (ub_y e)) (ub_creator_index e) (ub_creator_recycle e) (name_of_creator c) (ub_creator_ability e)
        l (tracker_seconds l) fs (su_player u))
  | _ => None
  end.
(** What [from_unit_done] and [from_unit_type_change] have in common. *)
Definition born_row_of_unit (index recycle : Z) (u : sc2_unit) (c : option sc2_unit) (l fs : Z) : born_row :=
  mk_born_row index recycle (su_name u) (su_user u) (su_user u) (fst (fst (su_pos u))) (snd (fst (su_pos u))) None None
    (name_of_creator c) (su_ability u) l (tracker_seconds l) fs (su_player u).
(** Model of unit_born_event_flat_row.rs:79-112 [from_unit_done]. *)
Definition born_row_of_done (e : unit_done_event) (l fs : Z) (h : hint) : option born_row :=
  match h with HRegistered u c => Some (born_row_of_unit (un_index e) (un_recycle e) u c l fs) | _ => None end.
(** Model of unit_born_event_flat_row.rs:117-149 [from_unit_type_change]. *)
Definition born_row_of_type (e : unit_type_event) (l fs : Z) (h : hint) : option born_row :=
  match h with HRegistered u c => Some (born_row_of_unit (ut_index e) (ut_recycle e) u c l fs) | _ => None end.

(** ** Commands: src/game_events/arrow_store/cmd_event_flat_row.rs *)
(** Model of cmd_event_flat_row.rs:16-32. *)
Record point_row := mk_point_row {
  pr_user : Z; pr_player : option string; pr_flags : Z; pr_link : option Z; pr_index : option Z; pr_ability : string;
  pr_x : Z; pr_y : Z; pr_z : Z; pr_sequence : Z; pr_group : option Z; pr_unit : string; pr_loop : Z; pr_seconds : Z; pr_fs : Z }.
Definition abil_link_of (c : cmd_event) : option Z := match cm_abil c with Some a => Some (ab_link a) | None => None end.
Definition abil_index_of (c : cmd_event) : option Z := match cm_abil c with Some a => Some (ab_index a) | None => None end.
Definition abil_name_of (c : cmd_event) : string := match cm_abil c with Some a => ab_name a | None => "" end.
(** Model of cmd_event_flat_row.rs:36-78 [CmdTargetPointEventFlatRow::new]. *)
Definition point_rows_new (c : cmd_event) (l uid : Z) (n : option string) (h : hint) (fs : Z) : list point_row :=
  match cm_data c, h with
  | CDPoint p, HAbilities units _ _ =>
      map (fun u => mk_point_row uid n (cm_flags c) (abil_link_of c) (abil_index_of c) (abil_name_of c) (co_x p) (co_y p) (co_z p)
        (cm_sequence c) (cm_group c) (su_name u) l (game_seconds l) fs) units
  | _, _ => []
  end.
(** Model of cmd_event_flat_row.rs:87-108. *)
Record target_row := mk_target_row {
  tr_user : Z; tr_player : option string; tr_cmd_flags : Z; tr_link : option Z; tr_index : option Z; tr_ability : string;
  tr_flags : Z; tr_tag : Z; tr_unit_link : Z; tr_control : option Z; tr_upkeep : option Z; tr_x : Z; tr_y : Z; tr_z : Z;
  tr_sequence : Z; tr_unit : string; tr_target : string; tr_loop : Z; tr_seconds : Z; tr_fs : Z }.
(** Model of cmd_event_flat_row.rs:112-167 [CmdTargetUnitEventFlatRow::new]. *)
Definition target_rows_new (c : cmd_event) (l uid : Z) (n : option string) (h : hint) (fs : Z) : list target_row :=
  match cm_data c, h with
  | CDUnit t, HAbilities units _ _ =>
      map (fun u => mk_target_row uid n (cm_flags c) (abil_link_of c) (abil_index_of c) (abil_name_of c)
        (tu_flags t) (tu_tag t) (tu_link t) (tu_control t) (tu_upkeep t) (co_x (tu_point t)) (co_y (tu_point t)) (co_z (tu_point t))
        (cm_sequence c) (su_name u) (match uc_other_name (su_cmd u) with Some s => s | None => "" end) l (game_seconds l) fs) units
  | _, _ => []
  end.

(** ** Collecting: src/state/mod.rs:395-582 *)
(** [self.into_iter()]: the items up to the first [None].  Each item takes an
    event, so the events and bytes left bound their number (RowFacts.v). *)
Fixpoint collect_fuel (mc : machine) (p : proto) (n : nat) (it : merged) : outcome (list item) :=
  match n with
  | O => Err (EOther "out of fuel")
  | S n' =>
      do (r, it) <- merge_next mc p it;
      match r with None => Ok [] | Some i => do is <- collect_fuel mc p n' it; Ok (i :: is) end
  end.
Definition collect (mc : machine) (p : proto) (it : merged) : outcome (list item) := collect_fuel mc p (S (left_over it)) it.
Definition opt_list {A} (x : option A) : list A := match x with Some a => [a] | None => [] end.
(** Model of the closure of src/state/mod.rs:463-484. *)
Definition stats_of_item (fs : Z) (i : item) : list stats_row :=
  match it_event i with ETracker l (TPlayerStats e) => [stats_row_new e l fs] | _ => [] end.
(** Model of the closure of src/state/mod.rs:488-509. *)
Definition upgrades_of_item (fs : Z) (i : item) : list upgrade_row :=
  match it_event i with ETracker l (TUpgrade e) => [upgrade_row_new e l fs] | _ => [] end.
(** Model of the closure of src/state/mod.rs:513-555. *)
Definition born_of_item (fs : Z) (i : item) : list born_row :=
  match it_event i with
  | ETracker l (TUnitBorn e) => opt_list (born_row_of_born e l fs (it_hint i))
  | ETracker l (TUnitDone e) => opt_list (born_row_of_done e l fs (it_hint i))
  | ETracker l (TUnitTypeChange e) => match it_hint i with HNone => [] | h => opt_list (born_row_of_type e l fs h) end
  | _ => []
  end.
(** Model of the closure of src/state/mod.rs:559-581. *)
Definition died_of_item (fs : Z) (i : item) : list died_row :=
  match it_event i with ETracker l (TUnitDied e) => opt_list (died_row_new e l fs (it_hint i)) | _ => [] end.
(** Model of the closures of src/state/mod.rs:395-426 and 430-459. *)
Definition points_of_item (fs : Z) (i : item) : list point_row :=
  match it_event i with
  | EGame l uid n (GCmd c) => match cm_data c with CDPoint _ => point_rows_new c l uid n (it_hint i) fs | _ => [] end
  | _ => []
  end.
Definition targets_of_item (fs : Z) (i : item) : list target_row :=
  match it_event i with
  | EGame l uid n (GCmd c) => match cm_data c with CDUnit _ => target_rows_new c l uid n (it_hint i) fs | _ => [] end
  | _ => []
  end.
(** A table of a replay: the rows of its items, in order. *)
Definition table {A} (mc : machine) (p : proto) (rows : item -> list A) (it : merged) : outcome (list A) :=
  do items <- collect mc p it; Ok (flat_map rows items).

(** ** Lobby and init data *)
(** Model of src/details.rs:153-157 [parse_hex_chars_to_u8_char] on two bytes of
    ASCII: [u8::from_str_radix(_, 16).unwrap()] takes digits of either case and a
    leading [+]; then [as char], in UTF-8. *)
Definition digit_of (a : Z) : option Z :=
  if (48 <=? a) && (a <=? 57) then Some (a - 48)
  else if (97 <=? a) && (a <=? 102) then Some (a - 87)
  else if (65 <=? a) && (a <=? 70) then Some (a - 55)
  else None.
Definition hex_char (a b : Z) : outcome (list Z) :=
  match digit_of b with
  | None => Panic
  | Some y =>
      match (if a =? 43 then Some 0 else digit_of a) with
      | None => Panic
      | Some x => let z := 16 * x + y in Ok (if z <? 128 then [z] else [192 + z / 64; 128 + z mod 64])
      end
  end.
(** Model of src/details.rs:142-149 [make_string_from_hex_chars], on a text of an
    even number of bytes; a byte that is not ASCII belongs to a character that is
    not a digit, and [unwrap] panics for it. *)
Fixpoint hex_chars (l : list Z) : outcome (list Z) :=
  match l with
  | [] => Ok []
  | [_] => Panic
  | a :: b :: l' => do c <- hex_char a b; do cs <- hex_chars l'; Ok (c ++ cs)
  end.
(** [str::split_at], [&s[n..]]: a panic past the end or inside a character. *)
Definition boundary (l : list Z) (n : nat) : bool :=
  if Nat.eqb n (length l) then true
  else match nth_error l n with Some b => negb ((128 <=? b) && (b <? 192)) | None => false end.
Definition split_at (n : nat) (l : list Z) : outcome (list Z * list Z) :=
  if boundary l n then Ok (firstn n l, skipn n l) else Panic.
(** One round of the loop of src/details.rs:84-104: extension, region, hash. *)
Definition split_handle (h : string) : outcome (string * string * string) :=
  do (e, r) <- split_at 8 (bytes_of_str h);
  do ext <- hex_chars e;
  do (_, r) <- split_at 4 r;
  do (g, hash) <- split_at 4 r;
  do region <- hex_chars g;
  Ok (str_of_bytes ext, str_of_bytes region, str_of_bytes hash).
(** The loop: the first extension and region, and every hash with a comma. *)
Fixpoint handles_loop (ext region : option string) (acc : string) (l : list string) : outcome (option string * option string * string) :=
  match l with
  | [] => Ok (ext, region, acc)
  | h :: l' =>
      do (er, hash) <- split_handle h;
      let '(e, r) := er in
      handles_loop (match ext with None => Some e | x => x end) (match region with None => Some r | x => x end)
        (append (append acc hash) ",") l'
  end.
(** [String::pop] on a text that is empty or ends in a comma. *)
Fixpoint pop (s : string) : string :=
  match s with EmptyString => EmptyString | String _ EmptyString => EmptyString | String a s' => String a (pop s') end.
(** Model of src/details.rs:42-74 [PlayerLobbyDetailsFlatRow]. *)
Record lobby_row := mk_lobby_row {
  lr_name : string; lr_toon : toon; lr_race : string; lr_color : Z * Z * Z * Z; lr_control : Z; lr_team : Z; lr_observe : Z;
  lr_result : string; lr_slot : option Z; lr_hero : string; lr_title : string; lr_blizzard : bool; lr_time_utc : Z; lr_time_offset : Z;
  lr_user : option Z; lr_slot_observe : Z; lr_map_x : Z; lr_map_y : Z; lr_region : option string; lr_extension : option string;
  lr_handles : string; lr_sha256 : string; lr_file : string; lr_fs : Z; lr_datetime : Z }.
(** Model of src/details.rs:76-138 [From<PlayerLobbyDetails>]. *)
Definition lobby_row_of (x : lobby_details) : outcome lobby_row :=
  do (er, hs) <- handles_loop None None "" (ld_handles x);
  let '(ext, region) := er in
  let p := ld_player x in
  Ok (mk_lobby_row (pd_name p) (pd_toon p) (pd_race p) (pd_color p) (pd_control p) (pd_team p) (pd_observe p) (pd_result p) (pd_slot p) (pd_hero p)
    (ld_title x) (gd_is_blizzard (ld_description x)) (ld_time_utc x) (ld_time_offset x) (ls_user_id (ld_slot x)) (ls_observe (ld_slot x))
    (gd_map_x (ld_description x)) (gd_map_y (ld_description x)) region ext (pop hs) (ld_sha256 x) (ld_file x) (ld_fs_id x) (ld_datetime x)).
(** Model of src/init_data/arrow_store.rs:16-46 [UserInitDataFlatRow]. *)
Record user_row := mk_user_row {
  vr_fs : Z; vr_sha256 : string; vr_file : string; vr_index : Z; vr_name : string; vr_clan : string; vr_rating : option Z }.
Fixpoint user_rows_from (n : nat) (x : full_init) (l : list user_data) : list user_row :=
  match l with
  | [] => []
  | u :: l' => mk_user_row (xi_fs_id x) (xi_sha256 x) (xi_file_name x) (as_u32 (Z.of_nat n)) (ud_name u)
      (match ud_clan_tag u with Some s => s | None => "" end) (ud_scaled_rating u) :: user_rows_from (S n) x l'
  end.
