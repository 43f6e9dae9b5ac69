(** * The replay state machine *)
From Verif Require Import Base F32 Tags Events Maps Balance Lobby Convert Iterators.
#[local] Open Scope string_scope.
#[local] Open Scope Z_scope.
#[local] Open Scope list_scope.

(** Model of src/common.rs:30 [Vec3D]. *)
Definition vec3 : Type := (f32 * f32 * f32)%type.
Definition f32_zero : f32 := S754_zero false.
Definition vec3_zero : vec3 := (f32_zero, f32_zero, f32_zero).
(** [GAME_EVENT_POS_RATIO] (src/game_events/state.rs:8) and
    [UNIT_POSITION_RATIO] (src/tracker_events/state.rs:8). *)
Definition f32_4096 : f32 := f32_of_int 4096.
Definition f32_4 : f32 := f32_of_int 4.
(** Model of src/common.rs:52-60 [From<GameSMapCoord3D> for Vec3D]. *)
Definition vec3_of_coord (c : coord3) : vec3 :=
  (f32_div (f32_of_int (co_x c)) f32_4096, f32_div (f32_neg (f32_of_int (co_y c))) f32_4096,
   f32_div (f32_of_int (co_z c)) f32_4096).

(** ** Unit commands: src/state/unit_cmd.rs *)
(** Model of src/state/unit_cmd.rs:100-115 [SC2UnitCmdDataTargetUnit]. *)
Record ucmd_target := mk_utarget {
  ct_flags : Z; ct_timer : Z; ct_tag : Z; ct_link : Z; ct_control : option Z; ct_upkeep : option Z; ct_point : vec3 }.
(** Model of src/state/unit_cmd.rs:77-86 [SC2UnitCmdData]. *)
Inductive ucmd_data := UDNone | UDPoint (v : vec3) | UDUnit (t : ucmd_target) | UDData (z : Z).
(** Model of src/state/unit_cmd.rs:12-28 [SC2UnitCmd]; [SC2UnitCmdAbil] has the
    fields of [GameSCmdAbil]. *)
Record unit_cmd := mk_ucmd {
  uc_flags : Z; uc_abil : option cmd_abil; uc_data : ucmd_data; uc_sequence : Z;
  uc_other : option Z; uc_other_name : option string; uc_group : option Z }.
Definition default_cmd : unit_cmd := mk_ucmd 0 None UDNone 0 None None None.
(** Model of src/state/unit_cmd.rs:117-129. *)
Definition ucmd_target_of (t : target_unit) : ucmd_target :=
  mk_utarget (tu_flags t) (tu_timer t) (tu_tag t) (tu_link t) (tu_control t) (tu_upkeep t) (vec3_of_coord (tu_point t)).
(** Model of src/state/unit_cmd.rs:88-97. *)
Definition ucmd_data_of (d : cmd_data) : ucmd_data :=
  match d with
  | CDNone => UDNone
  | CDPoint c => UDPoint (vec3_of_coord c)
  | CDUnit t => UDUnit (ucmd_target_of t)
  | CDData z => UDData z
  end.
(** Model of src/state/unit_cmd.rs:42-54. *)
Definition ucmd_of (c : cmd_event) : unit_cmd :=
  mk_ucmd (cm_flags c) (cm_abil c) (ucmd_data_of (cm_data c)) (cm_sequence c) (cm_other c) None (cm_group c).

(** ** The state: src/state/mod.rs *)
(** Model of src/state/mod.rs:41-72 [SC2Unit]. *)
Record sc2_unit := mk_unit {
  su_index : Z; su_loop : Z; su_user : option Z; su_player : option string; su_name : string; su_pos : vec3;
  su_init_loop : Z; su_ability : option string; su_creator : option string; su_radius : f32; su_color : color;
  su_selected : bool; su_is_init : bool; su_cmd : unit_cmd }.
(** Assignments to fields of a unit. *)
Definition set_loop (z : Z) (u : sc2_unit) : sc2_unit :=
  mk_unit (su_index u) z (su_user u) (su_player u) (su_name u) (su_pos u) (su_init_loop u) (su_ability u)
    (su_creator u) (su_radius u) (su_color u) (su_selected u) (su_is_init u) (su_cmd u).
Definition set_name (s : string) (u : sc2_unit) : sc2_unit :=
  mk_unit (su_index u) (su_loop u) (su_user u) (su_player u) s (su_pos u) (su_init_loop u) (su_ability u)
    (su_creator u) (su_radius u) (su_color u) (su_selected u) (su_is_init u) (su_cmd u).
Definition set_pos (p : vec3) (u : sc2_unit) : sc2_unit :=
  mk_unit (su_index u) (su_loop u) (su_user u) (su_player u) (su_name u) p (su_init_loop u) (su_ability u)
    (su_creator u) (su_radius u) (su_color u) (su_selected u) (su_is_init u) (su_cmd u).
Definition set_ability (a : option string) (u : sc2_unit) : sc2_unit :=
  mk_unit (su_index u) (su_loop u) (su_user u) (su_player u) (su_name u) (su_pos u) (su_init_loop u) a
    (su_creator u) (su_radius u) (su_color u) (su_selected u) (su_is_init u) (su_cmd u).
Definition set_size (r : f32) (c : color) (u : sc2_unit) : sc2_unit :=
  mk_unit (su_index u) (su_loop u) (su_user u) (su_player u) (su_name u) (su_pos u) (su_init_loop u) (su_ability u)
    (su_creator u) r c (su_selected u) (su_is_init u) (su_cmd u).
Definition set_selected (b : bool) (r : f32) (u : sc2_unit) : sc2_unit :=
  mk_unit (su_index u) (su_loop u) (su_user u) (su_player u) (su_name u) (su_pos u) (su_init_loop u) (su_ability u)
    (su_creator u) r (su_color u) b (su_is_init u) (su_cmd u).
Definition set_is_init (b : bool) (u : sc2_unit) : sc2_unit :=
  mk_unit (su_index u) (su_loop u) (su_user u) (su_player u) (su_name u) (su_pos u) (su_init_loop u) (su_ability u)
    (su_creator u) (su_radius u) (su_color u) (su_selected u) b (su_cmd u).
Definition set_cmd (c : unit_cmd) (u : sc2_unit) : sc2_unit :=
  mk_unit (su_index u) (su_loop u) (su_user u) (su_player u) (su_name u) (su_pos u) (su_init_loop u) (su_ability u)
    (su_creator u) (su_radius u) (su_color u) (su_selected u) (su_is_init u) c.
(** Model of src/state/mod.rs:96-101 [set_unit_props]. *)
Definition set_unit_props (b : balance) (u : sc2_unit) : sc2_unit :=
  let '(r, c) := get_unit_sized_color (su_name u) (match su_user u with Some x => x | None => 0 end) b in
  set_size r c u.

(** Model of src/state/mod.rs:140-173 [UnitChangeHint]. *)
Inductive hint :=
| HRegistered (unit : sc2_unit) (creator : option sc2_unit)
| HPositions (units : list sc2_unit)
| HTargetPoints (units : list sc2_unit)
| HTargetUnits (units : list sc2_unit) (target : sc2_unit)
| HUnregistered (killer : option sc2_unit) (killed : sc2_unit)
| HAbilities (units : list sc2_unit) (event : cmd_event) (target : option sc2_unit)
| HSelection (units : list sc2_unit)
| HNone.

(** Model of src/state/mod.rs:193-203 [SC2UserState]. *)
Record user_state := mk_user { us_lobby : lobby_details; us_groups : list (list Z); us_camera : point_mini }.
(** Model of src/state/mod.rs:205-219 [SC2UserState::new]. *)
Definition new_user (l : lobby_details) : user_state := mk_user l (repeat [] 11) (mk_point 0 0).

(** Model of src/state/mod.rs:224-243 [SC2ReplayState]; [init_data] and [details]
    are never changed nor read by the transitions (the version, read by [next],
    is a parameter there), so they are left out. *)
Record state := mk_state {
  st_units : list (Z * sc2_unit); st_users : list (Z * user_state); st_balance : balance }.
Definition with_units (st : state) (units : list (Z * sc2_unit)) : state := mk_state units (st_users st) (st_balance st).
Definition with_users (st : state) (users : list (Z * user_state)) : state := mk_state (st_units st) users (st_balance st).
(** Model of src/state/mod.rs:245-263 [TryFrom<&InitData>], after the details are
    read, and of [with_balance_units] (265-273). *)
Definition insert_player (users : list (Z * user_state)) (p : lobby_details) : list (Z * user_state) :=
  match ls_user_id (ld_slot p) with Some u => mset u (new_user p) users | None => users end.
Definition initial_users (players : list lobby_details) : list (Z * user_state) := fold_left insert_player players [].
Definition initial_state (init : init_data) (d : details) (b : balance) : outcome state :=
  do players <- lobby_details_of init d;
  Ok (mk_state [] (initial_users players) b).

(** What the machine decides: whether arithmetic is checked, and the order in
    which [sort_unstable] leaves units that compare equal. *)
Record machine := mk_machine { mc_build : build; mc_sort : list sc2_unit -> list sc2_unit }.

(** ** Tracker events: src/tracker_events/state.rs *)
(** Model of src/tracker_events/state.rs:12-25; the loop runs in iteration order. *)
Fixpoint player_name_of (users : list (Z * user_state)) (id : Z) : option string :=
  match users with
  | [] => None
  | (_, us) :: rest =>
      match ld_setup_player (us_lobby us) with
      | Some p => if p =? id then Some (pd_name (ld_player (us_lobby us))) else player_name_of rest id
      | None => player_name_of rest id
      end
  end.
(** Model of src/tracker_events/state.rs:33-75. *)
Definition handle_unit_init (st : state) (gl : Z) (e : unit_init_event) : state * (tracker_event * hint) :=
  let pos := (f32_of_int (ui_x e), f32_of_int (ui_y e), f32_zero) in
  let fresh := set_unit_props (st_balance st)
    (mk_unit (ui_index e) gl (Some (ui_control e)) (player_name_of (st_users st) (ui_control e)) (ui_name e) pos gl
       None None f32_zero (0, 0, 0, 0) false true default_cmd) in
  let units :=
    match mget (ui_index e) (st_units st) with
    | Some u => mset (ui_index e) (set_name (ui_name e) (set_is_init true (set_pos pos (set_loop gl u)))) (st_units st)
    | None => mset (ui_index e) fresh (st_units st)
    end in
  (with_units st units, (TUnitInit e, HRegistered fresh None)).
(** Model of src/tracker_events/state.rs:80-134. *)
Definition handle_unit_born (st : state) (gl : Z) (e : unit_born_event) : state * (tracker_event * hint) :=
  let '(units, creator) :=
    match ub_creator_index e with
    | Some c =>
        match mget c (st_units st) with
        | Some u => (mset c (set_loop gl u) (st_units st), Some (set_loop gl u))
        | None => (st_units st, None)
        end
    | None => (st_units st, None)
    end in
  match mget (ub_index e) units with
  | Some u =>
      let u := set_loop gl (set_ability (ub_creator_ability e) u) in
      (with_units st (mset (ub_index e) u units), (TUnitBorn e, HRegistered u creator))
  | None =>
      let u := set_unit_props (st_balance st)
        (mk_unit (ub_index e) gl (Some (ub_control e)) (player_name_of (st_users st) (ub_control e)) (ub_name e)
           (f32_of_int (ub_x e), f32_of_int (ub_y e), f32_zero) gl
           None None f32_zero (0, 0, 0, 0) false false default_cmd) in
      (with_units st (mset (ub_index e) u units), (TUnitBorn e, HRegistered u creator))
  end.
(** Model of src/tracker_events/state.rs:139-175. *)
Definition handle_unit_type_change (st : state) (gl : Z) (e : unit_type_event) : state * (tracker_event * hint) :=
  match mget (ut_index e) (st_units st) with
  | Some old =>
      let u := set_unit_props (st_balance st) (set_loop gl (set_name (ut_name e) old)) in
      (with_units st (mset (ut_index e) u (st_units st)), (TUnitTypeChange e, HRegistered u (Some old)))
  | None =>
      let u := set_unit_props (st_balance st)
        (mk_unit (ut_index e) gl None None (ut_name e) vec3_zero gl
           None None f32_zero (0, 0, 0, 0) false false default_cmd) in
      (with_units st (mset (ut_index e) u (st_units st)), (TUnitTypeChange e, HNone))
  end.
(** Model of src/tracker_events/state.rs:180-206. *)
Definition handle_unit_done (st : state) (gl : Z) (e : unit_done_event) : state * (tracker_event * hint) :=
  match mget (un_index e) (st_units st) with
  | Some u =>
      let u := set_unit_props (st_balance st) (set_is_init false (set_loop gl u)) in
      (with_units st (mset (un_index e) u (st_units st)), (TUnitDone e, HRegistered u None))
  | None => (st, (TUnitDone e, HNone))
  end.
(** [ids.iter().filter_map(|id| units.get(id)).cloned().collect()]. *)
Fixpoint stored_units (units : list (Z * sc2_unit)) (ids : list Z) : list sc2_unit :=
  match ids with
  | [] => []
  | i :: ids' => match mget i units with Some u => u :: stored_units units ids' | None => stored_units units ids' end
  end.
(** The loop of src/tracker_events/state.rs:216-231. *)
Fixpoint position_loop (gl : Z) (l : list unit_position) (units : list (Z * sc2_unit)) : list (Z * sc2_unit) * list Z :=
  match l with
  | [] => (units, [])
  | p :: l' =>
      match mget (up_tag p) units with
      | Some u =>
          let pos := (f32_div (f32_of_int (up_x p)) f32_4, f32_div (f32_of_int (up_y p)) f32_4, f32_zero) in
          let '(units', ids) := position_loop gl l' (mset (up_tag p) (set_loop gl (set_pos pos u)) units) in
          (units', up_tag p :: ids)
      | None => position_loop gl l' units
      end
  end.
(** Model of src/tracker_events/state.rs:209-241. *)
Definition handle_unit_position (mc : machine) (st : state) (gl : Z) (e : unit_positions_event) :
    outcome (state * (tracker_event * hint)) :=
  do l <- to_unit_positions_vec (mc_build mc) (up_first e) (up_items e);
  let '(units, ids) := position_loop gl l (st_units st) in
  Ok (with_units st units, (TUnitPosition e, HPositions (stored_units units ids))).

(** Indexing a [Vec<Vec<u32>>] panics out of bounds. *)
Definition group_get (gs : list (list Z)) (i : Z) : outcome (list Z) :=
  match nth_error gs (Z.to_nat i) with Some g => Ok g | None => Panic end.
Fixpoint list_set {A} (l : list A) (n : nat) (a : A) : list A :=
  match l, n with
  | [], _ => []
  | _ :: l', O => a :: l'
  | x :: l', Datatypes.S n' => x :: list_set l' n' a
  end.
Definition group_set (gs : list (list Z)) (i : Z) (g : list Z) : outcome (list (list Z)) :=
  match nth_error gs (Z.to_nat i) with Some _ => Ok (list_set gs (Z.to_nat i) g) | None => Panic end.
(** [retain(|&x| x != z)]. *)
Definition remove_z (z : Z) (g : list Z) : list Z := filter (fun x => negb (x =? z)) g.
(** [for group_idx in ...] over the groups of one user, each replaced by [f]. *)
Fixpoint groups_loop (f : list Z -> list Z) (idxs : list Z) (gs : list (list Z)) : outcome (list (list Z)) :=
  match idxs with
  | [] => Ok gs
  | i :: idxs' => do g <- group_get gs i; do gs <- group_set gs i (f g); groups_loop f idxs' gs
  end.
Definition z_seq (n : nat) : list Z := map Z.of_nat (seq 0 n).
Definition set_groups (us : user_state) (gs : list (list Z)) : user_state := mk_user (us_lobby us) gs (us_camera us).
(** Model of src/tracker_events/state.rs:244-282. *)
Definition retain_user (z : Z) (x : Z * user_state) : outcome (Z * user_state) :=
  do gs <- groups_loop (remove_z z) (z_seq 11) (us_groups (snd x));
  Ok (fst x, set_groups (snd x) gs).
Definition handle_unit_died (st : state) (gl : Z) (e : unit_died_event) : outcome (state * (tracker_event * hint)) :=
  do users <- map_out (retain_user (ud_index e)) (st_users st);
  match mget (ud_index e) (st_units st) with
  | None => Ok (with_users st users, (TUnitDied e, HNone))
  | Some killed =>
      let units := mdel (ud_index e) (st_units st) in
      let killer := match ud_killer_index e with Some k => mget k units | None => None end in
      Ok (with_units (with_users st users) units, (TUnitDied e, HUnregistered killer killed))
  end.
(** Model of src/tracker_events/state.rs:306-331. *)
Definition set_setup (l : lobby_details) (p : option Z) (s : option Z) : lobby_details :=
  mk_lobby (ld_player l) (ld_slot l) (ld_title l) (ld_description l) (ld_time_utc l) (ld_time_offset l)
    (ld_init_name l) (ld_init_clan l) p s (ld_handles l) (ld_sha256 l) (ld_file l) (ld_fs_id l) (ld_datetime l).
Definition handle_player_setup (st : state) (e : player_setup_event) : state :=
  match se_user_id e with
  | Some u =>
      match mget u (st_users st) with
      | Some us =>
          with_users st (mset u (mk_user (set_setup (us_lobby us) (Some (se_player_id e)) (se_slot_id e))
            (us_groups us) (us_camera us)) (st_users st))
      | None => st
      end
  | None => st
  end.
(** Model of src/tracker_events/state.rs:285-348 [handle_tracker_event]. *)
Definition handle_tracker_event (mc : machine) (st : state) (gl : Z) (e : tracker_event) :
    outcome (state * (tracker_event * hint)) :=
  match e with
  | TUnitBorn x => Ok (handle_unit_born st gl x)
  | TUnitTypeChange x => Ok (handle_unit_type_change st gl x)
  | TUnitInit x => Ok (handle_unit_init st gl x)
  | TUnitDone x => Ok (handle_unit_done st gl x)
  | TUnitDied x => handle_unit_died st gl x
  | TUnitPosition x => handle_unit_position mc st gl x
  | TPlayerSetup x => Ok (handle_player_setup st x, (e, HNone))
  | TUpgrade x =>
      Ok (st, (TUpgrade (mk_upgrade (ug_player_id x) (player_name_of (st_users st) (ug_player_id x)) (ug_name x) (ug_count x)), HNone))
  | TPlayerStats _ | TUnitOwnerChange _ => Ok (st, (e, HNone))
  end.

(** ** Game events: src/game_events/state.rs *)
Definition set_camera (us : user_state) (p : point_mini) : user_state := mk_user (us_lobby us) (us_groups us) p.
Definition move_camera (st : state) (uid : Z) (p : point_mini) : state :=
  match mget uid (st_users st) with
  | Some us => with_users st (mset uid (set_camera us p) (st_users st))
  | None => st
  end.
(** Model of src/game_events/state.rs:13-27. *)
Definition handle_camera_save (st : state) (uid : Z) (e : camera_save_event) : state * (game_event * hint) :=
  (move_camera st uid (cs_target e), (GCameraSave e, HNone)).
(** Model of src/game_events/state.rs:31-47. *)
Definition handle_camera_update (st : state) (uid : Z) (e : camera_update_event) : state * (game_event * hint) :=
  (match cu_target e with Some p => move_camera st uid p | None => st end, (GCameraUpdate e, HNone)).
(** [ACTIVE_UNITS_GROUP_IDX], src/state/mod.rs:37. *)
Definition active_group : Z := 10.
(** [control_groups[ACTIVE_UNITS_GROUP_IDX].clone()], or nothing for an unknown
    user. *)
Definition active_units (st : state) (uid : Z) : outcome (list Z) :=
  match mget uid (st_users st) with Some us => group_get (us_groups us) active_group | None => Ok [] end.
(** The loop of src/game_events/state.rs:76-100. *)
Fixpoint cmd_loop (b : balance) (gl : Z) (other : option string) (tags : list Z) (cmd : cmd_event)
    (units : list (Z * sc2_unit)) : list (Z * sc2_unit) * (cmd_event * list sc2_unit) :=
  match tags with
  | [] => (units, (cmd, []))
  | t :: tags' =>
      match mget (unit_tag_index t) units with
      | None => cmd_loop b gl other tags' cmd units
      | Some u =>
          match cm_abil cmd with
          | None => cmd_loop b gl other tags' cmd units
          | Some a =>
              let name := get_indexed_ability_command_name b (su_name u) (ab_link a) (ab_index a) in
              let cmd := mk_cmd (cm_flags cmd) (Some (mk_abil (ab_link a) name (ab_index a) (ab_data a)))
                (cm_data cmd) (cm_sequence cmd) (cm_other cmd) (cm_group cmd) in
              let c := ucmd_of cmd in
              let c := mk_ucmd (uc_flags c) (uc_abil c) (uc_data c) (uc_sequence c) (uc_other c) other (uc_group c) in
              let u := set_loop gl (set_cmd c u) in
              let '(units', (cmd', l)) := cmd_loop b gl other tags' cmd (mset (unit_tag_index t) u units) in
              (units', (cmd', u :: l))
          end
      end
  end.
(** Model of src/game_events/state.rs:55-111. *)
Definition handle_cmd (st : state) (gl uid : Z) (cmd : cmd_event) : outcome (state * (game_event * hint)) :=
  let target := match cm_data cmd with CDUnit t => mget (tu_tag t) (st_units st) | _ => None end in
  do tags <- active_units st uid;
  let '(units, (cmd', l)) :=
    cmd_loop (st_balance st) gl (match target with Some u => Some (su_name u) | None => None end) tags cmd (st_units st) in
  Ok (with_units st units, (GCmd cmd', HAbilities l cmd' target)).
(** The loops of src/game_events/state.rs:127-145 and 190-205: every registered
    unit of the selection changes by [f] and is listed. *)
Fixpoint target_loop (f : sc2_unit -> sc2_unit) (tags : list Z) (units : list (Z * sc2_unit)) :
    list (Z * sc2_unit) * list sc2_unit :=
  match tags with
  | [] => (units, [])
  | t :: tags' =>
      match mget (unit_tag_index t) units with
      | None => target_loop f tags' units
      | Some u =>
          let '(units', l) := target_loop f tags' (mset (unit_tag_index t) (f u) units) in (units', f u :: l)
      end
  end.
Definition set_data (d : ucmd_data) (c : unit_cmd) : unit_cmd :=
  mk_ucmd (uc_flags c) (uc_abil c) d (uc_sequence c) (uc_other c) (uc_other_name c) (uc_group c).
Definition set_other (o : option Z) (c : unit_cmd) : unit_cmd :=
  mk_ucmd (uc_flags c) (uc_abil c) (uc_data c) (uc_sequence c) o (uc_other_name c) (uc_group c).
(** Model of src/game_events/state.rs:115-150. *)
Definition handle_update_target_point (st : state) (gl uid : Z) (target : coord3) : outcome (state * (game_event * hint)) :=
  do tags <- active_units st uid;
  let '(units, l) := target_loop (fun u =>
    set_loop gl (set_cmd (set_other None (set_data (UDPoint (vec3_of_coord target)) (su_cmd u))) u)) tags (st_units st) in
  Ok (with_units st units, (GCmdUpdateTargetPoint target, HTargetPoints l)).
(** Model of src/game_events/state.rs:156-213. *)
Definition handle_update_target_unit (st : state) (gl uid : Z) (target : target_unit) : outcome (state * (game_event * hint)) :=
  match (match mget (tu_tag target) (st_units st) with
         | Some x => Some x
         | None => mget (unit_tag_index (tu_tag target)) (st_units st)
         end) with
  | None => Ok (st, (GCmdUpdateTargetUnit target, HNone))
  | Some tgt =>
      do tags <- active_units st uid;
      let '(units, l) := target_loop (fun u =>
        set_loop gl (set_cmd (set_data (UDUnit (ucmd_target_of target)) (su_cmd u)) u)) tags (st_units st) in
      Ok (with_units st units, (GCmdUpdateTargetUnit target, HTargetUnits l tgt))
  end.
(** The loops of src/game_events/state.rs:223-234 and 252-263: units whose
    selection flag is not yet [sel] get it, with the radius multiplied by [k];
    every registered unit gets the loop. *)
Fixpoint select_loop (gl : Z) (sel : bool) (k : f32) (tags : list Z) (units : list (Z * sc2_unit)) :
    list (Z * sc2_unit) * list Z :=
  match tags with
  | [] => (units, [])
  | t :: tags' =>
      let i := unit_tag_index t in
      match mget i units with
      | None => select_loop gl sel k tags' units
      | Some u =>
          if Bool.eqb (su_selected u) sel then select_loop gl sel k tags' (mset i (set_loop gl u) units)
          else
            let u := set_loop gl (set_selected sel (f32_mul (su_radius u) k) u) in
            let '(units', ids) := select_loop gl sel k tags' (mset i u units) in
            (units', i :: ids)
      end
  end.
(** Model of src/game_events/state.rs:217-242. *)
Definition unmark_previously_selected_units (st : state) (gl uid : Z) : outcome (state * list sc2_unit) :=
  do tags <- active_units st uid;
  let '(units, ids) := select_loop gl false f32_half tags (st_units st) in
  Ok (with_units st units, stored_units units ids).
(** Model of src/game_events/state.rs:246-270. *)
Definition mark_selected_units (st : state) (gl : Z) (tags : list Z) : state * list sc2_unit :=
  let '(units, ids) := select_loop gl true f32_two tags (st_units st) in
  (with_units st units, stored_units units ids).
(** The groups of user [uid] replaced by [f]; nothing for an unknown user. *)
Definition change_groups (st : state) (uid : Z) (f : list (list Z) -> outcome (list (list Z))) : outcome state :=
  match mget uid (st_users st) with
  | Some us => do gs <- f (us_groups us); Ok (with_users st (mset uid (set_groups us gs) (st_users st)))
  | None => Ok st
  end.
(** Model of src/game_events/state.rs:281-316.  [sort_unstable] and [dedup]
    compare units by their index (src/state/mod.rs:74-92). *)
Definition handle_selection_delta (mc : machine) (st : state) (gl uid : Z) (e : selection_delta_event) :
    outcome (state * (game_event * hint)) :=
  do (st, updated) <-
    (if sd_group e =? active_group then
       do (st, unmarked) <- unmark_previously_selected_units st gl uid;
       let '(st, marked) := mark_selected_units st gl (sd_tags e) in
       Ok (st, unmarked ++ marked)
     else Ok (st, []));
  do st <- change_groups st uid (fun gs => group_set gs (sd_group e) (sd_tags e));
  Ok (st, (GSelectionDelta e, HSelection (dedup_by su_index (mc_sort mc updated)))).
(** [append], [sort_unstable], [dedup]: src/game_events/state.rs:362-368 and 381-385. *)
Definition append_group (gs : list (list Z)) (i : Z) (selected : list Z) : outcome (list (list Z)) :=
  do g <- group_get gs i; group_set gs i (dedup_z (sort_z (g ++ selected))).
(** [for group_idx in 0..9 { for unit in &selected { retain } }]:
    src/game_events/state.rs:343-347 and 376-380. *)
Definition steal (gs : list (list Z)) (selected : list Z) : outcome (list (list Z)) :=
  groups_loop (fun g => fold_left (fun g u => remove_z u g) selected g) (z_seq 9) gs.
(** Model of src/game_events/state.rs:321-406 [update_control_group]. *)
Definition update_control_group (st : state) (gl uid : Z) (e : control_group_event) : outcome (state * (game_event * hint)) :=
  do (st, updated) <- unmark_previously_selected_units st gl uid;
  match cg_update e with
  | GSet =>
      do st <- change_groups st uid (fun gs => do a <- group_get gs active_group; group_set gs (cg_index e) a);
      Ok (st, (GControlGroupUpdate e, HSelection updated))
  | GSetAndSteal =>
      do st <- change_groups st uid (fun gs =>
        do a <- group_get gs active_group;
        do gs <- steal gs a;
        do a <- group_get gs active_group;
        group_set gs (cg_index e) a);
      Ok (st, (GControlGroupUpdate e, HSelection updated))
  | GClear =>
      do st <- change_groups st uid (fun gs => group_set gs (cg_index e) []);
      Ok (st, (GControlGroupUpdate e, HSelection updated))
  | GAppend =>
      do st <- change_groups st uid (fun gs => do a <- group_get gs active_group; append_group gs (cg_index e) a);
      Ok (st, (GControlGroupUpdate e, HSelection updated))
  | GAppendAndSteal =>
      do st <- change_groups st uid (fun gs =>
        do a <- group_get gs active_group;
        do gs <- steal gs a;
        append_group gs (cg_index e) a);
      Ok (st, (GControlGroupUpdate e, HSelection updated))
  | GRecall =>
      do st <- change_groups st uid (fun gs => do g <- group_get gs (cg_index e); group_set gs active_group g);
      do selected <- active_units st uid;
      let '(st, marked) := mark_selected_units st gl selected in
      Ok (st, (GControlGroupUpdate e, HSelection (updated ++ marked)))
  end.
(** Model of src/game_events/state.rs:410-442 [handle_game_event]. *)
Definition handle_game_event (mc : machine) (st : state) (gl uid : Z) (e : game_event) : outcome (state * (game_event * hint)) :=
  match e with
  | GCameraSave x => Ok (handle_camera_save st uid x)
  | GCameraUpdate x => Ok (handle_camera_update st uid x)
  | GCmd x => handle_cmd st gl uid x
  | GCmdUpdateTargetPoint x => handle_update_target_point st gl uid x
  | GCmdUpdateTargetUnit x => handle_update_target_unit st gl uid x
  | GSelectionDelta x => handle_selection_delta mc st gl uid x
  | GControlGroupUpdate x => update_control_group st gl uid x
  | _ => Ok (st, (e, HNone))
  end.

(** ** Both: src/state/mod.rs *)
(** Model of src/state/mod.rs:104-116 [SC2EventType]. *)
Inductive sc2_event :=
| ETracker (tracker_loop : Z) (e : tracker_event)
| EGame (game_loop user_id : Z) (player_name : option string) (e : game_event).
(** Model of src/state/mod.rs:575-581 [SC2EventIteratorItem]. *)
Record item := mk_item { it_event : sc2_event; it_hint : hint }.
(** Model of src/state/mod.rs:276-310 [handle_transition_to_next_event]. *)
Definition handle_transition (mc : machine) (st : state) (e : sc2_event) : outcome (state * item) :=
  match e with
  | ETracker l x =>
      do (st, r) <- handle_tracker_event mc st l x; let '(x, h) := r in Ok (st, mk_item (ETracker l x) h)
  | EGame l uid n x =>
      do (st, r) <- handle_game_event mc st l uid x; let '(x, h) := r in Ok (st, mk_item (EGame l uid n x) h)
  end.
(** A history of events, and the items it returns. *)
Fixpoint run (mc : machine) (st : state) (evs : list sc2_event) : outcome (state * list item) :=
  match evs with
  | [] => Ok (st, [])
  | e :: evs' =>
      do (st, i) <- handle_transition mc st e;
      do (st, is) <- run mc st evs';
      Ok (st, i :: is)
  end.
