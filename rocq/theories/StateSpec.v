(** * What the state of a replay means

    The vocabulary of the theorems about the state machine. *)
From Verif Require Import Base F32 Tags Events Maps Lobby Balance Convert State.
From Coq Require Import Permutation.
#[local] Open Scope Z_scope.
#[local] Open Scope list_scope.

(** The unit registered under an index, the state of a user, and one of his
    control groups. *)
Definition unit_of (st : state) (i : Z) : option sc2_unit := mget i (st_units st).
Definition user_of (st : state) (uid : Z) : option user_state := mget uid (st_users st).
Definition group_of (st : state) (uid g : Z) : list Z :=
  match user_of st uid with Some us => nth (Z.to_nat g) (us_groups us) [] | None => [] end.
(** The current selection of a user. *)
Definition selection (st : state) (uid : Z) : list Z := group_of st uid 10.
(** The indices of the units selected by a list of tags. *)
Definition indices (tags : list Z) : list Z := map unit_tag_index tags.
(** The registered ones among [l], in the order of [l]. *)
Definition units_at (st : state) (l : list Z) : list sc2_unit :=
  flat_map (fun i => match unit_of st i with Some u => [u] | None => [] end) l.

(** A state a replay starts with: the users come from the lobby, in whatever
    order the hash map iterates. *)
Definition starts (init : init_data) (d : details) (b : balance) (st : state) : Prop :=
  exists st1, initial_state init d b = Ok st1 /\
    st_units st = st_units st1 /\ st_balance st = st_balance st1 /\ Permutation (st_users st) (st_users st1).
(** [st] is reached from [st0] by the events [evs], returning [items]. *)
Definition history (mc : machine) (st0 : state) (evs : list sc2_event) (st : state) (items : list item) : Prop :=
  (exists init d b, starts init d b st0) /\ run mc st0 evs = Ok (st, items).
Definition reachable (mc : machine) (st : state) : Prop := exists st0 evs items, history mc st0 evs st items.

(** [mc_sort] really sorts. *)
Definition sorts (mc : machine) : Prop :=
  forall l, Permutation (mc_sort mc l) l /\ Sorted.StronglySorted (fun a b => su_index a <= su_index b) (mc_sort mc l).

(** The index a tracker event registers, and the one it removes. *)
Definition registers (e : sc2_event) : option Z :=
  match e with
  | ETracker _ (TUnitInit x) => Some (ui_index x)
  | ETracker _ (TUnitBorn x) => Some (ub_index x)
  | ETracker _ (TUnitTypeChange x) => Some (ut_index x)
  | _ => None
  end.
Definition removes (e : sc2_event) : option Z :=
  match e with ETracker _ (TUnitDied x) => Some (ud_index x) | _ => None end.
(** Some event registered [i] and no later one removed it. *)
Definition alive (i : Z) (evs : list sc2_event) : Prop :=
  exists before e after, evs = before ++ e :: after /\ registers e = Some i /\ forall e', In e' after -> removes e' <> Some i.

(** The camera target carried by an event of user [uid]. *)
Definition camera_target (uid : Z) (e : sc2_event) : option point_mini :=
  match e with
  | EGame _ u _ (GCameraSave x) => if u =? uid then Some (cs_target x) else None
  | EGame _ u _ (GCameraUpdate x) => if u =? uid then cu_target x else None
  | _ => None
  end.
(** The player and slot ids announced for user [uid]. *)
Definition announced (uid : Z) (e : sc2_event) : option (Z * option Z) :=
  match e with
  | ETracker _ (TPlayerSetup x) => if match se_user_id x with Some u => u =? uid | None => false end then Some (se_player_id x, se_slot_id x) else None
  | _ => None
  end.
(** The last answer of [f] in a list. *)
Fixpoint last_some {A B} (f : A -> option B) (l : list A) : option B :=
  match l with
  | [] => None
  | a :: l' => match last_some f l' with Some b => Some b | None => f a end
  end.

(** ** Fields *)
(** A game event leaves these fields of a unit alone. *)
Definition same_identity (u v : sc2_unit) : Prop :=
  su_index v = su_index u /\ su_user v = su_user u /\ su_player v = su_player u /\ su_name v = su_name u /\
  su_pos v = su_pos u /\ su_init_loop v = su_init_loop u /\ su_ability v = su_ability u /\ su_creator v = su_creator u /\
  su_color v = su_color u /\ su_is_init v = su_is_init u.
(** The units a hint lists. *)
Definition hint_units (h : hint) : option (list sc2_unit) :=
  match h with
  | HAbilities l _ _ => Some l
  | HTargetPoints l => Some l
  | HTargetUnits l _ => Some l
  | _ => None
  end.
(** The unit a target update names: the one registered under the tag itself, or
    under its index. *)
Definition update_target (st : state) (t : target_unit) : option sc2_unit :=
  match unit_of st (tu_tag t) with Some x => Some x | None => unit_of st (unit_tag_index (tu_tag t)) end.
(** A command that names an ability, or moves the target to a point or to a
    registered unit. *)
Definition effective (st : state) (e : game_event) : Prop :=
  match e with
  | GCmd c => cm_abil c <> None
  | GCmdUpdateTargetPoint _ => True
  | GCmdUpdateTargetUnit t => update_target st t <> None
  | _ => False
  end.
(** Only the order and the loop differ. *)
Definition same_but_cmd (u u' : sc2_unit) : Prop :=
  same_identity u u' /\ su_radius u' = su_radius u /\ su_selected u' = su_selected u.
(** A map coordinate of a command as a point: 4096ths, the y axis turned (C86). *)
Definition point_at (c : coord3) (v : vec3) : Prop :=
  v = (f32_div (f32_of_int (co_x c)) (f32_of_int 4096), f32_div (f32_neg (f32_of_int (co_y c))) (f32_of_int 4096), f32_div (f32_of_int (co_z c)) (f32_of_int 4096)).
(** What a unit knows of a target unit. *)
Definition targets (t : target_unit) (x : ucmd_target) : Prop :=
  ct_flags x = tu_flags t /\ ct_timer x = tu_timer t /\ ct_tag x = tu_tag t /\ ct_link x = tu_link t /\ ct_control x = tu_control t /\ ct_upkeep x = tu_upkeep t /\
  point_at (tu_point t) (ct_point x).
Definition carries (d : cmd_data) (x : ucmd_data) : Prop :=
  match d, x with
  | CDNone, UDNone => True
  | CDPoint c, UDPoint v => point_at c v
  | CDUnit t, UDUnit y => targets t y
  | CDData z, UDData z' => z' = z
  | _, _ => False
  end.
(** The order a command leaves in a unit. *)
Definition ordered (st : state) (e : game_event) (u u' : sc2_unit) : Prop :=
  let c' := su_cmd u' in
  match e with
  | GCmd c => exists a, cm_abil c = Some a /\
      uc_flags c' = cm_flags c /\
      uc_abil c' = Some (mk_abil (ab_link a) (get_indexed_ability_command_name (st_balance st) (su_name u) (ab_link a) (ab_index a)) (ab_index a) (ab_data a)) /\
      carries (cm_data c) (uc_data c') /\ uc_sequence c' = cm_sequence c /\ uc_other c' = cm_other c /\
      uc_other_name c' = match cm_data c with CDUnit t => option_map su_name (unit_of st (tu_tag t)) | _ => None end /\
      uc_group c' = cm_group c
  | GCmdUpdateTargetPoint p =>
      (exists v, uc_data c' = UDPoint v /\ point_at p v) /\ uc_other c' = None /\
      uc_flags c' = uc_flags (su_cmd u) /\ uc_abil c' = uc_abil (su_cmd u) /\ uc_sequence c' = uc_sequence (su_cmd u) /\
      uc_other_name c' = uc_other_name (su_cmd u) /\ uc_group c' = uc_group (su_cmd u)
  | GCmdUpdateTargetUnit t =>
      (exists x, uc_data c' = UDUnit x /\ targets t x) /\ uc_other c' = uc_other (su_cmd u) /\
      uc_flags c' = uc_flags (su_cmd u) /\ uc_abil c' = uc_abil (su_cmd u) /\ uc_sequence c' = uc_sequence (su_cmd u) /\
      uc_other_name c' = uc_other_name (su_cmd u) /\ uc_group c' = uc_group (su_cmd u)
  | _ => False
  end.
(** The name of a player: that of a user whose last setup announced the id. *)
Definition names_player (evs : list sc2_event) (st : state) (p : Z) (n : option string) : Prop :=
  match n with
  | Some n => exists uid us s, user_of st uid = Some us /\ last_some (announced uid) evs = Some (p, s) /\ n = pd_name (ld_player (us_lobby us))
  | None => forall uid us s, user_of st uid = Some us -> last_some (announced uid) evs <> Some (p, s)
  end.
(** The place a position event announces, in quarters (C70_quarter), and the last one for a unit. *)
Definition position_of (p : unit_position) : vec3 := (f32_div (f32_of_int (up_x p)) (f32_of_int 4), f32_div (f32_of_int (up_y p)) (f32_of_int 4), f32_zero).
Definition last_position (l : list unit_position) (i : Z) : option unit_position :=
  last_some (fun p => if up_tag p =? i then Some p else None) l.

(** Insertion sort by index, what [sort_unstable] does on up to 20 elements. *)
Fixpoint insert_unit (x : sc2_unit) (l : list sc2_unit) : list sc2_unit :=
  match l with [] => [x] | y :: l' => if su_index x <=? su_index y then x :: l else y :: insert_unit x l' end.
Fixpoint sort_units (l : list sc2_unit) : list sc2_unit := match l with [] => [] | x :: l' => insert_unit x (sort_units l') end.
