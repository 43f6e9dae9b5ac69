(** * What the rows of the exported tables mean *)
From Verif Require Import Base Types F32 Tags Events Maps Lobby Balance Convert ConvertSpec Stream Iterators Dispatch ByteTypes BitTypes BitSpec BitFormat StreamSpec State StateSpec Merge MergeSpec DetailsData Rows.
#[local] Open Scope string_scope.
#[local] Open Scope Z_scope.
#[local] Open Scope list_scope.

(** The tracker events of a sector, with their loops. *)
Definition tracker_events_of (tevs : list (Z * val)) (ts : list (Z * tracker_event)) : Prop :=
  Forall2 (fun ev e => fst ev = fst e /\ tracker_from (snd ev) = Ok (snd e)) (at_loops 0 tevs) ts.
(** The rows of a list of events: those of each event, given the events before it. *)
Fixpoint rows_from {E A} (f : list E -> E -> list A) (before : list E) (l : list E) : list A :=
  match l with [] => [] | e :: l' => f before e ++ rows_from f (before ++ [e]) l' end.

(** ** Units: what the tracker events so far say about one unit *)
Record life := mk_life { lf_name : string; lf_owner : option Z; lf_player : option string; lf_pos : vec3; lf_ability : option string }.
Definition place (x y : Z) : vec3 := (f32_of_int x, f32_of_int y, f32_zero).
(** The name of the player [p]: that of the first user, in the order in which the
    users are stored, whose last setup event announced [p]. *)
Definition player_named (st0 : state) (before : list (Z * tracker_event)) (p : Z) : option string :=
  match find (fun x => match last_some (announced (fst x)) (map tracker_item before) with Some (q, _) => q =? p | None => false end) (st_users st0) with
  | Some (_, us) => Some (pd_name (ld_player (us_lobby us)))
  | None => None
  end.
(** The effect of one more event on unit [i].  A UnitInit renames and moves a
    unit; a UnitBorn of a known unit only sets its ability; a UnitTypeChange
    renames; UnitPosition moves; UnitDied removes. *)
Definition life_step (b : build) (st0 : state) (i : Z) (before : list (Z * tracker_event)) (x : option life) (e : tracker_event) : option life :=
  match e with
  | TUnitInit y => if ui_index y =? i then
      Some (match x with
            | Some l => mk_life (ui_name y) (lf_owner l) (lf_player l) (place (ui_x y) (ui_y y)) (lf_ability l)
            | None => mk_life (ui_name y) (Some (ui_control y)) (player_named st0 before (ui_control y)) (place (ui_x y) (ui_y y)) None
            end) else x
  | TUnitBorn y => if ub_index y =? i then
      Some (match x with
            | Some l => mk_life (lf_name l) (lf_owner l) (lf_player l) (lf_pos l) (ub_creator_ability y)
            | None => mk_life (ub_name y) (Some (ub_control y)) (player_named st0 before (ub_control y)) (place (ub_x y) (ub_y y)) None
            end) else x
  | TUnitTypeChange y => if ut_index y =? i then
      Some (match x with
            | Some l => mk_life (ut_name y) (lf_owner l) (lf_player l) (lf_pos l) (lf_ability l)
            | None => mk_life (ut_name y) None None vec3_zero None
            end) else x
  | TUnitDied y => if ud_index y =? i then None else x
  | TUnitPosition y =>
      match x, to_unit_positions_vec b (up_first y) (up_items y) with
      | Some l, Ok ps =>
          match last_position ps i with
          | Some q => Some (mk_life (lf_name l) (lf_owner l) (lf_player l) (position_of q) (lf_ability l))
          | None => x
          end
      | _, _ => x
      end
  | _ => x
  end.
Fixpoint life_from (b : build) (st0 : state) (i : Z) (before : list (Z * tracker_event)) (x : option life) (l : list (Z * tracker_event)) : option life :=
  match l with
  | [] => x
  | e :: l' => life_from b st0 i (before ++ [e]) (life_step b st0 i before x (snd e)) l'
  end.
(** What the events [l] of the replay say about unit [i]. *)
Definition life_of (b : build) (st0 : state) (l : list (Z * tracker_event)) (i : Z) : option life := life_from b st0 i [] None l.

(** ** Rows *)
Definition upgrade_spec (fs : Z) (before : list (Z * tracker_event)) (e : Z * tracker_event) : list upgrade_row :=
  match snd e with
  | TUpgrade x => [mk_upgrade_row (ug_player_id x) (ug_name x) (ug_count x) (fst e) (tracker_seconds (fst e)) fs]
  | _ => []
  end.
(** A PlayerStats event of the sector and its row. *)
Definition stats_spec (fs : Z) (ev : Z * val) (r : stats_row) : Prop :=
  exists id ss, snd ev = VChoice "EPlayerStats" (VStruct [("m_player_id", VInt id); ("m_stats", VStruct ss)]) /\
    sr_player r = id /\ sr_loop r = fst ev /\ sr_seconds r = tracker_seconds (fst ev) /\ sr_fs r = fs /\
    map (fun c => ("m_score_value_" ++ fst c)%string) (sr_values r) = map fst ss /\
    forall n z, In (("m_score_value_" ++ n)%string, VInt z) ss -> In (n, Some (shown_stat n z)) (sr_values r).
(** A row for the death of every known unit; the killer is named if it is known
    and not the unit itself. *)
Definition died_spec (b : build) (st0 : state) (fs : Z) (before : list (Z * tracker_event)) (e : Z * tracker_event) : list died_row :=
  match snd e with
  | TUnitDied x =>
      match life_of b st0 before (ud_index x) with
      | Some u => [mk_died_row (lf_name u) (ud_index x) (ud_recycle x) (ud_killer_player x) (ud_x x) (ud_y x)
          (match ud_killer_index x with
           | Some k => if k =? ud_index x then "" else match life_of b st0 before k with Some v => lf_name v | None => "" end
           | None => ""
           end) (ud_killer_index x) (ud_killer_recycle x) (fst e) (tracker_seconds (fst e)) fs]
      | None => []
      end
  | _ => []
  end.
(** A row for every UnitBorn, and for every UnitDone and UnitTypeChange of a
    known unit. *)
Definition born_spec (b : build) (st0 : state) (fs : Z) (before : list (Z * tracker_event)) (e : Z * tracker_event) : list born_row :=
  let known index recycle name creator :=
    match life_of b st0 before index with
    | Some u => [mk_born_row index recycle (name u) (lf_owner u) (lf_owner u) (fst (fst (lf_pos u))) (snd (fst (lf_pos u))) None None
        (creator u) (lf_ability u) (fst e) (tracker_seconds (fst e)) fs (lf_player u)]
    | None => []
    end in
  match snd e with
  | TUnitBorn x =>
      [mk_born_row (ub_index x) (ub_recycle x) (ub_name x) (Some (ub_control x)) (Some (ub_upkeep x)) (f32_of_int (ub_x x)) (f32_of_int (ub_y x))
        (ub_creator_index x) (ub_creator_recycle x)
        (match ub_creator_index x with Some c => option_map lf_name (life_of b st0 before c) | None => None end)
        (ub_creator_ability x) (fst e) (tracker_seconds (fst e)) fs
        (match life_of b st0 before (ub_index x) with Some u => lf_player u | None => player_named st0 before (ub_control x) end)]
  | TUnitDone x => known (un_index x) (un_recycle x) lf_name (fun _ => None)
  | TUnitTypeChange x => known (ut_index x) (ut_recycle x) (fun _ => ut_name x) (fun u => Some (lf_name u))
  | _ => []
  end.

(** ** Commands *)
(** The state before each event of a history. *)
Fixpoint states_before (mc : machine) (st : state) (evs : list sc2_event) : list (state * sc2_event) :=
  match evs with
  | [] => []
  | e :: evs' => (st, e) :: match handle_transition mc st e with Ok (st', _) => states_before mc st' evs' | _ => [] end
  end.
(** The units a command is for. *)
Definition commanded_units (st : state) (uid : Z) : list sc2_unit := units_at st (indices (selection st uid)).
(** The name of the command of an ability, as the last of these units knows it. *)
Definition command_name (st : state) (uid : Z) (a : cmd_abil) : string :=
  get_indexed_ability_command_name (st_balance st) (last (map su_name (commanded_units st uid)) "") (ab_link a) (ab_index a).
Definition point_spec (fs : Z) (x : state * sc2_event) : list point_row :=
  match snd x with
  | EGame l uid n (GCmd c) =>
      match cm_abil c, cm_data c with
      | Some a, CDPoint q => map (fun u => mk_point_row uid n (cm_flags c) (Some (ab_link a)) (Some (ab_index a)) (command_name (fst x) uid a)
          (co_x q) (co_y q) (co_z q) (cm_sequence c) (cm_group c) (su_name u) l (game_seconds l) fs) (commanded_units (fst x) uid)
      | _, _ => []
      end
  | _ => []
  end.
Definition target_spec (fs : Z) (x : state * sc2_event) : list target_row :=
  match snd x with
  | EGame l uid n (GCmd c) =>
      match cm_abil c, cm_data c with
      | Some a, CDUnit t => map (fun u => mk_target_row uid n (cm_flags c) (Some (ab_link a)) (Some (ab_index a)) (command_name (fst x) uid a)
          (tu_flags t) (tu_tag t) (tu_link t) (tu_control t) (tu_upkeep t) (co_x (tu_point t)) (co_y (tu_point t)) (co_z (tu_point t))
          (cm_sequence c) (su_name u) (match unit_of (fst x) (tu_tag t) with Some v => su_name v | None => "" end) l (game_seconds l) fs)
          (commanded_units (fst x) uid)
      | _, _ => []
      end
  | _ => []
  end.
