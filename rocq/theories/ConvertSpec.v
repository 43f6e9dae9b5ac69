(** * What a converted event means: the decoded value it stands for

    Written as functions in the other direction, from events to wire values,
    and used to state that the conversions lose and mix up nothing. *)
From Coq Require Import Ascii DecimalString.
From Verif Require Import Base Types Utf8 Events.
#[local] Open Scope string_scope.
#[local] Open Scope Z_scope.
#[local] Open Scope list_scope.

Definition Z_of_ascii (a : ascii) : Z := Z.of_N (N_of_ascii a).
Fixpoint bytes_of_str (s : string) : list Z :=
  match s with EmptyString => [] | String a s' => Z_of_ascii a :: bytes_of_str s' end.

Definition v_opt {A} (f : A -> val) (o : option A) : val := VOpt (match o with Some a => Some (f a) | None => None end).
Definition v_str (s : string) : val := VBytes (bytes_of_str s).
Definition v_ints (l : list Z) : val := VList (map VInt l).

(** A list of numbers as Rust's debug format prints it: decimals (those of Coq's
    library), separated by a comma and a blank, in brackets. *)
Definition decimal (z : Z) : string := NilEmpty.string_of_uint (N.to_uint (Z.to_N z)).
Definition debug_list (l : list Z) : string := ("[" ++ String.concat ", " (map decimal l) ++ "]")%string.

(** The wire value of a tracker event other than PlayerStats. *)
Definition tracker_value (e : tracker_event) : option val :=
  match e with
  | TPlayerStats _ => None
  | TUnitBorn e => Some (VChoice "EUnitBorn" (VStruct [
      ("m_unit_tag_index", VInt (ub_index e)); ("m_unit_tag_recycle", VInt (ub_recycle e)); ("m_unit_type_name", v_str (ub_name e));
      ("m_control_player_id", VInt (ub_control e)); ("m_upkeep_player_id", VInt (ub_upkeep e)); ("m_x", VInt (ub_x e)); ("m_y", VInt (ub_y e));
      ("m_creator_unit_tag_index", v_opt VInt (ub_creator_index e)); ("m_creator_unit_tag_recycle", v_opt VInt (ub_creator_recycle e));
      ("m_creator_ability_name", v_opt v_str (ub_creator_ability e))]))
  | TUnitDied e => Some (VChoice "EUnitDied" (VStruct [
      ("m_unit_tag_index", VInt (ud_index e)); ("m_unit_tag_recycle", VInt (ud_recycle e)); ("m_killer_player_id", v_opt VInt (ud_killer_player e));
      ("m_x", VInt (ud_x e)); ("m_y", VInt (ud_y e));
      ("m_killer_unit_tag_index", v_opt VInt (ud_killer_index e)); ("m_killer_unit_tag_recycle", v_opt VInt (ud_killer_recycle e))]))
  | TUnitOwnerChange e => Some (VChoice "EUnitOwnerChange" (VStruct [
      ("m_unit_tag_index", VInt (uo_index e)); ("m_unit_tag_recycle", VInt (uo_recycle e));
      ("m_control_player_id", VInt (uo_control e)); ("m_upkeep_player_id", VInt (uo_upkeep e))]))
  | TUnitTypeChange e => Some (VChoice "EUnitTypeChange" (VStruct [
      ("m_unit_tag_index", VInt (ut_index e)); ("m_unit_tag_recycle", VInt (ut_recycle e)); ("m_unit_type_name", v_str (ut_name e))]))
  | TUpgrade e => Some (VChoice "EUpgrade" (VStruct [
      ("m_player_id", VInt (ug_player_id e)); ("m_upgrade_type_name", v_str (ug_name e)); ("m_count", VInt (ug_count e))]))
  | TUnitInit e => Some (VChoice "EUnitInit" (VStruct [
      ("m_unit_tag_index", VInt (ui_index e)); ("m_unit_tag_recycle", VInt (ui_recycle e)); ("m_unit_type_name", v_str (ui_name e));
      ("m_control_player_id", VInt (ui_control e)); ("m_upkeep_player_id", VInt (ui_upkeep e)); ("m_x", VInt (ui_x e)); ("m_y", VInt (ui_y e))]))
  | TUnitDone e => Some (VChoice "EUnitDone" (VStruct [("m_unit_tag_index", VInt (un_index e)); ("m_unit_tag_recycle", VInt (un_recycle e))]))
  | TUnitPosition e => Some (VChoice "EUnitPosition" (VStruct [("m_first_unit_index", VInt (up_first e)); ("m_items", v_ints (up_items e))]))
  | TPlayerSetup e => Some (VChoice "EPlayerSetup" (VStruct [
      ("m_player_id", VInt (se_player_id e)); ("m_type", VInt (se_type e));
      ("m_user_id", v_opt VInt (se_user_id e)); ("m_slot_id", v_opt VInt (se_slot_id e))]))
  end.

(** The wire value of a game event. *)
Definition point_value (p : point_mini) : val := VStruct [("x", VInt (pm_x p)); ("y", VInt (pm_y p))].
Definition coord_value (c : coord3) : val := VStruct [("x", VInt (co_x c)); ("y", VInt (co_y c)); ("z", VInt (co_z c))].
Definition ui_value (u : ui_coord) : val := VStruct [("x", VInt (uc_x u)); ("y", VInt (uc_y u))].
Definition target_value (t : target_unit) : val := VStruct [
  ("m_target_unit_flags", VInt (tu_flags t)); ("m_timer", VInt (tu_timer t)); ("m_tag", VInt (tu_tag t)); ("m_snapshot_unit_link", VInt (tu_link t));
  ("m_snapshot_control_player_id", v_opt VInt (tu_control t)); ("m_snapshot_upkeep_player_id", v_opt VInt (tu_upkeep t));
  ("m_snapshot_point", coord_value (tu_point t))].
Definition cmd_data_value (d : cmd_data) : val :=
  match d with
  | CDNone => VChoice "None" VNull
  | CDPoint c => VChoice "TargetPoint" (coord_value c)
  | CDUnit t => VChoice "TargetUnit" (target_value t)
  | CDData z => VChoice "Data" (VInt z)
  end.
Definition abil_value (a : cmd_abil) : val := VStruct [
  ("m_abil_link", VInt (ab_link a)); ("m_abil_cmd_index", VInt (ab_index a)); ("m_abil_cmd_data", v_opt VInt (ab_data a))].
Definition mask_value (k : sel_mask) : val :=
  match k with
  | SMNone => VChoice "None" VNull
  | SMMask l => VChoice "Mask" (VBytes l)
  | SMOne l => VChoice "OneIndices" (v_ints l)
  | SMZero l => VChoice "ZeroIndices" (v_ints l)
  end.
Definition subgroup_value (g : subgroup) : val := VStruct [
  ("m_unit_link", VInt (sg_link g)); ("m_subgroup_priority", VInt (sg_priority g)); ("m_intra_subgroup_priority", VInt (sg_intra g)); ("m_count", VInt (sg_count g))].
Definition update_name (u : group_update) : string :=
  match u with
  | GSet => "ESet" | GAppend => "EAppend" | GRecall => "ERecall" | GClear => "EClear"
  | GSetAndSteal => "ESetAndSteal" | GAppendAndSteal => "EAppendAndSteal"
  end.
Definition game_value (e : game_event) : val :=
  match e with
  | GDropUser u r => VChoice "EDropUser" (VStruct [("m_drop_session_user_id", VInt u); ("m_reason", VEnum ("E" ++ r)%string)])
  | GCameraSave e => VChoice "ECameraSave" (VStruct [("m_which", VInt (cs_which e)); ("m_target", point_value (cs_target e))])
  | GCmd e => VChoice "ECmd" (VStruct [
      ("m_cmd_flags", VInt (cm_flags e)); ("m_abil", v_opt abil_value (cm_abil e)); ("m_data", cmd_data_value (cm_data e));
      ("m_sequence", VInt (cm_sequence e)); ("m_other_unit", v_opt VInt (cm_other e)); ("m_unit_group", v_opt VInt (cm_group e))])
  | GSelectionDelta e => VChoice "ESelectionDelta" (VStruct [("m_control_group_id", VInt (sd_group e)); ("m_delta", VStruct [
      ("m_subgroup_index", VInt (sd_subgroup_index e)); ("m_remove_mask", mask_value (sd_mask e));
      ("m_add_subgroups", VList (map subgroup_value (sd_subgroups e))); ("m_add_unit_tags", v_ints (sd_tags e))])])
  | GControlGroupUpdate e => VChoice "EControlGroupUpdate" (VStruct [
      ("m_control_group_index", VInt (cg_index e)); ("m_control_group_update", VEnum (update_name (cg_update e))); ("m_mask", mask_value (cg_mask e))])
  | GSelectionSyncCheck g c sc a k1 k2 k3 => VChoice "ESelectionSyncCheck" (VStruct [("m_control_group_id", VInt g); ("m_selection_sync_data", VStruct [
      ("m_count", VInt c); ("m_subgroup_count", VInt sc); ("m_active_subgroup_index", VInt a);
      ("m_unit_tags_checksum", VInt k1); ("m_subgroup_indices_checksum", VInt k2); ("m_subgroups_checksum", VInt k3)])])
  | GTriggerChatMessage s => VChoice "ETriggerChatMessage" (VStruct [("m_chat_message", v_str s)])
  | GUnitClick t => VChoice "EUnitClick" (VStruct [("m_unit_tag", VInt t)])
  | GUnitHighlight t f => VChoice "EUnitHighlight" (VStruct [("m_unit_tag", VInt t); ("m_flags", VInt f)])
  | GTriggerReplySelected c r => VChoice "ETriggerReplySelected" (VStruct [("m_conversation_id", VInt c); ("m_reply_id", VInt r)])
  | GCameraUpdate e => VChoice "ECameraUpdate" (VStruct [
      ("m_target", v_opt point_value (cu_target e)); ("m_distance", v_opt VInt (cu_distance e)); ("m_pitch", v_opt VInt (cu_pitch e));
      ("m_yaw", v_opt VInt (cu_yaw e)); ("m_reason", v_opt VInt (cu_reason e)); ("m_follow", VBool (cu_follow e))])
  | GTriggerMouseClicked b d u w f => VChoice "ETriggerMouseClicked" (VStruct [
      ("m_button", VInt b); ("m_down", VBool d); ("m_pos_ui", ui_value u); ("m_pos_world", coord_value w); ("m_flags", VInt f)])
  | GTriggerMouseMoved u w f => VChoice "ETriggerMouseMoved" (VStruct [("m_pos_ui", ui_value u); ("m_pos_world", coord_value w); ("m_flags", VInt f)])
  | GTriggerHotkeyPressed k d => VChoice "ETriggerHotkeyPressed" (VStruct [("m_hotkey", VInt k); ("m_down", VBool d)])
  | GTriggerTargetModeUpdate l _ i s => VChoice "ETriggerTargetModeUpdate" (VStruct [("m_abil_link", VInt l); ("m_abil_cmd_index", VInt i); ("m_state", VInt s)])
  | GTriggerKeyPressed k f => VChoice "ETriggerKeyPressed" (VStruct [("m_key", VInt k); ("m_flags", VInt f)])
  | GTriggerMouseWheel s f => VChoice "ETriggerMouseWheel" (VStruct [("m_wheel_spin", VInt s); ("m_flags", VInt f)])
  | GTriggerButtonPressed b => VChoice "ETriggerButtonPressed" (VStruct [("m_button", VInt b)])
  | GCommandManagerState s q => VChoice "ECommandManagerState" (VStruct [("m_state", VEnum s); ("m_sequence", v_opt VInt q)])
  | GCmdUpdateTargetPoint c => VChoice "ECmdUpdateTargetPoint" (VStruct [("m_target", coord_value c)])
  | GCmdUpdateTargetUnit t => VChoice "ECmdUpdateTargetUnit" (VStruct [("m_target", target_value t)])
  end.

(** The game events the crate passes on; all others are skipped. *)
Definition supported_game_events : list string := [
  "EDropUser"; "ECameraSave"; "ECmd"; "ESelectionDelta"; "EControlGroupUpdate"; "ESelectionSyncCheck"; "ETriggerChatMessage";
  "EUnitClick"; "EUnitHighlight"; "ETriggerReplySelected"; "ECameraUpdate"; "ETriggerMouseClicked"; "ETriggerMouseMoved";
  "ETriggerHotkeyPressed"; "ETriggerTargetModeUpdate"; "ETriggerKeyPressed"; "ETriggerMouseWheel"; "ETriggerButtonPressed";
  "ECommandManagerState"; "ECmdUpdateTargetPoint"; "ECmdUpdateTargetUnit"].
Definition variant (v : val) : string := match v with VChoice s _ => s | _ => "" end.

(** All byte strings inside a decoded value. *)
Fixpoint texts (v : val) : list (list Z) :=
  match v with
  | VBytes l => [l]
  | VOpt (Some w) => texts w
  | VList l => flat_map texts l
  | VChoice _ w => texts w
  | VStruct l => flat_map (fun x => texts (snd x)) l
  | _ => []
  end.
(** ... are UTF-8. *)
Definition all_utf8 (v : val) : Prop := Forall (fun l => exists s, from_utf8 l = Ok s) (texts v).

(** The value a statistic shows for its wire value: supply is sent in 1/4096
    units and shown as whole units, rounded towards zero. *)
Definition shown_stat (n : string) (z : Z) : Z :=
  if existsb (String.eqb n) ["food_used"; "food_made"] then Z.quot z 4096 else z.

(** A tracker event whose names convert: they are UTF-8, except that the name of
    an upgrade may be anything. *)
Definition well_named (v : val) : Prop := variant v = "EUpgrade" \/ all_utf8 v.
