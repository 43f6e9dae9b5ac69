(** * Balance data: radius and ability tables of the units *)
From Verif Require Import Base F32.
#[local] Open Scope string_scope.
#[local] Open Scope Z_scope.
#[local] Open Scope list_scope.

(** Model of src/game_events/ability/balance_data/mod.rs:333-341 [Command]
    (without its [Meta]). *)
Record bal_command := mk_bcommand { bc_id : option string; bc_index : Z }.
(** Model of src/game_events/ability/balance_data/mod.rs:346-354 [Ability]. *)
Record bal_ability := mk_bability { ba_id : string; ba_index : option Z; ba_commands : list bal_command }.
(** Model of [UnitRef]: the entries of [TrainsTag] and [BuildsTag]
    (src/game_events/ability/balance_data/mod.rs:462-471). *)
Record bal_ref := mk_bref { br_id : string; br_ability : option Z; br_command : option Z }.
(** Model of src/game_events/ability/balance_data/mod.rs:403-415 [ResearchUpgrade]. *)
Record bal_research := mk_bresearch { bs_id : string; bs_ability : Z; bs_index : Z }.
(** Model of src/game_events/ability/balance_data/mod.rs:485-524
    [VersionedBalanceUnit]: only the fields the library reads. *)
Record bal_unit := mk_bunit {
  bu_radius : option f32; bu_abilities : list bal_ability; bu_trains : list bal_ref;
  bu_builds : list bal_ref; bu_researches : option (list bal_research) }.
(** [VersionedBalanceUnits]: a [HashMap<String, VersionedBalanceUnit>]. *)
Definition balance : Type := list (string * bal_unit).
Fixpoint sget {A} (k : string) (l : list (string * A)) : option A :=
  match l with [] => None | (k', a) :: l' => if String.eqb k' k then Some a else sget k l' end.

(** The loops of [get_indexed_ability_command_name],
    src/game_events/ability/balance_data/mod.rs:536-577; each returns at its
    first match. *)
Fixpoint command_loop (id : string) (command_index : Z) (l : list bal_command) : option string :=
  match l with
  | [] => None
  | c :: l' =>
      if command_index =? bc_index c
      then Some (id ++ "." ++ match bc_id c with Some s => s | None => "" end)%string
      else command_loop id command_index l'
  end.
Fixpoint ability_loop (ability_id command_index : Z) (l : list bal_ability) : option string :=
  match l with
  | [] => None
  | a :: l' =>
      match ba_index a with
      | None => ability_loop ability_id command_index l'
      | Some idx =>
          if negb (idx =? ability_id) then ability_loop ability_id command_index l'
          else match command_loop (ba_id a) command_index (ba_commands a) with
               | Some s => Some s
               | None => ability_loop ability_id command_index l'
               end
      end
  end.
Fixpoint ref_loop (prefix : string) (ability_id command_index : Z) (l : list bal_ref) : option string :=
  match l with
  | [] => None
  | r :: l' =>
      match br_ability r, br_command r with
      | Some a, Some c =>
          if (ability_id =? a) && (command_index =? c) then Some (prefix ++ br_id r)%string
          else ref_loop prefix ability_id command_index l'
      | _, _ => ref_loop prefix ability_id command_index l'
      end
  end.
Fixpoint research_loop (ability_id command_index : Z) (l : list bal_research) : option string :=
  match l with
  | [] => None
  | r :: l' =>
      if (ability_id =? bs_ability r) && (command_index =? bs_index r) then Some ("Research." ++ bs_id r)%string
      else research_loop ability_id command_index l'
  end.
(** Model of src/game_events/ability/balance_data/mod.rs:529-589
    [get_indexed_ability_command_name]. *)
Definition get_indexed_ability_command_name (b : balance) (unit_name : string) (ability_id command_index : Z) : string :=
  match sget unit_name b with
  | None => ""
  | Some u =>
      match ability_loop ability_id command_index (bu_abilities u) with
      | Some s => s
      | None =>
          match ref_loop "Train." ability_id command_index (bu_trains u) with
          | Some s => s
          | None =>
              match ref_loop "Build." ability_id command_index (bu_builds u) with
              | Some s => s
              | None =>
                  match bu_researches u with
                  | Some rs => match research_loop ability_id command_index rs with Some s => s | None => "" end
                  | None => ""
                  end
              end
          end
      end
  end.

(** ** Size and colour *)
(** RGBA, src/state/unit_props.rs:5-21. *)
Definition color : Type := (Z * Z * Z * Z)%type.
Definition c_orange : color := (0xeb, 0x79, 0x07, 0xff).
Definition c_gold : color := (0xea, 0x9e, 0x36, 0xff).
Definition c_light_blue : color := (0x72, 0xc5, 0xdd, 0xff).
Definition c_gray : color := (0xb2, 0xc5, 0xc5, 0xff).
Definition c_pink : color := (0xea, 0xa4, 0x83, 0xff).
Definition c_light_gray : color := (0xf4, 0xf5, 0xf8, 0xff).
Definition c_violet : color := (0xa4, 0x01, 0xed, 0xff).
Definition c_white : color := (0xfa, 0xf8, 0xfb, 0xff).
Definition c_yellow : color := (0xf7, 0xd4, 0x54, 0xff).
Definition c_light_green : color := (0x6e, 0xc2, 0x9c, 0xff).
(** Model of src/state/unit_props.rs:71-79 [user_color]. *)
Definition user_color (user_id : Z) : color :=
  if user_id =? 0 then c_light_green else if user_id =? 1 then c_light_blue
  else if user_id =? 2 then c_light_gray else if user_id =? 3 then c_orange else c_white.
(** The [match unit_name] of src/state/unit_props.rs:37-66 as a table. *)
Definition color_table : list (string * color) := [
  ("VespeneGeyser", c_light_green); ("SpacePlatformGeyser", c_light_green);
  ("LabMineralField", c_light_blue); ("LabMineralField750", c_light_blue);
  ("MineralField", c_light_blue); ("MineralField450", c_light_blue); ("MineralField750", c_light_blue);
  ("XelNagaTower", c_white); ("RichMineralField", c_gold); ("RichMineralField750", c_orange);
  ("DestructibleRockEx1DiagonalHugeBLUR", c_gray); ("DestructibleDebris6x6", c_gray);
  ("UnbuildablePlatesDestructible", c_light_gray);
  ("Overlord", c_yellow); ("Pylon", c_yellow); ("SupplyDepot", c_yellow);
  ("SCV", c_light_gray); ("Drone", c_light_gray); ("Probe", c_light_gray); ("Larva", c_light_gray); ("Egg", c_light_gray);
  ("Hatchery", c_pink); ("CommandCenter", c_pink); ("Nexus", c_pink);
  ("Broodling", c_light_gray); ("Infestor", c_violet)].
(** Model of src/state/unit_props.rs:24-69 [get_unit_sized_color]. *)
Definition unit_radius (b : balance) (unit_name : string) : f32 :=
  match sget unit_name b with
  | Some u => match bu_radius u with Some r => r | None => f32_045 end
  | None => f32_045
  end.
Definition unit_color (unit_name : string) (user_id : Z) : color :=
  match sget unit_name color_table with Some c => c | None => user_color user_id end.
Definition get_unit_sized_color (unit_name : string) (user_id : Z) (b : balance) : f32 * color :=
  (unit_radius b unit_name, unit_color unit_name user_id).
