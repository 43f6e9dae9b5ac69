(** * How a unit looks, and which units are marked *)
From Verif Require Import Base F32 F32Facts Tags Events Maps Lobby Balance Convert State StateSpec.
#[local] Open Scope string_scope.
#[local] Open Scope Z_scope.
#[local] Open Scope list_scope.

(** The types with a colour of their own, by colour (red, green, blue, alpha). *)
Definition coloured_types : list (color * list string) :=
  [ ((110, 194, 156, 255), ["SpacePlatformGeyser"; "VespeneGeyser"]);
    ((114, 197, 221, 255), ["LabMineralField"; "LabMineralField750"; "MineralField"; "MineralField450"; "MineralField750"]);
    ((250, 248, 251, 255), ["XelNagaTower"]);
    ((234, 158, 54, 255), ["RichMineralField"]);
    ((235, 121, 7, 255), ["RichMineralField750"]);
    ((178, 197, 197, 255), ["DestructibleDebris6x6"; "DestructibleRockEx1DiagonalHugeBLUR"]);
    ((247, 212, 84, 255), ["Overlord"; "Pylon"; "SupplyDepot"]);
    ((244, 245, 248, 255), ["Broodling"; "Drone"; "Egg"; "Larva"; "Probe"; "SCV"; "UnbuildablePlatesDestructible"]);
    ((234, 164, 131, 255), ["CommandCenter"; "Hatchery"; "Nexus"]);
    ((164, 1, 237, 255), ["Infestor"]) ].
Definition type_colour (name : string) (c : color) : Prop := exists names, In (c, names) coloured_types /\ In name names.
(** The colour of a player; a unit without one looks like those of player 0. *)
Definition player_colour (p : option Z) (c : color) : Prop :=
  match p with
  | None | Some 0 => c = (110, 194, 156, 255)
  | Some 1 => c = (114, 197, 221, 255)
  | Some 2 => c = (244, 245, 248, 255)
  | Some 3 => c = (235, 121, 7, 255)
  | Some _ => c = (250, 248, 251, 255)
  end.
Definition colour_of (name : string) (p : option Z) (c : color) : Prop :=
  type_colour name c \/ ((forall c', ~ type_colour name c') /\ player_colour p c).
(** The radius of a type: that of the balance data, 0.45 without. *)
Definition default_radius : f32 := f32_div (f32_of_int 9) (f32_of_int 20).
Definition type_radius (b : balance) (name : string) (r : f32) : Prop :=
  (exists u, sget name b = Some u /\ bu_radius u = Some r) \/
  ((forall u r', sget name b = Some u -> bu_radius u <> Some r') /\ r = default_radius).
(** Coloured and sized as its type and its player say, twice the size when it is
    marked as selected. *)
Definition looks (b : balance) (u : sc2_unit) : Prop :=
  colour_of (su_name u) (su_user u) (su_color u) /\
  exists r, type_radius b (su_name u) r /\ su_radius u = if su_selected u then f32_mul r (f32_of_int 2) else r.

(** A condition on every event, in the state in which it happens. *)
Definition throughout (mc : machine) (st0 : state) (evs : list sc2_event) (P : state -> sc2_event -> Prop) : Prop :=
  forall before e after st its, evs = before ++ e :: after -> run mc st0 before = Ok (st, its) -> P st e.
(** The event does not initialise a registered unit again, and does not change
    the type of a unit that is marked nor finish one. *)
Definition undisturbed (st : state) (e : sc2_event) : Prop :=
  match e with
  | ETracker _ (TUnitInit x) => unit_of st (ui_index x) = None
  | ETracker _ (TUnitTypeChange x) => forall u, unit_of st (ut_index x) = Some u -> su_selected u = false
  | ETracker _ (TUnitDone x) => forall u, unit_of st (un_index x) = Some u -> su_selected u = false
  | _ => True
  end.
(** The radii are numbers that can be doubled and halved. *)
Definition plain_radii (b : balance) : Prop := forall n u r, sget n b = Some u -> bu_radius u = Some r -> f32_valid r = true /\ f32_doublable r = true.

(** ** Marks *)
(** The unit [i] is in the selection of the user. *)
Definition selected_by (st : state) (i uid : Z) : Prop := In i (indices (selection st uid)).
(** Group numbers are bytes. *)
Definition numbered (e : sc2_event) : Prop :=
  match e with
  | EGame _ _ _ (GSelectionDelta x) => 0 <= sd_group x
  | EGame _ _ _ (GControlGroupUpdate x) => 0 <= cg_index x
  | _ => True
  end.
(** The user who selects is one of the lobby, and the index of a dead unit is
    not, as a number, a selected tag (C34). *)
Definition recorded (st : state) (e : sc2_event) : Prop :=
  match e with
  | EGame _ uid _ (GSelectionDelta x) => sd_group x = 10 -> user_of st uid <> None
  | ETracker _ (TUnitDied x) => forall v, ~ In (ud_index x) (selection st v)
  | _ => True
  end.
(** Nobody else has selected one of the tags. *)
Definition others_keep (st : state) (uid : Z) (tags : list Z) : Prop := forall t v, In t tags -> selected_by st (unit_tag_index t) v -> v = uid.
(** Control groups are only recalled, nobody selects what another user has
    selected, and a new unit does not get an index that is selected. *)
Definition orderly (st : state) (e : sc2_event) : Prop :=
  match e with
  | EGame _ uid _ (GSelectionDelta x) => sd_group x = 10 -> others_keep st uid (sd_tags x)
  | EGame _ uid _ (GControlGroupUpdate x) => cg_update x = GRecall /\ others_keep st uid (group_of st uid (cg_index x))
  | _ => match registers e with Some i => unit_of st i = None -> forall v, ~ selected_by st i v | None => True end
  end.
