(** * What the lookup tables mean *)
From Verif Require Import Base Lobby Balance.
#[local] Open Scope string_scope.
#[local] Open Scope Z_scope.
#[local] Open Scope list_scope.

(** All names a unit gives to its commands, in the order of precedence: its
    abilities, what it trains, what it builds, what it researches.  Each line:
    (ability link, command index, name). *)
Definition ability_lines (a : bal_ability) : list (Z * Z * string) :=
  match ba_index a with
  | Some i => map (fun c => (i, bc_index c, (ba_id a ++ "." ++ match bc_id c with Some s => s | None => "" end)%string)) (ba_commands a)
  | None => []
  end.
Definition ref_lines (prefix : string) (r : bal_ref) : list (Z * Z * string) :=
  match br_ability r, br_command r with Some a, Some c => [(a, c, (prefix ++ br_id r)%string)] | _, _ => [] end.
Definition research_line (r : bal_research) : Z * Z * string := (bs_ability r, bs_index r, ("Research." ++ bs_id r)%string).
Definition command_lines (u : bal_unit) : list (Z * Z * string) :=
  flat_map ability_lines (bu_abilities u) ++
  flat_map (ref_lines "Train.") (bu_trains u) ++
  flat_map (ref_lines "Build.") (bu_builds u) ++
  match bu_researches u with Some rs => map research_line rs | None => [] end.
(** [name] stands in the first line for this link and index. *)
Definition first_line (lines : list (Z * Z * string)) (link index : Z) (name : string) : Prop :=
  exists before after, lines = before ++ (link, index, name) :: after /\ forall s, ~ In (link, index, s) before.

(** [slot], the [i]th one of the lobby, is the first with the slot id of [p]. *)
Definition first_slot (slots : list lobby_slot) (p : player_details) (i : nat) (slot : lobby_slot) : Prop :=
  exists id, pd_slot p = Some id /\ nth_error slots i = Some slot /\ ls_slot slot = Some id /\
    forall j s, (j < i)%nat -> nth_error slots j = Some s -> ls_slot s <> Some id.
Definition has_slot (slots : list lobby_slot) (p : player_details) : Prop := exists i s, first_slot slots p i s.
(** [a] is [b] without the elements that fail [P]. *)
Inductive keeps {A} (P : A -> Prop) : list A -> list A -> Prop :=
| keeps_nil : keeps P [] []
| keeps_yes : forall x a b, P x -> keeps P a b -> keeps P (x :: a) (x :: b)
| keeps_no : forall x a b, ~ P x -> keeps P a b -> keeps P a (x :: b).
