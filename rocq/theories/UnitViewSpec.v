(** * What a balance file says of a unit, read off its JSON *)
From Coq Require Import Permutation.
From Verif Require Import Base F32 Balance BalanceFiles BalanceSpec Program BalanceJson BalanceJsonSpec.
#[local] Open Scope string_scope.
#[local] Open Scope Z_scope.
#[local] Open Scope list_scope.

(** The radius: the number at misc/@radius in single precision. *)
Definition file_radius (j : json) : option f32 :=
  match at_path ["misc"; "@radius"] j with
  | [JFloat x] => Some (f32_of_f64 x)
  | [JInt z] => Some (f32_of_int z)
  | _ => None
  end.
Definition text_at (k : string) (j : json) : string := match at_path [k] j with [JStr s] => s | _ => "" end.
Definition number_at (k : string) (j : json) : option Z := match at_path [k] j with [JInt z] => Some z | _ => None end.
(** A command of a unit: the number of its ability, its own, and its name.
    Without both numbers it does not count. *)
Definition one_command (a i : option Z) (name : string) : list (Z * Z * string) := match a, i with Some a, Some i => [(a, i, name)] | _, _ => [] end.
(** All commands of a unit, in the order in which they count: those of its
    abilities, what it trains, what it builds, what it researches. *)
Definition file_commands (j : json) : list (Z * Z * string) :=
  flat_map (fun a => flat_map (fun c => one_command (number_at "@index" a) (number_at "@index" c) (text_at "@id" a ++ "." ++ text_at "@id" c)%string) (at_path ["command"] a))
    (at_path ["abilities"; "ability"] j) ++
  flat_map (fun r => one_command (number_at "@ability" r) (number_at "@index" r) ("Train." ++ text_at "@id" r)%string) (at_path ["trains"; "unit"] j) ++
  flat_map (fun r => one_command (number_at "@ability" r) (number_at "@index" r) ("Build." ++ text_at "@id" r)%string) (at_path ["builds"; "unit"] j) ++
  flat_map (fun r => one_command (number_at "@ability" r) (number_at "@index" r) ("Research." ++ text_at "@id" r)%string) (at_path ["researches"; "upgrade"] j).
(** [s] names the command [i] of the ability [a]: the first of [l] with these
    numbers does, and the empty text if there is none. *)
Inductive command_named (a i : Z) : list (Z * Z * string) -> string -> Prop :=
| cn_none : command_named a i [] ""
| cn_here : forall s l, command_named a i ((a, i, s) :: l) s
| cn_later : forall a' i' s' l s, (a', i') <> (a, i) -> command_named a i l s -> command_named a i ((a', i', s') :: l) s.
(** [u] is what the file [j] says. *)
Definition says (j : json) (u : bal_unit) : Prop :=
  bu_radius u = file_radius j /\
  forall b n a i, sget n b = Some u -> command_named a i (file_commands j) (get_indexed_ability_command_name b n a i).
(** The balance data of a run are the files of [d]: those built in, or those in
    the directory that [--json-balance-data-dir] names. *)
Definition balance_files {U} (os : outside U) (order : dir_order) (ds : dirs) (a : program_args) (d : disk) : Prop :=
  (ag_json a = "" /\ Permutation (assets_of d) (os_assets os)) \/ (ag_json a <> "" /\ ds (ag_json a) = Some d /\ lists order).
