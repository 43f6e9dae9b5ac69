(** * What a balance unit file must hold, object by object *)
From Verif Require Import Base F32 BalanceJson BalanceJsonSpec.
#[local] Open Scope string_scope.
#[local] Open Scope Z_scope.
#[local] Open Scope list_scope.

(** What a member of an object may be. *)
Inductive kind := Text | Whole (lo hi : Z) | Number | Object | Objects.
Definition fits (k : kind) (j : json) : Prop :=
  match k with
  | Text => exists s, j = JStr s
  | Whole lo hi => exists z, j = JInt z /\ lo <= z <= hi
  | Number => (exists x, j = JFloat x) \/ exists z, j = JInt z
  | Object => exists m, j = JObj m
  | Objects => exists l, j = JArr l /\ Forall (fun x => exists m, x = JObj m) l
  end.
(** A member: its name, whether it has to be there, whether it may be null, and
    what it is otherwise. *)
Record member := mk_member { me_name : string; me_must : bool; me_null : bool; me_kind : kind }.
(** [m] keeps to the rule [e]: the name comes once, or perhaps not at all. *)
Definition keeps (m : list (string * json)) (e : member) : Prop :=
  (jvalues (me_name e) m = [] /\ me_must e = false) \/
  exists j, jvalues (me_name e) m = [j] /\ ((me_null e = true /\ j = JNull) \/ fits (me_kind e) j).
Definition must (n : string) (k : kind) : member := mk_member n true false k.
(** May be left out; may be left out or null. *)
Definition may (n : string) (k : kind) : member := mk_member n false false k.
Definition opt (n : string) (k : kind) : member := mk_member n false true k.
Definition U32 : kind := Whole 0 (2 ^ 32 - 1).
Definition U16 : kind := Whole 0 (2 ^ 16 - 1).
Definition I64 : kind := Whole (- 2 ^ 63) (2 ^ 63 - 1).

(** The objects of a unit, by path, and their members.  Other members are of no
    importance. *)
Definition unit_objects : list (list (list string) * list member) := [
  ([[]],
   [must "@id" Text; must "meta" Object; must "life" Object; opt "shields" Object; must "armor" Object; must "shieldArmor" Object; may "requires" Object; opt "cost" Object;
    opt "researches" Object; opt "movement" Object; must "score" Object; must "misc" Object; opt "producer" Object; may "attributes" Object; may "strengths" Object;
    may "weaknesses" Object; may "weapons" Object; may "abilities" Object; may "builds" Object; may "trains" Object; may "upgrades" Object]);
  ([["meta"]; ["weapons"; "weapon"; "meta"]; ["abilities"; "ability"; "command"; "meta"]; ["builds"; "unit"; "meta"]; ["trains"; "unit"; "meta"];
    ["upgrades"; "upgrade"; "level"; "meta"]; ["researches"; "upgrade"; "meta"]],
   [must "@name" Text; must "@tooltip" Text; opt "@icon" Text; opt "@race" Text; opt "@hotkey" Text; opt "@source" Text; opt "@index" U32; opt "@type" Text]);
  ([["life"]], [must "@start" U32; must "@max" U32; opt "@regenRate" Number]);
  ([["shields"]], [must "@start" U32; must "@max" U32; must "@regenRate" Number; opt "@delay" Number]);
  ([["armor"]; ["shieldArmor"]], [must "@start" U32; must "@max" U32]);
  ([["cost"]; ["builds"; "unit"; "cost"]; ["trains"; "unit"; "cost"]; ["upgrades"; "upgrade"; "level"; "cost"]; ["researches"; "upgrade"; "cost"]],
   [opt "@minerals" U32; opt "@vespene" U32; opt "@supply" Number; opt "@time" Number; opt "@energy" U32; opt "@cooldown" Number; opt "@life" U32]);
  ([["movement"]], [must "@type" Text; must "@speed" Number; must "@acceleration" Number; must "@deceleration" Number; opt "@turnRate" Number]);
  ([["score"]], [opt "@build" U32; opt "@kill" U32]);
  ([["misc"]; ["weapons"; "weapon"; "misc"]],
   [opt "@radius" Number; opt "@cargoSize" U32; opt "@footprint" Text; opt "@sightRadius" Number; opt "@supply" Number; opt "@range" Number; opt "@speed" Number;
    opt "@targets" Text; opt "@count" U32; opt "@cargoCapacity" U32]);
  ([["requires"]; ["strengths"]; ["weaknesses"]; ["builds"]; ["trains"]; ["builds"; "unit"; "requires"]; ["trains"; "unit"; "requires"]], [may "unit" Objects]);
  ([["producer"]; ["requires"; "unit"]; ["strengths"; "unit"]; ["weaknesses"; "unit"]; ["builds"; "unit"; "requires"; "unit"]; ["trains"; "unit"; "requires"; "unit"];
    ["upgrades"; "upgrade"; "level"; "requires"; "unit"]],
   [must "@id" Text; must "@name" Text]);
  ([["researches"]; ["upgrades"]], [may "upgrade" Objects]);
  ([["researches"; "upgrade"]], [must "@id" Text; must "@ability" U16; must "@index" I64; must "meta" Object; must "cost" Object]);
  ([["attributes"]], [may "attribute" Objects]);
  ([["attributes"; "attribute"]], [opt "@type" Text]);
  ([["weapons"]], [may "weapon" Objects]);
  ([["weapons"; "weapon"]], [must "@id" Text; must "@index" U32; must "meta" Object; opt "misc" Object; opt "score" Object]);
  ([["weapons"; "weapon"; "score"]],
   [must "@id" Text; must "@index" U32; must "@radius" Number; must "@damage" U32; must "@max" U32; must "@death" Text; must "@kind" Text; opt "bonus" Object]);
  ([["weapons"; "weapon"; "score"; "bonus"]], [must "@damage" U32; must "@max" U32; opt "@type" Text]);
  ([["abilities"]], [may "ability" Objects]);
  ([["abilities"; "ability"]], [must "@id" Text; opt "@index" U16; may "command" Objects]);
  ([["abilities"; "ability"; "command"]], [opt "@id" Text; must "@index" I64; must "meta" Object]);
  ([["builds"; "unit"]; ["trains"; "unit"]],
   [must "@id" Text; opt "@name" Text; opt "@ability" U16; opt "@index" I64; opt "meta" Object; opt "cost" Object; may "requires" Object]);
  ([["upgrades"; "upgrade"]], [must "@id" Text; may "level" Objects]);
  ([["upgrades"; "upgrade"; "level"]], [may "@id" Text; may "@index" U32; must "meta" Object; may "requires" Objects; must "cost" Object]);
  ([["upgrades"; "upgrade"; "level"; "requires"]], [may "unit" Objects; may "upgrade" Objects]);
  ([["upgrades"; "upgrade"; "level"; "requires"; "upgrade"]], [may "@id" Text; must "@name" Text])].

(** A JSON value that is a unit: an object, and every object at one of the paths
    keeps to the rules for it. *)
Definition unit_json (j : json) : Prop :=
  (exists m, j = JObj m) /\
  forall paths members path m e, In (paths, members) unit_objects -> In path paths -> In e members -> In (JObj m) (at_path path j) -> keeps m e.

(** [serde] takes an array in place of an object as the members in order.  In
    [j] no array stands where the table has an object. *)
Definition no_array (k : kind) (j : json) : Prop :=
  match k with
  | Object => forall l, j <> JArr l
  | Objects => forall l x l', j = JArr l -> In x l -> x <> JArr l'
  | _ => True
  end.
Definition objects_only (j : json) : Prop :=
  no_array Object j /\
  forall paths members path m e x, In (paths, members) unit_objects -> In path paths -> In e members -> In (JObj m) (at_path path j) -> In x (jvalues (me_name e) m) -> no_array (me_kind e) x.

(** The names that [serde] gives to the values of such arrays.  The members of the
    objects at a path, and how many of them an array must have at least; the
    others, at its end, may be left out. *)
Definition path_eqb (p q : list string) : bool := if list_eq_dec string_dec p q then true else false.
Definition members_at (p : list string) : list member := match find (fun e => existsb (path_eqb p) (fst e)) unit_objects with Some e => snd e | None => [] end.
Definition shorter_rows : list (list (list string) * nat) := [
  ([[]], 12%nat);
  ([["shields"]], 3%nat);
  ([["movement"]], 4%nat);
  ([["builds"; "unit"]; ["trains"; "unit"]], 6%nat);
  ([["abilities"; "ability"]], 2%nat);
  ([["upgrades"; "upgrade"]], 1%nat);
  ([["upgrades"; "upgrade"; "level"; "requires"]; ["requires"]; ["strengths"]; ["weaknesses"]; ["builds"]; ["trains"]; ["builds"; "unit"; "requires"]; ["trains"; "unit"; "requires"];
    ["researches"]; ["upgrades"]; ["attributes"]; ["weapons"]; ["abilities"]], 0%nat)].
Definition least_at (p : list string) : nat := match find (fun e => existsb (path_eqb p) (fst e)) shorter_rows with Some e => snd e | None => length (members_at p) end.
Definition member_named (k : string) (p : list string) : option member := find (fun e => String.eqb (me_name e) k) (members_at p).
(** [j], at the path [p], with the names: an array of an impossible length becomes
    something that is no object. *)
Fixpoint with_names (k : kind) (p : list string) (j : json) {struct j} : json :=
  match k, j with
  | Object, JObj m => JObj (map (fun e => (fst e, match member_named (fst e) p with Some r => with_names (me_kind r) (p ++ [fst e]) (snd e) | None => snd e end)) m)
  | Object, JArr l =>
      if ((least_at p <=? length l) && (length l <=? length (members_at p)))%nat then
        JObj ((fix go (ms : list member) (l : list json) {struct l} : list (string * json) :=
          match l, ms with
          | x :: l', r :: ms' => (me_name r, with_names (me_kind r) (p ++ [me_name r]) x) :: go ms' l'
          | _, _ => []
          end) (members_at p) l)
      else JBool false
  | Objects, JArr l => JArr (map (with_names Object p) l)
  | _, _ => j
  end.
Definition by_name (j : json) : json := with_names Object [] j.
