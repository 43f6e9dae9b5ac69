(** * What the rest of the library takes from a balance unit

    The fields of a unit that src/state/unit_props.rs:32-33 and
    src/game_events/ability/balance_data/mod.rs:529-589 use: a value of [j_unit]
    (BalanceJson.v) as a [bal_unit] (Balance.v). *)
From Verif Require Import Base F32 Balance BalanceJson.
#[local] Open Scope string_scope.
#[local] Open Scope Z_scope.
#[local] Open Scope list_scope.

(** The field of a struct that is called [k] in JSON.  A value of another type
    has an empty one; none is read. *)
Fixpoint pick_field (k : string) (fs : list (string * (jty * option jval))) (vs : list jval) : jval :=
  match fs, vs with
  | f :: fs', v :: vs' => if String.eqb (fst f) k then v else pick_field k fs' vs'
  | _, _ => XOpt None
  end.
Definition jfield (t : jty) (k : string) (v : jval) : jval := match t, v with TObj fs, XObj vs => pick_field k fs vs | _, _ => XOpt None end.
Definition as_str (v : jval) : string := match v with XStr s => s | _ => "" end.
Definition as_num (v : jval) : Z := match v with XInt z => z | _ => 0 end.
Definition as_float (v : jval) : f32 := match v with XF32 x => x | _ => S754_zero false end.
Definition as_opt {A} (f : jval -> A) (v : jval) : option A := match v with XOpt (Some x) => Some (f x) | _ => None end.
Definition as_vec {A} (f : jval -> A) (v : jval) : list A := match v with XVec l => map f l | _ => [] end.
(** [.inner] of a tag. *)
Definition inner_of {A} (k : string) (t : jty) (f : jval -> A) (v : jval) : list A := as_vec f (jfield (j_tag k t) k v).
(** src/game_events/ability/balance_data/mod.rs:333-357 and 144-174, 396-415. *)
Definition view_command (v : jval) : bal_command := mk_bcommand (as_opt as_str (jfield j_Command "@id" v)) (as_num (jfield j_Command "@index" v)).
Definition view_ability (v : jval) : bal_ability :=
  mk_bability (as_str (jfield j_Ability "@id" v)) (as_opt as_num (jfield j_Ability "@index" v)) (as_vec view_command (jfield j_Ability "command" v)).
Definition view_ref (v : jval) : bal_ref :=
  mk_bref (as_str (jfield j_UnitRef "@id" v)) (as_opt as_num (jfield j_UnitRef "@ability" v)) (as_opt as_num (jfield j_UnitRef "@index" v)).
Definition view_research (v : jval) : bal_research :=
  mk_bresearch (as_str (jfield j_ResearchUpgrade "@id" v)) (as_num (jfield j_ResearchUpgrade "@ability" v)) (as_num (jfield j_ResearchUpgrade "@index" v)).
(** [.misc.radius], [.abilities], [.trains], [.builds] and [.researches] of a unit. *)
Definition unit_view (v : jval) : bal_unit :=
  mk_bunit (as_opt as_float (jfield j_Misc "@radius" (jfield j_unit "misc" v)))
    (inner_of "ability" j_Ability view_ability (jfield j_unit "abilities" v))
    (inner_of "unit" j_UnitRef view_ref (jfield j_unit "trains" v))
    (inner_of "unit" j_UnitRef view_ref (jfield j_unit "builds" v))
    (as_opt (inner_of "upgrade" j_ResearchUpgrade view_research) (jfield j_unit "researches" v)).
