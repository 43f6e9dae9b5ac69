(** * Values of the structs of a balance unit *)
From Verif Require Import Base F32 BalanceJson.
#[local] Open Scope Z_scope.
#[local] Open Scope list_scope.

(** [v] is a value of type [t]. *)
Inductive has_type : jty -> jval -> Prop :=
| has_str : forall s, has_type TStr (XStr s)
| has_int : forall lo hi z, lo <= z <= hi -> has_type (TInt lo hi) (XInt z)
| has_f32 : forall x, f32_valid x = true -> has_type TF32 (XF32 x)
| has_none : forall t, has_type (TOpt t) (XOpt None)
| has_some : forall t v, has_type t v -> has_type (TOpt t) (XOpt (Some v))
| has_vec : forall t l, Forall (has_type t) l -> has_type (TVec t) (XVec l)
| has_obj : forall fs vs, Forall2 (fun f v => has_type (fst (snd f)) v) fs vs -> has_type (TObj fs) (XObj vs).

(** Every float inside is a number. *)
Inductive finite : jval -> Prop :=
| fin_str : forall s, finite (XStr s)
| fin_int : forall z, finite (XInt z)
| fin_f32 : forall x, x <> S754_nan -> (forall s, x <> S754_infinity s) -> finite (XF32 x)
| fin_none : finite (XOpt None)
| fin_some : forall v, finite v -> finite (XOpt (Some v))
| fin_vec : forall l, Forall finite l -> finite (XVec l)
| fin_obj : forall l, Forall finite l -> finite (XObj l).

(** A balance unit. *)
Definition is_unit (v : jval) : Prop := has_type j_unit v.

(** Its fields, and what stands for one that is not there. *)
Definition unit_fields : list (string * (jty * option jval)) := match j_unit with TObj fs => fs | _ => [] end.
Definition blank (x : jval) : Prop := x = XOpt None \/ x = XObj [XVec []].

(** [y] is [x] up to a relative error of 2^-30 (about 1e-9): what printing a
    number and reading it again may do to it. *)
Definition float_near (x y : f64) : Prop :=
  match x, y with
  | S754_finite s m e, S754_finite s' m' e' => s = s' /\ forall k, 0 <= e + k -> 0 <= e' + k -> 2 ^ 30 * Z.abs (Z.pos m' * 2 ^ (e' + k) - Z.pos m * 2 ^ (e + k)) <= Z.pos m * 2 ^ (e + k)
  | _, _ => x = y
  end.
Inductive json_near : json -> json -> Prop :=
| near_null : json_near JNull JNull
| near_bool : forall b, json_near (JBool b) (JBool b)
| near_int : forall z, json_near (JInt z) (JInt z)
| near_float : forall x y, float_near x y -> json_near (JFloat x) (JFloat y)
| near_str : forall s, json_near (JStr s) (JStr s)
| near_arr : forall l l', Forall2 json_near l l' -> json_near (JArr l) (JArr l')
| near_obj : forall m m', Forall2 (fun e e' => fst e = fst e' /\ json_near (snd e) (snd e')) m m' -> json_near (JObj m) (JObj m').

(** The values found by following the keys of a path; of an array, those of each
    of its elements. *)
Definition elements (j : json) : list json := match j with JArr l => l | _ => [j] end.
Fixpoint at_path (path : list string) (j : json) : list json :=
  match path with
  | [] => [j]
  | k :: path' => match j with JObj m => flat_map (at_path path') (flat_map elements (jvalues k m)) | _ => [] end
  end.
