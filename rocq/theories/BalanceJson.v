(** * A balance unit as JSON

    src/game_events/ability/balance_data/mod.rs:78-524: the structs of a unit
    with their [serde] attributes, as descriptors ([jty]), and what the derived
    [Serialize] and [Deserialize] do with them (serde 1.0 and serde_json 1.0
    with their default features).  The text of a JSON value is external. *)
From Verif Require Import Base F32.
#[local] Open Scope string_scope.
#[local] Open Scope Z_scope.
#[local] Open Scope list_scope.

(** Double precision, and the conversions [x as f64] and [x as f32]. *)
Definition f64 : Type := spec_float.
Definition f64_of_f32 (x : f32) : f64 := match x with S754_finite s m e => binary_round 53 1024 s m e | _ => x end.
Definition f32_of_f64 (x : f64) : f32 := match x with S754_finite s m e => binary_round f32_prec f32_emax s m e | _ => x end.

(** [serde_json::Value]. *)
Inductive json : Type :=
| JNull | JBool (b : bool) | JInt (z : Z) | JFloat (x : f64) | JStr (s : string) | JArr (l : list json) | JObj (m : list (string * json)).

(** Values of the structs. *)
Inductive jval : Type :=
| XStr (s : string) | XInt (z : Z) | XF32 (x : f32) | XOpt (o : option jval) | XVec (l : list jval) | XObj (l : list jval).

(** Their types: a field has a name ([rename]), a type and perhaps a
    [#[serde(default)]], given as the value of [Default::default()]. *)
Inductive jty : Type :=
| TStr | TInt (lo hi : Z) | TF32 | TOpt (t : jty) | TVec (t : jty) | TObj (fs : list (string * (jty * option jval))).

(** [Map::insert] of a [BTreeMap]: by key. *)
Fixpoint jinsert (k : string) (j : json) (m : list (string * json)) : list (string * json) :=
  match m with
  | [] => [(k, j)]
  | (k', j') :: m' =>
      match String.compare k k' with
      | Lt => (k, j) :: m
      | Eq => (k, j) :: m'
      | Gt => (k', j') :: jinsert k j m'
      end
  end.

(** [json!(unit)], json_handler.rs:33: [serde_json::to_value] with the derived
    [Serialize]; a float that is not finite becomes null. *)
Fixpoint to_value (t : jty) (v : jval) {struct t} : json :=
  match t, v with
  | TStr, XStr s => JStr s
  | TInt _ _, XInt z => JInt z
  | TF32, XF32 x => match x with S754_nan | S754_infinity _ => JNull | _ => JFloat (f64_of_f32 x) end
  | TOpt t', XOpt o => match o with None => JNull | Some w => to_value t' w end
  | TVec t', XVec l => JArr (map (to_value t') l)
  | TObj fs, XObj vs =>
      JObj ((fix go (fs : list (string * (jty * option jval))) (vs : list jval) (m : list (string * json)) : list (string * json) :=
        match fs, vs with
        | (k, (t', _)) :: fs', w :: vs' => go fs' vs' (jinsert k (to_value t' w) m)
        | _, _ => m
        end) fs vs [])
  | _, _ => JNull
  end.

(** The values of a key, in order. *)
Definition jvalues (k : string) (m : list (string * json)) : list json := map snd (filter (fun e => String.eqb (fst e) k) m).
(** A field that is not there: its default, [None] for an option, or an error. *)
Definition missing (t : jty) (d : option jval) : option jval :=
  match d with Some x => Some x | None => match t with TOpt _ => Some (XOpt None) | _ => None end end.
Section All.
  Context {A B : Type}.
  Variable f : A -> option B.
  Fixpoint all_some (l : list A) : option (list B) :=
    match l with [] => Some [] | x :: l' => match f x, all_some l' with Some y, Some ys => Some (y :: ys) | _, _ => None end end.
End All.
(** [serde_json::from_reader] with the derived [Deserialize], json_handler.rs:75
    and 115: unknown fields are ignored, a field may not come twice.  An array in
    place of a struct is taken as its fields in order ([visit_seq]; only a
    [#[serde(default)]] field may be left out at the end); with [rows] false it is
    an error, which is not what the code does but what a specification can be
    written against.  All errors are one. *)
Section Read.
  Variable rows : bool.
  Fixpoint read_json (t : jty) (j : json) {struct t} : option jval :=
    match t with
    | TStr => match j with JStr s => Some (XStr s) | _ => None end
    | TInt lo hi => match j with JInt z => if (lo <=? z) && (z <=? hi) then Some (XInt z) else None | _ => None end
    | TF32 => match j with JFloat x => Some (XF32 (f32_of_f64 x)) | JInt z => Some (XF32 (f32_of_int z)) | _ => None end
    | TOpt t' => match j with JNull => Some (XOpt None) | _ => option_map (fun v => XOpt (Some v)) (read_json t' j) end
    | TVec t' => match j with JArr l => option_map XVec (all_some (read_json t') l) | _ => None end
    | TObj fs =>
        match j with
        | JObj m =>
            option_map XObj ((fix go (fs : list (string * (jty * option jval))) : option (list jval) :=
              match fs with
              | [] => Some []
              | (k, (t', d)) :: fs' =>
                  match match jvalues k m with [] => missing t' d | [j'] => read_json t' j' | _ => None end, go fs' with
                  | Some v, Some vs => Some (v :: vs)
                  | _, _ => None
                  end
              end) fs)
        | JArr l =>
            if rows then
              option_map XObj ((fix pos (fs : list (string * (jty * option jval))) (l : list json) : option (list jval) :=
                match fs with
                | [] => match l with [] => Some [] | _ => None end
                | (_, (t', d)) :: fs' =>
                    match match l with [] => d | j' :: _ => read_json t' j' end, pos fs' (tl l) with
                    | Some v, Some vs => Some (v :: vs)
                    | _, _ => None
                    end
                end) fs l)
            else None
        | _ => None
        end
    end.
End Read.
Notation from_value := (read_json true).

(** ** The structs *)
Definition TU32 : jty := TInt 0 (two32 - 1).
Definition TU16 : jty := TInt 0 65535.
Definition TI64 : jty := TInt (- two63) (two63 - 1).
Definition fld (k : string) (t : jty) : string * (jty * option jval) := (k, (t, None)).
Definition dfl (k : string) (t : jty) (d : jval) : string * (jty * option jval) := (k, (t, Some d)).
(** mod.rs:80-98 *)
Definition j_Meta : jty := TObj [fld "@name" TStr; fld "@tooltip" TStr; fld "@icon" (TOpt TStr); fld "@race" (TOpt TStr); fld "@hotkey" (TOpt TStr);
  fld "@source" (TOpt TStr); fld "@index" (TOpt TU32); fld "@type" (TOpt TStr)].
(** mod.rs:102-110 *)
Definition j_Life : jty := TObj [fld "@start" TU32; fld "@max" TU32; fld "@regenRate" (TOpt TF32)].
(** mod.rs:114-124 *)
Definition j_Shields : jty := TObj [fld "@start" TU32; fld "@max" TU32; fld "@regenRate" TF32; dfl "@delay" (TOpt TF32) (XOpt None)].
(** mod.rs:128-134 [Armor] and 213-220 [ShieldArmor] *)
Definition j_Armor : jty := TObj [fld "@start" TU32; fld "@max" TU32].
(** mod.rs:139-146 *)
Definition j_UnitShortRef : jty := TObj [fld "@id" TStr; fld "@name" TStr].
(** mod.rs:178-194 *)
Definition j_Cost : jty := TObj [fld "@minerals" (TOpt TU32); fld "@vespene" (TOpt TU32); fld "@supply" (TOpt TF32); fld "@time" (TOpt TF32);
  fld "@energy" (TOpt TU32); fld "@cooldown" (TOpt TF32); fld "@life" (TOpt TU32)].
(** A tag with a list inside (mod.rs:417-480), and its default. *)
Definition j_tag (k : string) (t : jty) : jty := TObj [dfl k (TVec t) (XVec [])].
Definition empty_tag : jval := XObj [XVec []].
(** mod.rs:153-174 *)
Definition j_UnitRef : jty := TObj [fld "@id" TStr; fld "@name" (TOpt TStr); fld "@ability" (TOpt TU16); fld "@index" (TOpt TI64); fld "meta" (TOpt j_Meta);
  fld "cost" (TOpt j_Cost); dfl "requires" (j_tag "unit" j_UnitShortRef) empty_tag].
(** mod.rs:198-210 *)
Definition j_Movement : jty := TObj [fld "@type" TStr; fld "@speed" TF32; fld "@acceleration" TF32; fld "@deceleration" TF32; dfl "@turnRate" (TOpt TF32) (XOpt None)].
(** mod.rs:224-230 *)
Definition j_Score : jty := TObj [fld "@build" (TOpt TU32); fld "@kill" (TOpt TU32)].
(** mod.rs:234-256 *)
Definition j_Misc : jty := TObj [fld "@radius" (TOpt TF32); fld "@cargoSize" (TOpt TU32); fld "@footprint" (TOpt TStr); fld "@sightRadius" (TOpt TF32);
  fld "@supply" (TOpt TF32); fld "@range" (TOpt TF32); fld "@speed" (TOpt TF32); fld "@targets" (TOpt TStr); fld "@count" (TOpt TU32); fld "@cargoCapacity" (TOpt TU32)].
(** mod.rs:260-266 *)
Definition j_Producer : jty := TObj [fld "@id" TStr; fld "@name" TStr].
(** mod.rs:270-278 *)
Definition j_EffectBonus : jty := TObj [fld "@damage" TU32; fld "@max" TU32; fld "@type" (TOpt TStr)].
(** mod.rs:292-310 *)
Definition j_Effect : jty := TObj [fld "@id" TStr; fld "@index" TU32; fld "@radius" TF32; fld "@damage" TU32; fld "@max" TU32; fld "@death" TStr; fld "@kind" TStr;
  fld "bonus" (TOpt j_EffectBonus)].
(** mod.rs:314-323 *)
Definition j_Weapon : jty := TObj [fld "@id" TStr; fld "@index" TU32; fld "meta" j_Meta; fld "misc" (TOpt j_Misc); fld "score" (TOpt j_Effect)].
(** mod.rs:327-331 *)
Definition j_Attribute : jty := TObj [fld "@type" (TOpt TStr)].
(** mod.rs:335-344 *)
Definition j_Command : jty := TObj [dfl "@id" (TOpt TStr) (XOpt None); fld "@index" TI64; fld "meta" j_Meta].
(** mod.rs:348-357 *)
Definition j_Ability : jty := TObj [fld "@id" TStr; fld "@index" (TOpt TU16); dfl "command" (TVec j_Command) (XVec [])].
(** mod.rs:360-367 *)
Definition j_UpgradeRef : jty := TObj [dfl "@id" TStr (XStr ""); fld "@name" TStr].
(** mod.rs:371-377 *)
Definition j_UpgradeLevelRequirement : jty := TObj [dfl "unit" (TVec j_UnitShortRef) (XVec []); dfl "upgrade" (TVec j_UpgradeRef) (XVec [])].
(** mod.rs:381-392 *)
Definition j_UpgradeLevel : jty := TObj [dfl "@id" TStr (XStr ""); dfl "@index" TU32 (XInt 0); fld "meta" j_Meta; dfl "requires" (TVec j_UpgradeLevelRequirement) (XVec []); fld "cost" j_Cost].
(** mod.rs:396-402 *)
Definition j_Upgrade : jty := TObj [fld "@id" TStr; dfl "level" (TVec j_UpgradeLevel) (XVec [])].
(** mod.rs:405-415 *)
Definition j_ResearchUpgrade : jty := TObj [fld "@id" TStr; fld "@ability" TU16; fld "@index" TI64; fld "meta" j_Meta; fld "cost" j_Cost].
(** mod.rs:486-524 [VersionedBalanceUnit].  [version] is skipped by [serde]: it
    is 0 in every unit read and no code sets it, so it is left out. *)
Definition j_unit : jty := TObj [
  fld "@id" TStr; fld "meta" j_Meta; fld "life" j_Life; dfl "shields" (TOpt j_Shields) (XOpt None); fld "armor" j_Armor; fld "shieldArmor" j_Armor;
  dfl "requires" (j_tag "unit" j_UnitShortRef) empty_tag; fld "cost" (TOpt j_Cost); dfl "researches" (TOpt (j_tag "upgrade" j_ResearchUpgrade)) (XOpt None);
  dfl "movement" (TOpt j_Movement) (XOpt None); fld "score" j_Score; fld "misc" j_Misc; dfl "producer" (TOpt j_Producer) (XOpt None);
  dfl "attributes" (j_tag "attribute" j_Attribute) empty_tag; dfl "strengths" (j_tag "unit" j_UnitShortRef) empty_tag; dfl "weaknesses" (j_tag "unit" j_UnitShortRef) empty_tag;
  dfl "weapons" (j_tag "weapon" j_Weapon) empty_tag; dfl "abilities" (j_tag "ability" j_Ability) empty_tag; dfl "builds" (j_tag "unit" j_UnitRef) empty_tag;
  dfl "trains" (j_tag "unit" j_UnitRef) empty_tag; dfl "upgrades" (j_tag "upgrade" j_Upgrade) empty_tag].
