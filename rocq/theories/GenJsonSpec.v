(** * What the JSON of a definition describes: specification

    [described_decl su mods d t]: the declaration [d] of the document describes
    the type [t] (Generator.v's [ntype], whose format on the wire is [layout],
    GeneratorSpec.v).  Names stand for the declarations of the bit-packed module
    that carry them. *)
From Coq Require Import Ascii DecimalString DecimalZ.
From Verif Require Import Base BalanceJson Generator GenerateRun GenerateSpec GenJson.
#[local] Open Scope string_scope.
#[local] Open Scope Z_scope.
#[local] Open Scope list_scope.

(** The decimal text of a whole number. *)
Definition whole (z : Z) : string := NilZero.string_of_int (Z.to_int z).

(** The declarations of the bit-packed module: the wanted ones but for constants. *)
Definition declared (mods : list json) : list json := filter (fun d => negb (is_const d)) (wanted_of BitPacked mods).

Definition bounded (j : json) (b : bounds) : Prop :=
  let value := at_key "value" (at_key "max" j) in
  at_key "type" j = JStr (if b_exact b then "ExactConstraint" else "MinMaxConstraint") /\
  at_key "evalue" (at_key "min" j) = JStr (whole (b_min b)) /\ at_key "inclusive" (at_key "min" j) = JBool (b_min_incl b) /\
  at_key "evalue" (at_key "max" j) = JStr (whole (b_max b)) /\ at_key "inclusive" (at_key "max" j) = JBool (b_max_incl b) /\
  match b_expr b with
  | Lit => as_text (at_key "value" (at_key "rhs" value)) = None
  | Pow n => at_key "value" (at_key "rhs" value) = JStr (whole (Z.of_nat n)) /\ at_key "type" value = JStr "PowExpr"
  | OtherExpr => as_text (at_key "value" (at_key "rhs" value)) <> None /\ at_key "type" value <> JStr "PowExpr"
  end.

(** A type written in place, of this sort. *)
Definition in_place (j : json) (sort : string) : Prop := at_key "type" j = JStr sort /\ as_text (at_key "fullname" j) = None.
Definition int_literal (j : json) (z : Z) : Prop := at_key "type" j = JStr "IntLiteral" /\ at_key "value" j = JStr (whole z).

Section Described.
  Variable su : surroundings.
  Variable mods : list json.

  (** The [type_info] of a declaration, a field, a variant; [element_type]. *)
  Inductive described : json -> ntype -> Prop :=
  | is_int j b : in_place j "IntType" -> bounded (at_key "bounds" j) b -> described j (NInt b)
  | is_inum j b : in_place j "InumType" -> bounded (at_key "bounds" j) b -> described j (NInum b)
  | is_bit_array j b : in_place j "BitArrayType" -> bounded (at_key "bounds" j) b -> described j (NBitArray b)
  | is_blob j b : in_place j "BlobType" -> bounded (at_key "bounds" j) b -> described j (NBlob b)
  | is_string j b : in_place j "StringType" -> bounded (at_key "bounds" j) b -> described j (NString b)
  | is_ascii j b : in_place j "AsciiStringType" -> bounded (at_key "bounds" j) b -> described j (NAscii b)
  | is_array j dyn b t : in_place j (if dyn : bool then "DynArrayType" else "ArrayType") -> bounded (at_key "bounds" j) b ->
      described (at_key "element_type" j) t -> described j (NArray dyn b t)
  | is_bool j : in_place j "BoolType" -> described j NBool
  | is_fourcc j : in_place j "FourCCType" -> described j NFourcc
  | is_null j : in_place j "NullType" -> described j NNull
  | is_option j t : in_place j "OptionalType" -> described (at_key "type_info" j) t -> described j (NOpt t)
  | is_name j name d t : at_key "type" j = JStr "UserType" -> at_key "fullname" j = JStr name -> String.prefix "NNet" name = true ->
      In d (declared mods) -> at_key "fullname" d = JStr name -> described_decl d t -> described j (NUser t)
  | is_choice j l vs : in_place j "ChoiceType" -> at_key "fields" j = JArr l -> described_variants l vs -> described j (NChoice vs)
  | is_fields j l fs : in_place j "StructType" -> at_key "fields" j = JArr l -> described_fields l fs -> described j (NStruct fs)
  (** The variants of a choice: their tags, names and types. *)
  with described_variants : list json -> list (Z * string * ntype) -> Prop :=
  | no_variant : described_variants [] []
  | one_more_variant v l z name t vs : at_key "name" v = JStr name -> int_literal (at_key "tag" v) z ->
      described (at_key "type_info" v) t -> described_variants l vs -> described_variants (v :: l) ((z, name, t) :: vs)
  (** The fields of a struct; its constants are no part of it, and the choice
      that is its event data has a declaration of its own. *)
  with described_fields : list json -> list (string * ntype) -> Prop :=
  | no_field : described_fields [] []
  | a_constant f l fs : at_key "type" f = JStr "ConstDecl" ->
      as_text (at_key "fullname" (at_key "type_info" f)) <> None \/ as_text (at_key "type" (at_key "type_info" f)) <> None ->
      described_fields l fs -> described_fields (f :: l) fs
  | one_more_field f l name t fs : at_key "type" f = JStr "MemberStructField" -> at_key "name" f = JStr name -> at_key "bounds" f = JNull ->
      (name = "m_eventData" -> at_key "type" (at_key "type_info" f) = JStr "ChoiceType" -> In f (declared mods) /\ at_key "fullname" f = JNull) ->
      described (at_key "type_info" f) t -> described_fields l fs -> described_fields (f :: l) ((name, t) :: fs)
  (** A declaration.  The variants of an enum may be event ids of structs. *)
  with described_decl : json -> ntype -> Prop :=
  | is_type d t : at_key "type" (at_key "type_info" d) <> JStr "EnumType" -> described (at_key "type_info" d) t -> described_decl d t
  | is_enum d l vs : in_place (at_key "type_info" d) "EnumType" -> at_key "fields" (at_key "type_info" d) = JArr l ->
      described_ids (rust_name su (su_show su (at_key "fullname" d))) l vs -> (forall v, In v vs -> snd v = None) -> described_decl d (NEnum (map fst vs))
  | is_events d l vs : in_place (at_key "type_info" d) "EnumType" -> at_key "fields" (at_key "type_info" d) = JArr l ->
      described_ids (rust_name su (su_show su (at_key "fullname" d))) l vs -> (exists v, In v vs /\ snd v <> None) -> described_decl d (NEvents vs)
  with described_ids : string -> list json -> list (Z * string * option ntype) -> Prop :=
  | no_id enum : described_ids enum [] []
  | bare_id enum v l z name vs : at_key "name" v = JStr name -> int_literal (at_key "value" v) z ->
      struct_for su mods (enum ++ "::" ++ rust_name su name)%string = None ->
      described_ids enum l vs -> described_ids enum (v :: l) ((z, name, None) :: vs)
  | id_of_struct enum v l z name s d t vs : at_key "name" v = JStr name -> int_literal (at_key "value" v) z ->
      struct_for su mods (enum ++ "::" ++ rust_name su name)%string = Some s ->
      In d (declared mods) -> jg_name su d = s -> described_decl d t ->
      described_ids enum l vs -> described_ids enum (v :: l) ((z, name, Some t) :: vs).
End Described.

(** The texts of the decoders (decoder_type.rs) are written unless the reading
    modelled in GenJson.v stops the generator. *)
Definition stops_as_read (su : surroundings) : Prop := forall num d unit name,
  at_key "type" (at_key "type_info" d) = JStr unit -> unit <> "EnumType" -> su_body su BitPacked num d unit name <> None ->
  jg_decl su (fun _ => None) (fun _ => None) d <> Panic.

Scheme described_rec := Minimality for described Sort Prop
with described_variants_rec := Minimality for described_variants Sort Prop
with described_fields_rec := Minimality for described_fields Sort Prop
with described_decl_rec := Minimality for described_decl Sort Prop
with described_ids_rec := Minimality for described_ids Sort Prop.
Combined Scheme described_all from described_rec, described_variants_rec, described_fields_rec, described_decl_rec, described_ids_rec.
