(** * What the JSON of a definition describes, for the byte-aligned module

    As GenJsonSpec.v: [ydescribed_decl su mods d t] says that the declaration
    [d] of the document describes the type [t] (ByteGen.v's [ytype], whose format
    on the wire is [yenc], ByteGenSpec.v). *)
From Coq Require Import Ascii DecimalString DecimalZ.
From Verif Require Import Base BalanceJson Types Generator ByteGen ByteGenSpec GenerateRun GenerateSpec GenJson GenJsonSpec ByteJson.
#[local] Open Scope string_scope.
#[local] Open Scope Z_scope.
#[local] Open Scope list_scope.

(** The declarations of the document, and those of the byte-aligned module. *)
Definition all_decls (mods : list json) : list json := map snd (walk mods).
Definition declared_bytes (mods : list json) : list json := filter (fun d => negb (is_const d)) (wanted_of ByteAligned mods).

(** The least and the greatest value, of bounds that are values or just not. *)
Definition bounded_by (j : json) (by_one : Z) (v : Z) : Prop :=
  at_key "evalue" j = JStr (whole v) /\ at_key "inclusive" j = JBool true \/
  at_key "evalue" j = JStr (whole (v + by_one)) /\ at_key "inclusive" j = JBool false.
Definition between (j : json) (lo hi : Z) : Prop := bounded_by (at_key "min" j) (-1) lo /\ bounded_by (at_key "max" j) 1 hi.
(** The number of a field; one that has none has no [tag]. *)
Definition field_tag (f : json) (tag : option Z) : Prop :=
  match tag with Some z => int_literal (at_key "tag" f) z | None => at_key "tag" f = JNull end.
Definition a_list (j : json) : Prop := at_key "type" j = JStr "ArrayType" \/ at_key "type" j = JStr "DynArrayType".

Section ByteDescribed.
  Variable su : surroundings.
  Variable mods : list json.

  Inductive ydescribed : json -> ytype -> Prop :=
  | yis_int j sort lo hi : In sort ["IntType"; "InumType"] -> in_place j sort -> between (at_key "bounds" j) lo hi -> ydescribed j (YInt lo hi)
  | yis_blob j : in_place j "BlobType" -> ydescribed j YBlob
  | yis_string j : in_place j "StringType" -> ydescribed j YString
  | yis_ascii j : in_place j "AsciiStringType" -> ydescribed j YAscii
  | yis_bit_array j : in_place j "BitArrayType" -> ydescribed j YBitArray
  | yis_bool j : in_place j "BoolType" -> ydescribed j YBool
  | yis_fourcc j : in_place j "FourCCType" -> ydescribed j YFourcc
  | yis_null j : in_place j "NullType" -> ydescribed j YNull
  | yis_array j dyn t : in_place j (if dyn : bool then "DynArrayType" else "ArrayType") ->
      ydescribed (at_key "element_type" j) t -> ydescribed j (YArray dyn t)
  | yis_option j t : in_place j "OptionalType" -> ydescribed (at_key "type_info" j) t -> ydescribed j (YOpt t)
  (** A name, of a declaration anywhere in the document.  The types the module
      has decoders of its own for must be declared in it, and the players'
      details are an array. *)
  | yis_name j name d t : at_key "type" j = JStr "UserType" -> at_key "fullname" j = JStr name -> String.prefix "NNet" name = true ->
      In d (all_decls mods) -> at_key "fullname" d = JStr name -> ydescribed_decl d t ->
      (In name ("NNet.Game.CPlayerDetailsArray" :: own_names) -> In d (declared_bytes mods)) ->
      (name = "NNet.Game.CPlayerDetailsArray" -> exists dyn t', t = YArray dyn (YUser "NNet.Game.SPlayerDetails" t')) ->
      ydescribed j (YUser name t)
  | yis_choice j l vs : in_place j "ChoiceType" -> at_key "fields" j = JArr l -> ydescribed_variants l vs -> ydescribed j (YChoice vs)
  | yis_fields j l consts fs : in_place j "StructType" -> at_key "fields" j = JArr l -> ydescribed_fields l consts fs -> ydescribed j (YStruct consts fs)
  with ydescribed_variants : list json -> list (Z * string * ytype) -> Prop :=
  | yno_variant : ydescribed_variants [] []
  | yone_more_variant v l z name t vs : at_key "name" v = JStr name -> int_literal (at_key "tag" v) z ->
      ydescribed (at_key "type_info" v) t -> ydescribed_variants l vs -> ydescribed_variants (v :: l) ((z, name, t) :: vs)
  (** The fields of a struct, and how many constants are among them. *)
  with ydescribed_fields : list json -> nat -> list (string * option Z * ytype) -> Prop :=
  | yno_field : ydescribed_fields [] 0%nat []
  | ya_constant f l n fs : at_key "type" f = JStr "ConstDecl" -> at_key "tag" f = JNull ->
      as_text (at_key "fullname" (at_key "type_info" f)) <> None \/ as_text (at_key "type" (at_key "type_info" f)) <> None ->
      ydescribed_fields l n fs -> ydescribed_fields (f :: l) (Datatypes.S n) fs
  | yone_more_field f l name tag t n fs : at_key "type" f = JStr "MemberStructField" -> at_key "name" f = JStr name -> field_tag f tag ->
      ydescribed (at_key "type_info" f) t -> ydescribed_fields l n fs -> ydescribed_fields (f :: l) n ((name, tag, t) :: fs)
  (** A declaration.  An array that the module has a decoder for has elements
      that it has a decoder for. *)
  with ydescribed_decl : json -> ytype -> Prop :=
  | yis_type d t : at_key "type" (at_key "type_info" d) <> JStr "EnumType" -> (a_list (at_key "type_info" d) -> ~ In d (declared_bytes mods)) ->
      ydescribed (at_key "type_info" d) t -> ydescribed_decl d t
  | yis_list d dyn name e t : in_place (at_key "type_info" d) (if dyn : bool then "DynArrayType" else "ArrayType") ->
      at_key "type" (at_key "element_type" (at_key "type_info" d)) = JStr "UserType" ->
      at_key "fullname" (at_key "element_type" (at_key "type_info" d)) = JStr name -> String.prefix "NNet" name = true ->
      In e (declared_bytes mods) -> at_key "fullname" e = JStr name -> ydescribed_decl e t -> ydescribed_decl d (YArray dyn (YUser name t))
  | yis_enum d l vs : in_place (at_key "type_info" d) "EnumType" -> at_key "fields" (at_key "type_info" d) = JArr l ->
      ydescribed_ids (rust_name su (su_show su (at_key "fullname" d))) l vs -> (forall v, In v vs -> snd v = None) -> ydescribed_decl d (YEnum (map fst vs))
  | yis_events d l vs : in_place (at_key "type_info" d) "EnumType" -> at_key "fields" (at_key "type_info" d) = JArr l ->
      ydescribed_ids (rust_name su (su_show su (at_key "fullname" d))) l vs -> (exists v, In v vs /\ snd v <> None) -> ydescribed_decl d (YEvents vs)
  with ydescribed_ids : string -> list json -> list (Z * string * option ytype) -> Prop :=
  | yno_id enum : ydescribed_ids enum [] []
  | ybare_id enum v l z name vs : at_key "name" v = JStr name -> int_literal (at_key "value" v) z ->
      struct_for su mods (enum ++ "::" ++ rust_name su name)%string = None ->
      ydescribed_ids enum l vs -> ydescribed_ids enum (v :: l) ((z, name, None) :: vs)
  | yid_of_struct enum v l z name s d t vs : at_key "name" v = JStr name -> int_literal (at_key "value" v) z ->
      struct_for su mods (enum ++ "::" ++ rust_name su name)%string = Some s ->
      In d (declared_bytes mods) -> jg_name su d = s -> ydescribed_decl d t ->
      ydescribed_ids enum l vs -> ydescribed_ids enum (v :: l) ((z, name, Some t) :: vs).
End ByteDescribed.

(** The texts of the decoders (decoder_type.rs) are written unless the reading
    modelled in ByteJson.v stops the generator. *)
Definition byte_stops_as_read (su : surroundings) : Prop := forall num d unit name,
  at_key "type" (at_key "type_info" d) = JStr unit -> unit <> "EnumType" -> su_body su ByteAligned num d unit name <> None ->
  yj_decl su (fun _ => None) (fun _ => None) d <> Panic.
(** The texts of the decoders hold ten names; the case of names has to be changed
    to what they spell (src/generator/decoder_type.rs:125-237). *)
Definition spelled_out : list (string * string) := [
  ("NNet.SVersion", "SVersion"); ("NNet.SMD5", "Smd5"); ("NNet.EObserve", "EObserve"); ("NNet.Game.EResultDetails", "GameEResultDetails");
  ("NNet.Replay.Tracker.SPlayerStats", "ReplayTrackerSPlayerStats"); ("NNet.Game.SPlayerDetails", "GameSPlayerDetails");
  ("NNet.Game.SThumbnail", "GameSThumbnail"); ("NNet.Game.EGameSpeed", "GameEGameSpeed");
  ("NNet.Game.SToonNameDetails", "GameSToonNameDetails"); ("NNet.Game.SColor", "GameSColor")].
Definition names_as_in_table (su : surroundings) : Prop := forall n r, In (n, r) spelled_out -> rust_name su n = r.

Scheme ydescribed_rec := Minimality for ydescribed Sort Prop
with ydescribed_variants_rec := Minimality for ydescribed_variants Sort Prop
with ydescribed_fields_rec := Minimality for ydescribed_fields Sort Prop
with ydescribed_decl_rec := Minimality for ydescribed_decl Sort Prop
with ydescribed_ids_rec := Minimality for ydescribed_ids Sort Prop.
Combined Scheme ydescribed_all from ydescribed_rec, ydescribed_variants_rec, ydescribed_fields_rec, ydescribed_decl_rec, ydescribed_ids_rec.
