(** * From the JSON of a definition to the byte-aligned decoders

    The reading that GenJson.v has for the bit-packed decoders, for those of the
    module [byte_aligned]: src/generator/decoder_type.rs and
    src/generator/proto_morphist.rs:382-557.  The decoders are those of
    ByteGen.v; what is left to a touch of hand work is read as it is there.  A
    type is referred to by its Rust name; the table of conversions is that of
    ByteGen.v, with the Rust names its texts hold.

    [Ok None] is a text that is no Rust; [Panic] stops the generator. *)
From Coq Require Import Ascii DecimalString DecimalZ.
From Verif Require Import Base BalanceJson Types Versioned Generator ByteGen GenerateRun GenJson.
#[local] Open Scope string_scope.
#[local] Open Scope Z_scope.
#[local] Open Scope list_scope.

(** The names in the texts [Type::parse] of src/generator/decoder_type.rs:125-237,
    by the names of their types. *)
Definition table_names : list (string * string) := [
  ("NNet.SVersion", "SVersion"); ("NNet.SMD5", "Smd5"); ("NNet.EObserve", "EObserve"); ("NNet.Game.EResultDetails", "GameEResultDetails");
  ("NNet.Replay.Tracker.SPlayerStats", "ReplayTrackerSPlayerStats"); ("NNet.Game.SPlayerDetails", "GameSPlayerDetails");
  ("NNet.Game.SThumbnail", "GameSThumbnail"); ("NNet.Game.EGameSpeed", "GameEGameSpeed");
  ("NNet.Game.SToonNameDetails", "GameSToonNameDetails"); ("NNet.Game.SColor", "GameSColor")].
Definition table_name_of (n : string) : option string := option_map snd (find (fun e => String.eqb (fst e) n) table_names).

Section ByteReading.
  Variable su : surroundings.
  (** The decoders of the module, by the Rust names of their types. *)
  Variable refs : string -> option ycode.

  (** The decoder that the text of a parser stands for. *)
  Definition yj_parser (p : yparser) : option ycode :=
    match p with
    | PInt t => Some (CInt t)
    | PFourcc => Some CFourcc
    | PBlob => Some CBlob
    | PBool => Some CBool
    | PNamed n => match table_name_of n with Some r => refs r | None => None end
    | PHole => None
    end.

  (** The elements of an array inside a struct: decoder_type.rs:488-498, 533-538;
      a list of lists is not what the text reads. *)
  Definition yj_element (ti : json) : outcome (option ycode) :=
    do n <- or_panic (as_text (at_key "fullname" (at_key "element_type" ti)));
    do mo <- from_nnet_name n;
    Ok (if mo_vec mo then None else yj_parser (mo_parser mo)).
  (** What an optional holds: decoder_type.rs:482-528, 611-643; [ti] is
      [type_info.type_info]. *)
  Definition yj_optional (ti : json) : outcome (option (finit * ycode)) :=
    if GenerateRun.is_text "ArrayType" (at_key "type" ti) then
      do k <- yj_element ti; Ok (option_map (fun k => (InitSomeNone, COpt (CArray k))) k)
    else
      do n <- jg_sort ti;
      do mo <- from_nnet_name n;
      Ok (option_map (fun k => (InitSomeNone, COpt (vec_code (mo_vec mo) k))) (yj_parser (mo_parser mo))).
  (** How a field starts, and its decoder: decoder_type.rs:469-660. *)
  Definition yj_field (ti : json) : outcome (option (finit * ycode)) :=
    do sort <- jg_sort ti;
    do mo <- from_nnet_name sort;
    if String.eqb sort "OptionalType" then yj_optional (at_key "type_info" ti)
    else if String.eqb sort "ArrayType" then do k <- yj_element ti; Ok (option_map (fun k => (InitNone, CArray k)) k)
    else Ok (option_map (fun k => (if mo_opt mo then InitSomeNone else InitNone, vec_code (mo_vec mo) k)) (yj_parser (mo_parser mo))).

  (** The loop of src/generator/decoder_type.rs:451-661
      [gen_byte_aligned_proto_struct_code] when the fields have tags; the fields
      keep their names, as in GenJson.v. *)
  Fixpoint yj_fields (fs : list json) : outcome (option (list (fld ycode))) :=
    match fs with
    | [] => Ok (Some [])
    | f :: fs' =>
        do member <- or_panic (as_text (at_key "type" f));
        do sort <- jg_sort (at_key "type_info" f);
        if String.eqb member "ConstDecl" then yj_fields fs'
        else if negb (String.eqb member "MemberStructField") then Panic
        else
          do name <- or_panic (as_text (at_key "name" f));
          do k <- yj_field (at_key "type_info" f);
          do tag <- or_panic (as_text (at_key "value" (at_key "tag" f)));
          if negb (GenerateRun.is_text "IntLiteral" (at_key "type" (at_key "tag" f))) then Panic
          else
            do ks <- yj_fields fs';
            Ok match whole_in tag, k, ks with
               | Some z, Some (i, k), Some ks => Some (mkfld name z z i FinReq k :: ks)
               | _, _, _ => None
               end
    end.
  (** The same for its only entry when that has no tag (435). *)
  Definition yj_bare (f : json) : outcome (option ycode) :=
    do member <- or_panic (as_text (at_key "type" f));
    do sort <- jg_sort (at_key "type_info" f);
    if String.eqb member "ConstDecl" then Ok (Some (CBare None))
    else if negb (String.eqb member "MemberStructField") then Panic
    else
      do name <- or_panic (as_text (at_key "name" f));
      do k <- yj_field (at_key "type_info" f);
      Ok (option_map (fun k => CBare (Some (name, snd k))) k).
  Definition yj_struct (fs : list json) : outcome (option ycode) :=
    let tagged := do ks <- yj_fields fs; Ok (option_map CStruct ks) in
    match fs with
    | [f] => match at_key "tag" f with JNull => yj_bare f | _ => tagged end
    | _ => tagged
    end.

  (** The decoder of a variant: decoder_type.rs:1005-1054.  The text inside an
      optional is [Value::to_string] of a type, in quotes. *)
  Definition yj_variant (ti : json) : outcome (option ycode) :=
    do sort <- jg_sort ti;
    do mo <- from_nnet_name sort;
    Ok (if String.eqb sort "OptionalType" then None else if mo_vec mo then None else yj_parser (mo_parser mo)).
  (** The loop of src/generator/decoder_type.rs:999-1056
      [gen_byte_aligned_proto_choice_code]. *)
  Fixpoint yj_variants (vs : list json) : outcome (option (list (Z * string * ycode))) :=
    match vs with
    | [] => Ok (Some [])
    | v :: vs' =>
        if GenerateRun.is_text "NullType" (at_key "type" (at_key "type_info" v)) then yj_variants vs'
        else
          do name <- or_panic (as_text (at_key "name" v));
          do k <- yj_variant (at_key "type_info" v);
          do tag <- or_panic (as_text (at_key "value" (at_key "tag" v)));
          if negb (GenerateRun.is_text "IntLiteral" (at_key "type" (at_key "tag" v))) then Panic
          else
            do ks <- yj_variants vs';
            Ok match whole_in tag, k, ks with Some z, Some k, Some ks => Some ((z, name, k) :: ks) | _, _, _ => None end
    end.

  (** An enum of Rust whose variants all are bare, or one with contents. *)
  Definition yj_enum_code (l : list (Z * string * option ycode)) : ycode :=
    if forallb (fun x => match snd x with None => true | Some _ => false end) l
    then CEnum (map fst l)
    else CChoice INT_TAG (map (fun x => (fst x, match snd x with Some k => k | None => CUnit end)) l).

  (** Model of src/generator/proto_morphist.rs:388-557 [gen_proto_code] for the
      byte-aligned decoders, after the check for constants. *)
  Definition yj_decl (tags : string -> option string) (d : json) : outcome (option ycode) :=
    let ti := at_key "type_info" d in
    do unit <- or_panic (as_text (at_key "type" ti));
    let fields := or_panic (as_list (at_key "fields" ti)) in
    if String.eqb unit "StructType" then do fs <- fields; yj_struct fs
    else if String.eqb unit "ChoiceType" then do vs <- fields; do ks <- yj_variants vs; Ok (option_map (CChoice CHOICE_TAG) ks)
    else if String.eqb unit "EnumType" then
      do vs <- fields; do ks <- jg_enum su refs tags (rust_name su (su_show su (at_key "fullname" d))) vs; Ok (option_map yj_enum_code ks)
    else if existsb (String.eqb unit) ["IntType"; "InumType"] then Ok (Some (CInt II64))
    else if existsb (String.eqb unit) ["ArrayType"; "DynArrayType"] then
      do n <- or_panic (as_text (at_key "fullname" (at_key "element_type" ti)));
      Ok (option_map CArray (refs (rust_name su n)))
    else Panic.
End ByteReading.

(** The decoder of a type of the module, its names followed [n] times; [ds] are
    the declarations of the module. *)
Fixpoint byte_module_code (su : surroundings) (tags : string -> option string) (ds : list json) (n : nat) (name : string) : option ycode :=
  match n with
  | O => None
  | Datatypes.S n' =>
      match filter (fun d => String.eqb (jg_name su d) name) ds with
      | [d] => match yj_decl su (byte_module_code su tags ds n') tags d with Ok k => k | _ => None end
      | _ => None
      end
  end.
