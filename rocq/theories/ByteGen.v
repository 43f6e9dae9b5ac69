(** * Model of the protocol code generator, byte-aligned half (src/generator)

    From a declaration of the JSON description ([ytype]) to the decoder that
    [s2protocol generate] writes for it in the module [byte_aligned]
    ([ycode], by [ygen]), and what that decoder does on the bytes of a file
    ([yrun]).  As in Generator the Rust text, the case of names and the log
    calls are left out, and a text that only needs a touch of hand work (the
    undefined names [variant_tag] and [proto_field_tag], a missing [return],
    [?] inside the closure of [map]) is read as the author intends it.  A
    reference by name carries the declaration it names ([YUser]). *)
From Verif Require Import Base Vlq Types Versioned Generator.
#[local] Open Scope string_scope.
#[local] Open Scope Z_scope.
#[local] Open Scope list_scope.

(** [.type_info] of a declaration, a field or a variant.  Bounds: the least
    and the greatest value of an integer; those of lengths are not looked at. *)
Inductive ytype : Type :=
| YInt (lo hi : Z)                                     (* IntType, InumType *)
| YBlob
| YString
| YAscii
| YBitArray
| YBool
| YFourcc
| YNull
| YArray (dyn : bool) (t : ytype)                      (* ArrayType; [dyn]: DynArrayType *)
| YOpt (t : ytype)                                     (* OptionalType *)
| YUser (name : string) (t : ytype)                    (* UserType, [.fullname] and what it stands for *)
| YEnum (vs : list (Z * string))
| YEvents (vs : list (Z * string * option ytype))      (* EnumType whose variants have structs tagged with them *)
| YChoice (vs : list (Z * string * ytype))
| YStruct (consts : nat) (fs : list (string * option Z * ytype)).  (* ConstDecls; name, [.tag.value] and type *)

(** The decoders written. *)
Inductive ycode : Type :=
| CInt (t : ity)
| CBlob
| CBool
| CFourcc
| CUnit                                                (* nothing is read *)
| COpt (k : ycode)
| CArray (k : ycode)
| CEnum (vs : list (Z * string))
| CChoice (tag : Z) (vs : list (Z * string * ycode))
| CStruct (fs : list (fld ycode))
| CBare (f : option (string * ycode)).                 (* a struct of at most one field, which has no tag *)

(** The parser in a conversion. *)
Inductive yparser : Type :=
| PInt (t : ity)                                       (* tagged_vlq_int and try_from *)
| PFourcc
| PBlob
| PBool
| PNamed (name : string)                               (* Type::parse, by the NNet name of the type *)
| PHole.                                               (* "{}" *)

Record ymorph : Type := mkmorph { mo_parser : yparser; mo_vec : bool; mo_opt : bool }.

(** Model of src/generator/decoder_type.rs:100-245 [byte_aligned_from_nnet_name].
    Besides the vectors noted, [rust_ty] is the type the parser gives. *)
Definition morph_table : list (list string * ymorph) := [
  (["NNet.uint8"; "NNet.Replay.EReplayType"; "NNet.uint6"; "NNet.Game.TPlayerId"; "NNet.Game.TControlId"; "NNet.Game.TTeamId";
    "NNet.Replay.Tracker.TUIntMiniBits"], mkmorph (PInt IU8) false false);
  (["NNet.uint32"; "NNet.uint14"; "NNet.uint22"; "NNet.Game.TDifficulty"; "NNet.Game.THandicap"], mkmorph (PInt IU32) false false);
  (["NNet.int32"; "NNet.Game.TFixedBits"], mkmorph (PInt II32) false false);
  (["NNet.SVersion"], mkmorph (PNamed "NNet.SVersion") false false);
  (["NNet.Game.TColorId"; "NNet.int64"], mkmorph (PInt II64) false false);
  (["NNet.uint64"], mkmorph (PInt IU64) false false);
  (["FourCCType"], mkmorph PFourcc false false);
  (["BlobType"; "NNet.Replay.CSignature"; "StringType"; "NNet.Replay.Tracker.CatalogName"; "NNet.Game.CCacheHandle"; "NNet.CFilePath";
    "NNet.CUserName"], mkmorph PBlob false false);
  (["BoolType"], mkmorph PBool false false);
  (["OptionalType"], mkmorph PHole false true);
  (["ArrayType"; "DynArrayType"; "NNet.CUserArchiveDataArray"; "NNet.CUserInitialDataArray"], mkmorph PHole true false);
  (["NNet.SMD5"], mkmorph (PNamed "NNet.SMD5") false false);
  (["NNet.EObserve"], mkmorph (PNamed "NNet.EObserve") false false);
  (["NNet.Game.EResultDetails"], mkmorph (PNamed "NNet.Game.EResultDetails") false false);
  (["NNet.Game.CCacheHandles"], mkmorph PBlob true false);
  (["NNet.Replay.Tracker.SPlayerStats"], mkmorph (PNamed "NNet.Replay.Tracker.SPlayerStats") false false);
  (["NNet.Game.CPlayerDetailsArray"], mkmorph (PNamed "NNet.Game.SPlayerDetails") true false);
  (["NNet.Game.SThumbnail"], mkmorph (PNamed "NNet.Game.SThumbnail") false false);
  (["NNet.Game.CModPaths"], mkmorph PBlob true false);
  (["NNet.Game.EGameSpeed"], mkmorph (PNamed "NNet.Game.EGameSpeed") false false);
  (["NNet.Game.SToonNameDetails"], mkmorph (PNamed "NNet.Game.SToonNameDetails") false false);
  (["NNet.Game.SColor"], mkmorph (PNamed "NNet.Game.SColor") false false)].

Fixpoint find_morph (l : list (list string * ymorph)) (n : string) : option ymorph :=
  match l with
  | [] => None
  | (ns, m) :: l' => if existsb (String.eqb n) ns then Some m else find_morph l' n
  end.

(** The last arm: [panic!("Unsupported type")]. *)
Definition from_nnet_name (n : string) : outcome ymorph :=
  match find_morph morph_table n with Some m => Ok m | None => Panic end.

(** [type_info.fullname], or [type_info.type] when there is none. *)
Definition type_name (t : ytype) : string :=
  match t with
  | YUser n _ => n
  | YInt _ _ => "IntType" | YBlob => "BlobType" | YString => "StringType" | YAscii => "AsciiStringType"
  | YBitArray => "BitArrayType" | YBool => "BoolType" | YFourcc => "FourCCType" | YNull => "NullType"
  | YArray dyn _ => if dyn then "DynArrayType" else "ArrayType"
  | YOpt _ => "OptionalType"
  | YEnum _ | YEvents _ => "EnumType" | YChoice _ => "ChoiceType" | YStruct _ _ => "StructType"
  end.

(** The decoder a conversion stands for, one value of it; [decl] is the
    decoder of the declaration that is called by [name], when known.  The
    placeholder is no Rust.  Simplified: the name [PNamed] of a conversion is
    looked up in the declaration at hand, other declarations of that name
    are not considered. *)
Definition parser_code (p : yparser) (name : string) (decl : outcome ycode) : outcome ycode :=
  match p with
  | PInt t => Ok (CInt t)
  | PFourcc => Ok CFourcc
  | PBlob => Ok CBlob
  | PBool => Ok CBool
  | PNamed n => if n =? name then decl else Err no_compile
  | PHole => Err no_compile
  end%string.

(** The name and the decoder of the declaration meant by [Type::parse] when
    the conversion of a named type is used: the type itself, or for
    conversions to a vector the elements of it. *)
Definition named_in (gen_decl : ytype -> outcome ycode) (vec : bool) (n : string) (t : ytype) : string * outcome ycode :=
  if vec then match t with YArray _ (YUser n' t') => (n', gen_decl t') | _ => ("", Err no_compile) end
  else (n, gen_decl t).

(** The conversion of a type in the place of a field or a variant, as the
    decoder of one value ([mo_parser]) and the two flags. *)
Definition convert (gen_decl : ytype -> outcome ycode) (t : ytype) : outcome (ycode * bool * bool) :=
  do mo <- from_nnet_name (type_name t);
  let nd := match t with YUser n t' => named_in gen_decl (mo_vec mo) n t' | _ => ("", Err no_compile) end in
  do k <- parser_code (mo_parser mo) (fst nd) (snd nd);
  Ok (k, mo_vec mo, mo_opt mo).

(** The element of an array in a field (490-502, 533-545): it must be named,
    and [Vec<Vec<_>>] is not what the text reads. *)
Definition element_code (gen_decl : ytype -> outcome ycode) (e : ytype) : outcome ycode :=
  match e with
  | YUser _ _ =>
      do (kv, _) <- convert gen_decl e;
      if (snd kv : bool) then Err no_compile else Ok (fst kv)
  | _ => Panic
  end.

Definition vec_code (vec : bool) (k : ycode) : ycode := if vec then CArray k else k.

(** Model of one round of the loop in src/generator/decoder_type.rs:423-660
    [gen_byte_aligned_proto_struct_code]: how a field starts and its decoder.
    The text reads an optional before it looks at vectors. *)
Definition field_code (gen_decl : ytype -> outcome ycode) (t : ytype) : outcome (finit * ycode) :=
  match t with
  | YOpt (YArray false e) => do k <- element_code gen_decl e; Ok (InitSomeNone, COpt (CArray k))
  | YOpt e => do (kv, _) <- convert gen_decl e; Ok (InitSomeNone, COpt (vec_code (snd kv) (fst kv)))
  | YArray false e => do k <- element_code gen_decl e; Ok (InitNone, CArray k)
  | _ =>
      do (kv, opt) <- convert gen_decl t;
      Ok (if (opt : bool) then InitSomeNone else InitNone, vec_code (snd kv) (fst kv))
  end.

(** Model of one round of the loop in src/generator/decoder_type.rs:989-1055
    [gen_byte_aligned_proto_choice_code]: the type named inside an optional is
    used as the parser, and [is_vec] is not looked at. *)
Definition variant_code (gen_decl : ytype -> outcome ycode) (t : ytype) : outcome ycode :=
  match t with
  | YOpt _ => Err no_compile
  | _ =>
      do (kv, _) <- convert gen_decl t;
      if (snd kv : bool) then Err no_compile else Ok (fst kv)
  end.

(** The field of a struct whose fields have tags: [field["tag"]["value"]] is
    unwrapped. *)
Definition tagged_field (n : string) (tag : option Z) (r : outcome (finit * ycode)) : outcome (fld ycode) :=
  do (i, k) <- r;
  match tag with
  | Some z => Ok (mkfld n z z i FinReq k)
  | None => Panic
  end.

(** Model of src/generator/proto_morphist.rs:382-556 [gen_proto_code] for the
    byte-aligned decoders; the texts are in src/generator/decoder_type.rs:26-40,
    423-670 (structs), 315-334 and 989-1066 (choices), 1187-1207 (integers),
    1537-1557 (arrays), 1573-1592 and 1644-1695 (enums).  A struct has tags
    unless its only entry has none (435).  The element type of an array is a
    name ([unwrap]); user types stop the generator at 1870, the others at
    1388, 1429, 1561 and proto_morphist.rs:614. *)
Fixpoint ygen (t : ytype) {struct t} : outcome ycode :=
  match t with
  | YInt _ _ => Ok (CInt II64)
  | YArray _ (YUser _ t') => do k <- ygen t'; Ok (CArray k)
  | YEnum vs => Ok (CEnum vs)
  | YEvents vs =>
      do ks <- (fix go (l : list (Z * string * option ytype)) : outcome (list (Z * string * ycode)) :=
        match l with
        | [] => Ok []
        | (n, o) :: l' =>
            do k <- match o with Some t' => ygen t' | None => Ok CUnit end;
            do ks <- go l'; Ok ((n, k) :: ks)
        end) vs;
      Ok (CChoice INT_TAG ks)
  | YChoice vs =>
      do ks <- (fix go (l : list (Z * string * ytype)) : outcome (list (Z * string * ycode)) :=
        match l with
        | [] => Ok []
        | (n, t') :: l' =>
            match t' with
            | YNull => go l'
            | _ => do k <- variant_code ygen t'; do ks <- go l'; Ok ((n, k) :: ks)
            end
        end) vs;
      Ok (CChoice CHOICE_TAG ks)
  | YStruct consts fs =>
      match consts, fs with
      | 1%nat, [] => Ok (CBare None)
      | 0%nat, [(n, None, t')] => do (_, k) <- field_code ygen t'; Ok (CBare (Some (n, k)))
      | _, _ =>
          do ks <- (fix go (l : list (string * option Z * ytype)) : outcome (list (fld ycode)) :=
            match l with
            | [] => Ok []
            | (n, tag, t') :: l' =>
                do f <- tagged_field n tag (field_code ygen t');
                do ks <- go l'; Ok (f :: ks)
            end) fs;
          Ok (CStruct ks)
      end
  | _ => Panic
  end.

(** What the decoders written do: the texts in the functions cited above. *)
Fixpoint yrun (m : build) (k : ycode) (input : list Z) {struct k} : outcome (list Z * val) :=
  match k with
  | CInt it =>
      do (tail, r) <- tagged_vlq_int m input;
      if in_ity it r then Ok (tail, VInt r) else Err EValue
  | CBlob => do (tail, b) <- tagged_blob m input; Ok (tail, VBytes b)
  | CBool => do (tail, b) <- tagged_bool input; Ok (tail, VBool b)
  | CFourcc => do (tail, z) <- tagged_fourcc input; Ok (tail, VInt z)
  | CUnit => Ok (input, VNull)
  | COpt k' =>
      do tail <- validate_tag OPT_TAG input;
      do (tail, is_provided) <- take_u8 tail;
      if negb (is_provided =? 0)
      then do (tail, v) <- yrun m k' tail; Ok (tail, VOpt (Some v))
      else Ok (tail, VOpt None)
  | CArray k' =>
      (* an array of units cannot be written: its elements are named types that read a tag *)
      do tail <- validate_tag ARRAY_TAG input;
      do (tail, array_length) <- parse_vlq_int m tail;
      do (tail, vs) <- parse_n (S (length tail)) (yrun m k') (as_u64 array_length) tail;
      Ok (tail, VList vs)
  | CEnum l =>
      do tail <- validate_tag INT_TAG input;
      do (tail, variant_tag) <- parse_vlq_int m tail;
      match find_enum l variant_tag with
      | Some n => Ok (tail, VEnum n)
      | None => Err (EUnknownTag variant_tag)
      end
  | CChoice tag l =>
      do tail <- validate_tag tag input;
      do (tail, variant_tag) <- parse_vlq_int m tail;
      match find_variant (map (fun x => (fst x, yrun m (snd x))) l) variant_tag with
      | Some (n, p) => do (tail, v) <- p tail; Ok (tail, VChoice n v)
      | None => Err (EUnknownTag variant_tag)
      end
  | CStruct fs => parse_struct m (map (fun f => init_slot (unfld f) (yrun m (f_ty f))) fs) input
  | CBare o =>
      do tail <- validate_tag STRUCT_TAG input;
      do (tail, struct_field_count) <- parse_vlq_int m tail;
      match o with
      | None => Ok (tail, VStruct [])
      | Some (n, k') => do (tail, v) <- yrun m k' tail; Ok (tail, VStruct [(n, v)])
      end
  end.
