(** * From the JSON of a definition to the bit-packed decoders

    src/generator/decoder_type.rs and src/generator/proto_morphist.rs:382-557:
    which decoder is written for a declaration as it stands in the document.
    Generator.v starts from a declaration that has been read ([ntype]); here is
    the reading.  The decoders are those of Generator.v; a type is referred to
    by its Rust name, and [module_code] follows the names within the module
    written.

    [Ok None] is a text that is no Rust; [Panic] stops the generator.
    Simplification: [parse::<f64>], [parse::<f32>] take more than whole numbers;
    for such a text the model panics. *)
From Coq Require Import Ascii DecimalString DecimalZ.
From Verif Require Import Base BalanceJson Generator GenerateRun.
#[local] Open Scope string_scope.
#[local] Open Scope Z_scope.
#[local] Open Scope list_scope.

(** A whole number in a text; [parse::<f64>], or a literal of the Rust text. *)
Definition whole_in (s : string) : option Z := option_map Z.of_int (NilZero.int_of_string s).
Definition number_at (v : json) : outcome Z := do s <- or_panic (as_text v); or_panic (whole_in s).
Definition as_flag (v : json) : option bool := match v with JBool b => Some b | _ => None end.

(** Model of src/generator/decoder_type.rs:1209-1229 [bounds_max_value_to_bit_size]. *)
Definition jg_bit_size (b : json) : outcome nat :=
  do res <- number_at (at_key "evalue" (at_key "max" b));
  do lo <- or_panic (as_flag (at_key "inclusive" (at_key "min" b)));
  let res := if lo : bool then res else res - 1 in
  do hi <- or_panic (as_flag (at_key "inclusive" (at_key "max" b)));
  let res := if hi : bool then res else res - 1 in
  Ok (floor_log2_1 res).

(** A whole number that is put into the text of the decoder. *)
Definition jg_with {A} (s : string) (f : Z -> A) : option A := option_map f (whole_in s).

(** Model of src/generator/decoder_type.rs:1232-1267 [open_bit_packed_int_main_parse_fn]. *)
Definition jg_int (b : json) : outcome (option code) :=
  if negb (is_text "MinMaxConstraint" (at_key "type" b)) then Panic else
  do offset <- or_panic (as_text (at_key "evalue" (at_key "min" b)));
  do bits <- match as_text (at_key "value" (at_key "rhs" (at_key "value" (at_key "max" b)))) with
    | Some rhs =>
        do n <- or_panic (whole_in rhs);
        if negb (0 <=? n) then Panic
        else if is_text "PowExpr" (at_key "type" (at_key "value" (at_key "max" b))) then Ok (Z.to_nat n) else Panic
    | None => match as_text (at_key "evalue" (at_key "max" b)) with Some _ => jg_bit_size b | None => Ok 0%nat end
    end;
  let bits := if starts "-" offset then Datatypes.S bits else bits in
  Ok (jg_with offset (fun o => KInt o bits)).
(** Model of src/generator/decoder_type.rs:1357-1375. *)
Definition jg_bit_array (b : json) : outcome (option code) :=
  if negb (is_text "MinMaxConstraint" (at_key "type" b)) then Panic
  else if negb (is_text "0" (at_key "evalue" (at_key "min" b))) then Panic
  else do n <- jg_bit_size b; Ok (Some (KBitArray n)).
(** Model of src/generator/decoder_type.rs:1403-1421. *)
Definition jg_blob (b : json) : outcome (option code) :=
  if negb (is_text "ExactConstraint" (at_key "type" b)) then Panic
  else match as_text (at_key "evalue" (at_key "min" b)), as_text (at_key "evalue" (at_key "max" b)) with
    | Some x, Some y => if String.eqb x y then do n <- jg_bit_size b; Ok (Some (KBits n)) else Panic
    | _, _ => Panic
    end.
(** [max.evalue], plus one when inclusive (1450-1457, 1511-1518). *)
Definition jg_max_plus (b : json) : outcome Z :=
  do res <- number_at (at_key "evalue" (at_key "max" b));
  Ok match as_flag (at_key "inclusive" (at_key "max" b)) with Some true => res + 1 | _ => res end.
(** Model of src/generator/decoder_type.rs:1442-1473. *)
Definition jg_string (b : json) : outcome (option code) :=
  if negb (is_text "MinMaxConstraint" (at_key "type" b)) then Panic
  else if negb (is_text "0" (at_key "evalue" (at_key "min" b))) then Panic
  else do n <- jg_max_plus b; Ok (Some (KString (floor_log2_1 n + 2))).

(** [fullname], or else [type], of a [type_info]: decoder_type.rs:700-706, 1091-1097. *)
Definition jg_sort (ti : json) : outcome string :=
  match as_text (at_key "fullname" ti) with Some s => Ok s | None => or_panic (as_text (at_key "type" ti)) end.

(** [ProtoTypeConversion], as far as the bit-packed decoders use it. *)
Inductive conversion := CvName (rust : string) | CvBool | CvOptional | CvList | CvBytes | CvInt | CvFourcc | CvNull.

Section Enums.
  Context {A : Type}.
  Variables (su : surroundings) (refs : string -> option A) (tags : string -> option string) (ename : string).
  (** Model of src/generator/decoder_type.rs:1644-1695
      [gen_agnostic_proto_enum_code]: each variant with its number and, if a
      struct is tagged with it, the decoder of the struct. *)
  Fixpoint jg_enum (vs : list json) : outcome (option (list (Z * string * option A))) :=
    match vs with
    | [] => Ok (Some [])
    | v :: vs' =>
        do name <- or_panic (as_text (at_key "name" v));
        do value <- or_panic (as_text (at_key "value" (at_key "value" v)));
        if negb (is_text "IntLiteral" (at_key "type" (at_key "value" v))) then Panic
        else
          do ks <- jg_enum vs';
          let k := match tags (ename ++ "::" ++ rust_name su name)%string with
                   | Some s => option_map Some (refs s)
                   | None => Some None
                   end in
          Ok match whole_in value, k, ks with Some z, Some k, Some ks => Some ((z, name, k) :: ks) | _, _, _ => None end
    end.
End Enums.

Section Reading.
  Variable su : surroundings.
  (** The decoders of the module, by the Rust names of their types. *)
  Variable refs : string -> option code.

  (** Model of src/generator/decoder_type.rs:249-304 [bit_packed_from_nnet_name]. *)
  Definition jg_table (s : string) : outcome conversion :=
    if starts "NNet" s then Ok (CvName (rust_name su s))
    else if String.eqb s "BoolType" then Ok CvBool
    else if String.eqb s "OptionalType" then Ok CvOptional
    else if existsb (String.eqb s) ["ArrayType"; "DynArrayType"] then Ok CvList
    else if existsb (String.eqb s) ["BlobType"; "BitArrayType"; "AsciiStringType"; "StringType"] then Ok CvBytes
    else if String.eqb s "IntType" then Ok CvInt
    else if String.eqb s "FourCCType" then Ok CvFourcc
    else if String.eqb s "NullType" then Ok CvNull
    else Panic.

  (** [min.evalue] and the bits of an integer inside a struct: decoder_type.rs:776-787, 808-818. *)
  Definition jg_field_int (b : json) : outcome (option code) :=
    do offset <- or_panic (as_text (at_key "evalue" (at_key "min" b)));
    do n <- jg_bit_size b;
    Ok (jg_with offset (fun o => KInt o n)).
  (** The bits of a length, [(array_length.parse::<f32>().unwrap().log2() + 1.).floor()]. *)
  Definition jg_length_bits (s : string) : outcome nat := do n <- or_panic (whole_in s); Ok (floor_log2_1 n).
  (** The elements of an array inside a struct; simplification: their name is
      that of a declaration (decoder_type.rs:794-803 would also take the sorts of
      its table). *)
  Definition jg_element (ti : json) : outcome (option code) :=
    do n <- or_panic (as_text (at_key "fullname" (at_key "element_type" ti)));
    do c <- jg_table n;
    Ok match c with CvName r => refs r | _ => None end.

  (** A field that is optional: decoder_type.rs:730-788 and 858-918; [ti] is
      [type_info.type_info]. *)
  Definition jg_optional (ti : json) : outcome (option code) :=
    do sort <- or_panic (as_text (at_key "type" ti));
    let length := do s <- or_panic (as_text (at_key "evalue" (at_key "max" (at_key "bounds" ti)))); jg_length_bits s in
    if String.eqb sort "ArrayType" then
      do k <- jg_element ti;
      do n <- length;
      Ok (option_map (fun k => KOptReread (KArray n k)) k)
    else if String.eqb sort "BitArrayType" then Panic
    else
      do name <- jg_sort ti;
      do c <- jg_table name;
      match c with
      | CvName r => Ok (option_map KOpt (refs r))
      | CvBool => Ok (Some (KOpt KBool))
      | CvFourcc => Ok (Some (KOpt KFourcc))
      | CvNull => Ok (Some (KOpt KNull))
      | CvInt => do k <- jg_field_int (at_key "bounds" ti); Ok (option_map KOptReread k)
      | CvBytes => do n <- length; Ok (Some (KOptReread (KByteVec n)))
      | CvList => do n <- length; Ok None
      | CvOptional => Ok None
      end.

  (** The decoder of a field: decoder_type.rs:716-979. *)
  Definition jg_field (f : json) (sort : string) : outcome (option code) :=
    let ti := at_key "type_info" f in
    let length :=
      do s <- match as_text (at_key "evalue" (at_key "max" (at_key "bounds" f))) with
        | Some s => Ok s
        | None => or_panic (as_text (at_key "evalue" (at_key "max" (at_key "bounds" ti))))
        end;
      jg_length_bits s in
    if is_text "m_eventData" (at_key "name" f) && String.eqb sort "ChoiceType" then Ok (refs "MEventData")
    else
      do c <- jg_table sort;
      match c with
      | CvName r => Ok (refs r)
      | CvBool => Ok (Some KBool)
      | CvFourcc => Ok (Some KFourcc)
      | CvNull => Ok (Some KNull)
      | CvOptional => jg_optional (at_key "type_info" ti)
      | CvList => do k <- jg_element ti; do n <- length; Ok (option_map (KArray n) k)
      | CvInt => jg_field_int (at_key "bounds" ti)
      | CvBytes => if String.eqb sort "BitArrayType" then Panic else do n <- length; Ok (Some (KByteVec n))
      end.

  (** The loop of src/generator/decoder_type.rs:680-983 [gen_bit_packed_proto_struct_code].
      Simplification: the fields keep their names ([to_case(Case::Snake)]). *)
  Fixpoint jg_fields (fs : list json) : outcome (option (list (string * code))) :=
    match fs with
    | [] => Ok (Some [])
    | f :: fs' =>
        do member <- or_panic (as_text (at_key "type" f));
        do sort <- jg_sort (at_key "type_info" f);
        if String.eqb member "ConstDecl" then jg_fields fs'
        else if negb (String.eqb member "MemberStructField") then Panic
        else
          do name <- or_panic (as_text (at_key "name" f));
          do k <- jg_field f sort;
          do ks <- jg_fields fs';
          Ok match k, ks with Some k, Some ks => Some ((name, k) :: ks) | _, _ => None end
    end.

  (** The decoder of a variant: decoder_type.rs:1098-1112, 1123-1149. *)
  Definition jg_variant (ti : json) : outcome (option code) :=
    do sort <- jg_sort ti;
    do c <- jg_table sort;
    match c with
    | CvName r => Ok (refs r)
    | CvBool => Ok (Some KBool)
    | CvFourcc => Ok (Some KFourcc)
    | CvNull => Ok (Some KNull)
    | CvOptional =>
        let inner := at_key "type_info" ti in
        if is_text "UserType" (at_key "type" inner) then
          do n <- or_panic (as_text (at_key "fullname" inner));
          Ok (option_map KOpt (refs (rust_name su n)))
        else Ok None
    | CvList | CvInt | CvBytes => Ok None
    end.
  (** The loop of src/generator/decoder_type.rs:1074-1157
      [gen_bit_packed_proto_choice_code]; variants keep their names. *)
  Fixpoint jg_variants (vs : list json) : outcome (option (list (Z * string * code))) :=
    match vs with
    | [] => Ok (Some [])
    | v :: vs' =>
        do name <- or_panic (as_text (at_key "name" v));
        do k <- jg_variant (at_key "type_info" v);
        do tag <- or_panic (as_text (at_key "value" (at_key "tag" v)));
        if negb (is_text "IntLiteral" (at_key "type" (at_key "tag" v))) then Panic
        else
          do ks <- jg_variants vs';
          Ok match whole_in tag, k, ks with Some z, Some k, Some ks => Some ((z, name, k) :: ks) | _, _, _ => None end
    end.

  (** An enum of Rust whose variants all are bare, or one with contents. *)
  Definition jg_enum_code (l : list (Z * string * option code)) : code :=
    let n := ceil_log2 (length l) in
    if forallb (fun x => match snd x with None => true | Some _ => false end) l
    then KEnum n (map fst l)
    else KChoice n (map (fun x => (fst x, match snd x with Some k => k | None => KUnit end)) l).

  (** Model of src/generator/proto_morphist.rs:388-557 [gen_proto_code] for the
      bit-packed decoders, after the check for constants. *)
  Definition jg_decl (tags : string -> option string) (d : json) : outcome (option code) :=
    let ti := at_key "type_info" d in
    do unit <- or_panic (as_text (at_key "type" ti));
    let fields := or_panic (as_list (at_key "fields" ti)) in
    if String.eqb unit "StructType" then
      do fs <- fields; do ks <- jg_fields fs; Ok (option_map KStruct ks)
    else if String.eqb unit "ChoiceType" then
      do vs <- fields; do ks <- jg_variants vs; Ok (option_map (KChoice (ceil_log2 (length vs))) ks)
    else if String.eqb unit "EnumType" then
      do vs <- fields; do ks <- jg_enum su refs tags (rust_name su (su_show su (at_key "fullname" d))) vs; Ok (option_map jg_enum_code ks)
    else if existsb (String.eqb unit) ["IntType"; "InumType"] then jg_int (at_key "bounds" ti)
    else if String.eqb unit "BitArrayType" then jg_bit_array (at_key "bounds" ti)
    else if String.eqb unit "UserType" then do n <- or_panic (as_text (at_key "fullname" ti)); Ok (refs (rust_name su n))
    else if String.eqb unit "BlobType" then jg_blob (at_key "bounds" ti)
    else if String.eqb unit "StringType" then jg_string (at_key "bounds" ti)
    else if existsb (String.eqb unit) ["ArrayType"; "DynArrayType"] then
      do n <- or_panic (as_text (at_key "fullname" (at_key "element_type" ti)));
      do x <- jg_max_plus (at_key "bounds" ti);
      Ok (option_map (KArray (floor_log2_1 x)) (refs (rust_name su n)))
    else Panic.
End Reading.

(** The Rust name of a declaration: proto_morphist.rs:396-403. *)
Definition jg_name (su : surroundings) (d : json) : string :=
  match as_text (at_key "fullname" d) with Some s => rust_name su s | None => rust_name su "m_eventData" end.
(** The decoder of a type of the module, its names followed [n] times; [ds] are
    the declarations of the module.  A name that none, or more than one, of them
    has is no Rust. *)
Fixpoint module_code (su : surroundings) (tags : string -> option string) (ds : list json) (n : nat) (name : string) : option code :=
  match n with
  | O => None
  | Datatypes.S n' =>
      match filter (fun d => String.eqb (jg_name su d) name) ds with
      | [d] => match jg_decl su (module_code su tags ds n') tags d with Ok k => k | _ => None end
      | _ => None
      end
  end.
