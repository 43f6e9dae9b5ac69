(** * Model of the protocol code generator (src/generator)

    [s2protocol generate] reads the JSON description of a protocol and writes
    the Rust module with the decoders.  Modelled is its bit-packed half:
    from a declaration of the description ([ntype]) to the decoder written
    for it ([code], by [gen]), and what that decoder does on a position of a
    file ([run]).  The Rust text itself, the names of types and fields
    ([to_case]), the log calls and the choice of the declarations to be
    written (proto_morphist.rs:147-303: GenerateRun.v) are left out: references by name are
    replaced by the declaration they name ([NUser]), and the decoders are
    read as the author intends them, without minding the [nom] calls that
    need a touch of hand work to compile. *)
From Verif Require Import Base BitSpec BitPacked Types Versioned BitInterp.
#[local] Open Scope string_scope.
#[local] Open Scope Z_scope.
#[local] Open Scope list_scope.

(** How [.bounds.max.value] is written: a literal (no [.rhs.value]), [2 ^ n],
    or another expression with a right-hand side. *)
Inductive bexpr : Type := Lit | Pow (n : nat) | OtherExpr.

(** [.bounds] of a type: [.type] ("ExactConstraint" or "MinMaxConstraint"),
    and [evalue] and [inclusive] of [.min] and [.max]. *)
Record bounds : Type := mkbounds {
  b_exact : bool; b_min : Z; b_min_incl : bool; b_max : Z; b_max_incl : bool; b_expr : bexpr }.

(** [.type_info] of a declaration or of a field. *)
Inductive ntype : Type :=
| NInt (b : bounds)                                    (* IntType *)
| NInum (b : bounds)                                   (* InumType *)
| NBitArray (b : bounds)
| NBlob (b : bounds)
| NString (b : bounds)
| NAscii (b : bounds)                                  (* AsciiStringType *)
| NArray (dyn : bool) (b : bounds) (t : ntype)         (* ArrayType; DynArrayType if [dyn] *)
| NBool
| NFourcc
| NNull
| NOpt (t : ntype)                                     (* OptionalType *)
| NUser (t : ntype)                                    (* UserType: a name, here what it stands for *)
| NEnum (vs : list (Z * string))                       (* EnumType *)
| NEvents (vs : list (Z * string * option ntype))      (* EnumType whose variants have structs tagged with them *)
| NChoice (vs : list (Z * string * ntype))
| NStruct (fs : list (string * ntype)).

(** The decoders the generator writes. *)
Inductive code : Type :=
| KInt (offset : Z) (bits : nat)
| KBool
| KFourcc
| KNull
| KUnit                                                (* nothing is read *)
| KByteVec (lenbits : nat)                             (* a length, then a loop of take_unaligned_byte *)
| KString (lenbits : nat)
| KBits (bits : nat)                                   (* that many bits, byte-aligned *)
| KBitArray (lenbits : nat)
| KArray (lenbits : nat) (k : code)
| KOpt (k : code)
| KOptReread (k : code)                                (* the value is read at [input] again *)
| KEnum (bits : nat) (vs : list (Z * string))
| KChoice (bits : nat) (vs : list (Z * string * code))
| KStruct (fs : list (string * code)).

(** [(x.log2() + 1.).floor() as usize].  Simplified to integers: exact while
    the rounding of [log2] cannot reach the next integer, that is for
    [x <= 2^48] (f64) and [x <= 2^20] (f32); zero and negative [x] give -inf
    or NaN, which the cast turns into 0. *)
Definition floor_log2_1 (x : Z) : nat := if x <=? 0 then 0%nat else Z.to_nat (Z.log2 x + 1).

(** [(n as f32).log2().ceil() as usize], exact for [n <= 2^20]. *)
Definition ceil_log2 (n : nat) : nat := Z.to_nat (Z.log2_up (Z.of_nat n)).

(** Model of src/generator/decoder_type.rs:1209-1229 [bounds_max_value_to_bit_size]. *)
Definition max_value_to_bit_size (b : bounds) : nat :=
  let res := b_max b in
  let res := if b_min_incl b then res else res - 1 in
  let res := if b_max_incl b then res else res - 1 in
  floor_log2_1 res.

(** Model of src/generator/decoder_type.rs:1232-1267 [open_bit_packed_int_main_parse_fn]. *)
Definition gen_int (b : bounds) : outcome code :=
  if b_exact b then Panic else
  do num_bits <- match b_expr b with
    | Pow n => Ok n
    | OtherExpr => Panic
    | Lit => Ok (max_value_to_bit_size b)
    end;
  let num_bits := if b_min b <? 0 then S num_bits else num_bits in
  Ok (KInt (b_min b) num_bits).

(** Model of src/generator/decoder_type.rs:1357-1375 [open_bit_packed_bit_array_main_parse_fn]. *)
Definition gen_bit_array (b : bounds) : outcome code :=
  if b_exact b then Panic
  else if negb (b_min b =? 0) then Panic
  else Ok (KBitArray (max_value_to_bit_size b)).

(** Model of src/generator/decoder_type.rs:1403-1421 [open_bit_packed_blob_main_parse_fn]:
    the number of bits read is the bit size of the number of bytes. *)
Definition gen_blob (b : bounds) : outcome code :=
  if negb (b_exact b) then Panic
  else if negb (b_min b =? b_max b) then Panic
  else Ok (KBits (max_value_to_bit_size b)).

(** [max.evalue], plus one when inclusive (1450-1457, 1511-1518). *)
Definition max_plus (b : bounds) : Z := if b_max_incl b then b_max b + 1 else b_max b.

(** Model of src/generator/decoder_type.rs:1442-1473 [open_bit_packed_string_main_parse_fn]. *)
Definition gen_string (b : bounds) : outcome code :=
  if b_exact b then Panic
  else if negb (b_min b =? 0) then Panic
  else Ok (KString (floor_log2_1 (max_plus b) + 2)).

(** Model of the width in src/generator/decoder_type.rs:1505-1520 [open_bit_packed_array_main_parse_fn]. *)
Definition array_bits (b : bounds) : nat := floor_log2_1 (max_plus b).

(** Model of the width in src/generator/decoder_type.rs:871-882 and 930-941, an
    array that is a field.  [field["bounds"]] is taken to be absent. *)
Definition field_array_bits (b : bounds) : nat := floor_log2_1 (b_max b).

(** Where a type occurs. *)
Inductive position : Type := Decl | Field | Variant.

(** Text that cannot compile. *)
Definition no_compile : err := EOther "the text written does not compile".

(** Model of src/generator/proto_morphist.rs:382-556 [gen_proto_code] for the
    bit-packed decoders (position [Decl]), of the loop over the fields in
    src/generator/decoder_type.rs:680-983 [gen_bit_packed_proto_struct_code]
    ([Field]) and of the one over the variants in 1074-1157
    [gen_bit_packed_proto_choice_code] ([Variant]); [from_nnet_name] is
    249-304 [bit_packed_from_nnet_name].  The elements of arrays are named
    ([expect] otherwise), and 1644-1695 [gen_agnostic_proto_enum_code] is the
    case of enums.  The constants of a struct ([ConstDecl]) are not part of
    the wire format and are left out of [fs]. *)
Fixpoint gen (p : position) (t : ntype) {struct t} : outcome code :=
  match p with
  | Decl =>
      match t with
      | NInt b | NInum b => gen_int b
      | NBitArray b => gen_bit_array b
      | NBlob b => gen_blob b
      | NString b => gen_string b
      | NUser t' => gen Decl t'
      | NArray _ b e =>
          match e with
          | NUser t' => do k <- gen Decl t'; Ok (KArray (array_bits b) k)
          | _ => Panic
          end
      | NEnum vs => Ok (KEnum (ceil_log2 (length vs)) vs)
      | NEvents vs =>
          do ks <- (fix go (l : list (Z * string * option ntype)) : outcome (list (Z * string * code)) :=
            match l with
            | [] => Ok []
            | (n, o) :: l' =>
                do k <- match o with Some t' => gen Decl t' | None => Ok KUnit end;
                do ks <- go l'; Ok ((n, k) :: ks)
            end) vs;
          Ok (KChoice (ceil_log2 (length vs)) ks)
      | NChoice vs =>
          do ks <- (fix go (l : list (Z * string * ntype)) : outcome (list (Z * string * code)) :=
            match l with [] => Ok [] | (n, t') :: l' => do k <- gen Variant t'; do ks <- go l'; Ok ((n, k) :: ks) end) vs;
          Ok (KChoice (ceil_log2 (length vs)) ks)
      | NStruct fs =>
          do ks <- (fix go (l : list (string * ntype)) : outcome (list (string * code)) :=
            match l with
            | [] => Ok []
            | (n, t') :: l' =>
                (* 716-726: a choice inside the struct has a declaration of its own *)
                do k <- match t' with NChoice _ => if String.eqb n "m_eventData" then gen Decl t' else gen Field t' | _ => gen Field t' end;
                do ks <- go l'; Ok ((n, k) :: ks)
            end) fs;
          Ok (KStruct ks)
      (* "Unknown unit type", proto_morphist.rs:614 *)
      | NAscii _ | NBool | NFourcc | NNull | NOpt _ => Panic
      end
  | Field =>
      match t with
      | NUser t' => gen Decl t'
      | NBool => Ok KBool
      | NFourcc => Ok KFourcc
      | NNull => Ok KNull
      (* 812-821: no exponent is looked at, no bit added for the sign *)
      | NInt b => Ok (KInt (b_min b) (max_value_to_bit_size b))
      | NBlob b | NString b | NAscii b => Ok (KByteVec (field_array_bits b))
      | NArray _ b e =>
          match e with
          | NUser t' => do k <- gen Decl t'; Ok (KArray (field_array_bits b) k)
          | _ => Panic
          end
      (* 797-805: the element type "u8" is not in the table *)
      | NBitArray _ => Panic
      | NOpt e =>
          match e with
          | NUser t' => do k <- gen Decl t'; Ok (KOpt k)
          | NBool => Ok (KOpt KBool)
          | NFourcc => Ok (KOpt KFourcc)
          | NNull => Ok (KOpt KNull)
          (* the text is parse_packed_int(input, ...) *)
          | NInt b => Ok (KOptReread (KInt (b_min b) (max_value_to_bit_size b)))
          (* take_n_bits_into_i64(input, ...) *)
          | NBlob b | NString b | NAscii b => Ok (KOptReread (KByteVec (field_array_bits b)))
          (* 739-772: the type of the elements is not looked up, the text holds a placeholder *)
          | NArray true _ _ => Err no_compile
          | NArray false b e' =>
              match e' with
              | NUser t' => do k <- gen Decl t'; Ok (KOptReread (KArray (field_array_bits b) k))
              | _ => Panic
              end
          | NBitArray _ => Panic
          | NOpt _ => Err no_compile
          | NInum _ | NEnum _ | NEvents _ | NChoice _ | NStruct _ => Panic
          end
      | NInum _ | NEnum _ | NEvents _ | NChoice _ | NStruct _ => Panic
      end
  | Variant =>
      match t with
      | NUser t' => gen Decl t'
      | NBool => Ok KBool
      | NFourcc => Ok KFourcc
      | NNull => Ok KNull
      | NOpt (NUser t') => do k <- gen Decl t'; Ok (KOpt k)
      | NOpt _ | NInt _ | NBitArray _ | NBlob _ | NString _ | NAscii _ | NArray _ _ _ => Err no_compile
      | NInum _ | NEnum _ | NEvents _ | NChoice _ | NStruct _ => Panic
      end
  end.

(** The loop of 943-950 with [take_unaligned_byte]. *)
Fixpoint bytes_n (n : nat) (c : cursor) : outcome (cursor * list Z) :=
  match n with
  | O => Ok (c, [])
  | S n' => do (c, b) <- take_unaligned_byte c; do (c, l) <- bytes_n n' c; Ok (c, b :: l)
  end.

(** What the decoders written do: the texts in the functions cited above.
    [value: <_>::try_from(res)?] (1264) is the identity on [i64]. *)
Fixpoint run (m : build) (k : code) (c : cursor) {struct k} : outcome (cursor * val) :=
  match k with
  | KInt offset bits => do (c, z) <- parse_packed_int m c offset bits; Ok (c, VInt z)
  | KBool => do (c, b) <- parse_bool c; Ok (c, VBool b)
  | KFourcc => do (c, l) <- take_fourcc c; Ok (c, VBytes l)
  | KNull => do c <- take_null c; Ok (c, VNull)
  | KUnit => Ok (c, VNull)
  | KByteVec n =>
      do (c, len) <- take_n_bits_into_i64 c n;
      do (c, l) <- bytes_n (Z.to_nat (as_u64 len)) c;
      Ok (c, VBytes l)
  | KString n =>
      do (c, str_size) <- parse_packed_int m c 0 n;
      do c <- byte_align c;
      do (c, l) <- take_bit_array c (as_u64 str_size * 8);
      Ok (c, VBytes l)
  | KBits n =>
      do c <- byte_align c;
      do (c, l) <- take_bit_array c (Z.of_nat n);
      Ok (c, VBytes l)
  | KBitArray n =>
      do (c, len) <- take_n_bits_into_i64 c n;
      do (c, l) <- take_bit_array c (as_u64 len);
      Ok (c, VBytes l)
  | KArray n k' =>
      (* a declaration reads the length with parse_packed_int(input, 0, n),
         which adds 0 to the same bits *)
      do (c, len) <- take_n_bits_into_i64 c n;
      do (c, vs) <- bparse_n (Z.to_nat (as_u64 len)) (run m k') c;
      Ok (c, VList vs)
  | KOpt k' =>
      do (c, is_provided) <- parse_bool c;
      if is_provided : bool then do (c, v) <- run m k' c; Ok (c, VOpt (Some v)) else Ok (c, VOpt None)
  | KOptReread k' =>
      do (c', is_provided) <- parse_bool c;
      if is_provided : bool then do (c, v) <- run m k' c; Ok (c, VOpt (Some v)) else Ok (c', VOpt None)
  | KEnum n vs =>
      do (c, variant_tag) <- parse_packed_int m c 0 n;
      match find_enum vs variant_tag with
      | Some s => Ok (c, VEnum s)
      | None => Err (EUnknownTag variant_tag)
      end
  | KChoice n vs =>
      do (c, variant_tag) <- parse_packed_int m c 0 n;
      match find_variant (map (fun x => (fst x, run m (snd x))) vs) variant_tag with
      | Some (s, p) => do (c, v) <- p c; Ok (c, VChoice s v)
      | None => Err (EUnknownTag variant_tag)
      end
  | KStruct fs =>
      do (c, vs) <- bparse_fields (map (fun x => (fst x, run m (snd x))) fs) c;
      Ok (c, VStruct vs)
  end.
