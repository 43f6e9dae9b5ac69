(** * Meaning of the bit-packed descriptors *)
From Verif Require Import Base BitSpec BitPacked Types Versioned.

Definition bparser (A : Type) : Type := cursor -> outcome (cursor * A).

(** The element loop, e.g. src/versions/protocol87702/mod.rs:5952-5957.  Length
    prefixes are at most 17 bits wide. *)
Fixpoint bparse_n (n : nat) (p : bparser val) (c : cursor) : outcome (cursor * list val) :=
  match n with
  | O => Ok (c, [])
  | S n' => do (t, v) <- p c; do (t, vs) <- bparse_n n' p t; Ok (t, v :: vs)
  end.

(** The field sequence of a struct, e.g. src/versions/protocol87702/mod.rs:6146-6190:
    every [if f.is_none()] is taken once, so the [MissingField] branch and the
    [expect]s of protocol 75689 cannot be reached. *)
Fixpoint bparse_fields (fs : list (string * bparser val)) (c : cursor) : outcome (cursor * list (string * val)) :=
  match fs with
  | [] => Ok (c, [])
  | (n, p) :: fs' => do (t, v) <- p c; do (t, vs) <- bparse_fields fs' t; Ok (t, (n, v) :: vs)
  end.

Fixpoint bparse (m : build) (t : bty) (c : cursor) {struct t} : outcome (cursor * val) :=
  match t with
  | BInt off n => do (c, z) <- parse_packed_int m c off n; Ok (c, VInt z)
  | BBool => do (c, b) <- parse_bool c; Ok (c, VBool b)
  | BByte => do (c, z) <- take_unaligned_byte c; Ok (c, VInt z)
  | BFourcc => do (c, l) <- take_fourcc c; Ok (c, VBytes l)
  | BNull => do c <- take_null c; Ok (c, VNull)
  | BUnit => Ok (c, VNull)
  | BOpt t' =>
      do (c, is_provided) <- parse_bool c;
      if is_provided : bool
      then do (c, v) <- bparse m t' c; Ok (c, VOpt (Some v))
      else Ok (c, VOpt None)
  | BOptReread t' =>
      (* src/versions/protocol87702/mod.rs:6208-6216, 12479-12485: the value is
         parsed from [input], not from [tail] *)
      do (c', is_provided) <- parse_bool c;
      if is_provided : bool
      then do (c, v) <- bparse m t' c; Ok (c, VOpt (Some v))
      else Ok (c', VOpt None)
  | BArray n t' =>
      do (c, len) <- take_n_bits_into_i64 c n;
      do (c, vs) <- bparse_n (Z.to_nat (as_u64 len)) (bparse m t') c;
      Ok (c, VList vs)
  | BBlob n =>
      do (c, len) <- parse_packed_int m c 0 n;
      do c <- byte_align c;
      do (c, l) <- take_bit_array c (as_u64 len * 8);
      Ok (c, VBytes l)
  | BFixedBlob k =>
      do c <- byte_align c;
      do (c, l) <- take_bit_array c (k * 8);
      Ok (c, VBytes l)
  | BBitInt n =>
      do (c, len) <- take_n_bits_into_i64 c n;
      do (c, z) <- take_n_bits_into_i64 c (Z.to_nat (as_u64 len));
      Ok (c, VInt z)
  | BBitArray n =>
      do (c, len) <- take_n_bits_into_i64 c n;
      do (c, l) <- take_bit_array c (as_u64 len);
      Ok (c, VBytes l)
  | BEnum n l =>
      do (c, variant_tag) <- parse_packed_int m c 0 n;
      match find_enum l variant_tag with
      | Some s => Ok (c, VEnum s)
      | None => Err (EUnknownTag variant_tag)
      end
  | BChoice n l =>
      do (c, variant_tag) <- parse_packed_int m c 0 n;
      match find_variant (map (fun x => (fst x, bparse m (snd x))) l) variant_tag with
      | Some (s, p) => do (c, v) <- p c; Ok (c, VChoice s v)
      | None => Err (EUnknownTag variant_tag)
      end
  | BStruct fs =>
      do (c, vs) <- bparse_fields (map (fun x => (fst x, bparse m (snd x))) fs) c;
      Ok (c, VStruct vs)
  end.
