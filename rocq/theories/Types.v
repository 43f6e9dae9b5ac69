(** * Descriptors of wire types and decoded values

    The generated decoders of src/versions/protocol87702/mod.rs and
    src/versions/protocol75689/mod.rs repeat a handful of shapes.  A descriptor
    says which shapes a type is made of; tools/extract_proto.py writes one for
    each generated type (ByteTypes.v, BitTypes.v), and Versioned.v / BitInterp.v
    give each shape its meaning. *)
From Verif Require Import Base.

(** Decoded values.  Rust structs, enums and vectors as plain data. *)
Inductive val : Type :=
| VInt (z : Z)
| VBytes (l : list Z)
| VBool (b : bool)
| VNull
| VOpt (o : option val)
| VList (l : list val)
| VEnum (s : string)
| VChoice (s : string) (v : val)
| VStruct (l : list (string * val)).

(** Target integer types of [try_from]. *)
Inductive ity : Type := IU8 | IU32 | IU64 | II32 | II64.

Definition in_ity (t : ity) (z : Z) : bool :=
  match t with
  | IU8 => in_u8 z | IU32 => in_u32 z | IU64 => in_u64 z | II32 => in_i32 z | II64 => in_i64 z
  end.

(** How a struct field starts ([let mut f: Option<_> = None] and
    [if f.is_none()], or [= Some(None)] and [if let Some(None) = f]) ... *)
Inductive finit : Type := InitNone | InitSomeNone.
(** ... and how it ends ([ok_or_return_missing_field_err!] or [unwrap_or]). *)
Inductive ffin : Type := FinReq | FinDefault (v : val).

(** One arm of the field loop: name, tag of the arm, tag reported in
    [DuplicateTag], start, end, and type. *)
Record fld (A : Type) : Type := mkfld {
  f_name : string; f_tag : Z; f_dup : Z; f_init : finit; f_fin : ffin; f_ty : A }.
Arguments mkfld {A}.
Arguments f_name {A}. Arguments f_tag {A}. Arguments f_dup {A}.
Arguments f_init {A}. Arguments f_fin {A}. Arguments f_ty {A}.

(** Tags of the versioned format, src/versioned_decoder.rs:10-26. *)
Definition ARRAY_TAG : Z := 0.
Definition BIT_ARRAY_TAG : Z := 1.
Definition BLOB_TAG : Z := 2.
Definition CHOICE_TAG : Z := 3.
Definition OPT_TAG : Z := 4.
Definition STRUCT_TAG : Z := 5.
Definition BOOL_TAG : Z := 6.
Definition FOURCC_TAG : Z := 7.
Definition INT_TAG : Z := 9.

(** Byte-aligned (versioned) types. *)
Inductive vty : Type :=
| TInt (t : ity)
| TBlob
| TBool
| TFourcc
| TOpt (t : vty)
| TArray (t : vty)
| TEnum (variants : list (Z * string))
| TChoice (tag : Z) (variants : list (Z * string * vty))
| TStruct (fields : list (fld vty)).

(** Bit-packed types. *)
Inductive bty : Type :=
| BInt (offset : Z) (bits : nat)
| BBool
| BByte                                   (* take_unaligned_byte *)
| BFourcc
| BNull
| BUnit                                   (* a variant without payload *)
| BOpt (t : bty)
| BOptReread (t : bty)                    (* the value is read at the presence bit *)
| BArray (lenbits : nat) (t : bty)
| BBlob (lenbits : nat)
| BFixedBlob (bytes : Z)
| BBitInt (lenbits : nat)
| BBitArray (lenbits : nat)
| BEnum (bits : nat) (variants : list (Z * string))
| BChoice (bits : nat) (variants : list (Z * string * bty))
| BStruct (fields : list (string * bty)).

(** ** Induction principles for the nested types *)
Section vty_ind.
  Variable P : vty -> Prop.
  Hypothesis HInt : forall t, P (TInt t).
  Hypothesis HBlob : P TBlob.
  Hypothesis HBool : P TBool.
  Hypothesis HFourcc : P TFourcc.
  Hypothesis HOpt : forall t, P t -> P (TOpt t).
  Hypothesis HArray : forall t, P t -> P (TArray t).
  Hypothesis HEnum : forall l, P (TEnum l).
  Hypothesis HChoice : forall tag l, Forall (fun x => P (snd x)) l -> P (TChoice tag l).
  Hypothesis HStruct : forall l, Forall (fun f => P (f_ty f)) l -> P (TStruct l).

  Fixpoint vty_ind' (t : vty) : P t :=
    match t with
    | TInt t => HInt t
    | TBlob => HBlob
    | TBool => HBool
    | TFourcc => HFourcc
    | TOpt t => HOpt t (vty_ind' t)
    | TArray t => HArray t (vty_ind' t)
    | TEnum l => HEnum l
    | TChoice tag l =>
        HChoice tag l ((fix go (l : list (Z * string * vty)) : Forall (fun x => P (snd x)) l :=
          match l with [] => Forall_nil _ | (_, t) as x :: l' => Forall_cons x (vty_ind' t) (go l') end) l)
    | TStruct l =>
        HStruct l ((fix go (l : list (fld vty)) : Forall (fun f => P (f_ty f)) l :=
          match l with [] => Forall_nil _ | f :: l' => Forall_cons f (vty_ind' (f_ty f)) (go l') end) l)
    end.
End vty_ind.

Section bty_ind.
  Variable P : bty -> Prop.
  Hypothesis HInt : forall o n, P (BInt o n).
  Hypothesis HBool : P BBool.
  Hypothesis HByte : P BByte.
  Hypothesis HFourcc : P BFourcc.
  Hypothesis HNull : P BNull.
  Hypothesis HUnit : P BUnit.
  Hypothesis HOpt : forall t, P t -> P (BOpt t).
  Hypothesis HOptR : forall t, P t -> P (BOptReread t).
  Hypothesis HArray : forall n t, P t -> P (BArray n t).
  Hypothesis HBlob : forall n, P (BBlob n).
  Hypothesis HFixed : forall n, P (BFixedBlob n).
  Hypothesis HBitInt : forall n, P (BBitInt n).
  Hypothesis HBitArray : forall n, P (BBitArray n).
  Hypothesis HEnum : forall n l, P (BEnum n l).
  Hypothesis HChoice : forall n l, Forall (fun x => P (snd x)) l -> P (BChoice n l).
  Hypothesis HStruct : forall l, Forall (fun x => P (snd x)) l -> P (BStruct l).

  Fixpoint bty_ind' (t : bty) : P t :=
    match t with
    | BInt o n => HInt o n
    | BBool => HBool
    | BByte => HByte
    | BFourcc => HFourcc
    | BNull => HNull
    | BUnit => HUnit
    | BOpt t => HOpt t (bty_ind' t)
    | BOptReread t => HOptR t (bty_ind' t)
    | BArray n t => HArray n t (bty_ind' t)
    | BBlob n => HBlob n
    | BFixedBlob n => HFixed n
    | BBitInt n => HBitInt n
    | BBitArray n => HBitArray n
    | BEnum n l => HEnum n l
    | BChoice n l =>
        HChoice n l ((fix go (l : list (Z * string * bty)) : Forall (fun x => P (snd x)) l :=
          match l with [] => Forall_nil _ | (_, t) as x :: l' => Forall_cons x (bty_ind' t) (go l') end) l)
    | BStruct l =>
        HStruct l ((fix go (l : list (string * bty)) : Forall (fun x => P (snd x)) l :=
          match l with [] => Forall_nil _ | (_, t) as x :: l' => Forall_cons x (bty_ind' t) (go l') end) l)
    end.
End bty_ind.
