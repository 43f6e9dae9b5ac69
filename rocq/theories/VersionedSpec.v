(** * Specification of the versioned (byte-aligned, self-describing) format

    What it means for a byte string to be an encoding of a value of a given
    type.  Written as a relation, because the writer has freedom: the order of
    struct fields, the presence of optional fields, padded integers, any
    non-zero byte for [true].  No decoder appears here. *)
From Verif Require Import Base VlqSpec Types.

(** [g] is a variable-length representation of the integer [z], at most ten
    bytes long.  In the [strict] format the magnitude is below 2^63 and [z] is
    the number denoted.  The lax format admits any ten-byte number and takes it
    modulo 2^64, except minus 2^63. *)
Definition vlq_rep (strict : bool) (z : Z) (g : list Z) : Prop :=
  bytes_ok g /\ vlq_terminated g /\ (length g <= 10)%nat /\
  if strict then vlq_magnitude g < two63 /\ z = vlq_value g
  else z = as_i64 (vlq_value g) /\ (as_i64 (vlq_magnitude g) = - two63 -> 0 <= vlq_value g).

(** A field as written: which one, the bytes of its tag, its value and the
    bytes of its value. *)
Record written : Type := mkw { w_fld : fld vty; w_tag : list Z; w_val : val; w_bytes : list Z }.

(** The value of a field that is not written; [None] if it must be. *)
Definition absent_value (f : fld vty) : option val :=
  match f_init f, f_fin f with
  | InitSomeNone, _ => Some (VOpt None)
  | InitNone, FinDefault d => Some d
  | InitNone, FinReq => None
  end.

(** Fields are written at most once ([strict]).  The lax format also allows
    to repeat an optional field as long as all but its last occurrence are
    [None]. *)
Definition occurrences_ok (strict : bool) (ws : list written) : Prop :=
  if strict then NoDup (map (fun w => f_tag (w_fld w)) ws)
  else forall p w q w', ws = p ++ w :: q -> In w' p -> f_tag (w_fld w') = f_tag (w_fld w) ->
       f_init (w_fld w) = InitSomeNone /\ w_val w' = VOpt None.

(** The value of field [f] after [ws] was written. *)
Definition field_value (ws : list written) (f : fld vty) (v : val) : Prop :=
  (exists p w q, ws = p ++ w :: q /\ w_fld w = f /\ w_val w = v /\
                 forall w', In w' q -> f_tag (w_fld w') <> f_tag f)
  \/ ((forall w, In w ws -> f_tag (w_fld w) <> f_tag f) /\ absent_value f = Some v).

Inductive venc (strict : bool) : vty -> val -> list Z -> Prop :=
| enc_int : forall t z g,
    in_ity t z = true -> vlq_rep strict z g ->
    venc strict (TInt t) (VInt z) (INT_TAG :: g)
| enc_blob : forall l g,
    bytes_ok l -> vlq_rep strict (Z.of_nat (length l)) g ->
    venc strict TBlob (VBytes l) (BLOB_TAG :: g ++ l)
| enc_bool : forall b x,
    byte_ok x -> (b = true <-> x <> 0) ->
    venc strict TBool (VBool b) [BOOL_TAG; x]
| enc_fourcc : forall a b c d,
    bytes_ok [a; b; c; d] ->
    venc strict TFourcc (VInt (a * 2 ^ 24 + b * 2 ^ 16 + c * 2 ^ 8 + d)) [FOURCC_TAG; a; b; c; d]
| enc_none : forall t, venc strict (TOpt t) (VOpt None) [OPT_TAG; 0]
| enc_some : forall t x v bs,
    byte_ok x -> x <> 0 -> venc strict t v bs ->
    venc strict (TOpt t) (VOpt (Some v)) (OPT_TAG :: x :: bs)
| enc_array : forall t g vs bss,
    vlq_rep strict (Z.of_nat (length vs)) g -> Forall2 (venc strict t) vs bss ->
    venc strict (TArray t) (VList vs) (ARRAY_TAG :: g ++ concat bss)
| enc_enum : forall l z n g,
    In (z, n) l -> vlq_rep strict z g ->
    venc strict (TEnum l) (VEnum n) (INT_TAG :: g)
| enc_choice : forall tag l z n t v g bs,
    In (z, n, t) l -> vlq_rep strict z g -> venc strict t v bs ->
    venc strict (TChoice tag l) (VChoice n v) (tag :: g ++ bs)
| enc_struct : forall fs ws g vals,
    vlq_rep strict (Z.of_nat (length ws)) g ->
    Forall (fun w => In (w_fld w) fs /\ vlq_rep strict (f_tag (w_fld w)) (w_tag w) /\
                     venc strict (f_ty (w_fld w)) (w_val w) (w_bytes w)) ws ->
    occurrences_ok strict ws ->
    Forall2 (fun f nv => fst nv = f_name f /\ field_value ws f (snd nv)) fs vals ->
    venc strict (TStruct fs) (VStruct vals)
      (STRUCT_TAG :: g ++ concat (map (fun w => w_tag w ++ w_bytes w) ws)).

(** Well-formed descriptors: the arms of a [match] have distinct tags. *)
Fixpoint nodupb (l : list Z) : bool :=
  match l with [] => true | x :: l' => negb (existsb (Z.eqb x) l') && nodupb l' end.

Fixpoint wf_vty (t : vty) : bool :=
  match t with
  | TInt _ | TBlob | TBool | TFourcc => true
  | TOpt t' | TArray t' => wf_vty t'
  | TEnum l => nodupb (map fst l)
  | TChoice _ l => nodupb (map (fun x => fst (fst x)) l) && forallb (fun x => wf_vty (snd x)) l
  | TStruct fs => nodupb (map f_tag fs) && forallb (fun f => wf_vty (f_ty f)) fs
  end.

(** The bytes contain no run of [n] bytes with the high bit set.  (Nine of
    them only occur in integers of ten bytes or more, which no writer needs
    for values below 2^62.) *)
Definition no_run (n : nat) (l : list Z) : Prop :=
  forall p q s, l = p ++ q ++ s -> Forall (fun b => 128 <= b) q -> (length q < n)%nat.
