(** * Specification of what a build without overflow checks reads

    The versioned format of VersionedSpec, except for the integers: they may be
    of any length.  The groups of a number are laid at bits 0 (six bits of the
    first byte), 6, 13, 20, ..., counted modulo 64, one over the other; what
    goes beyond bit 63 is lost.  Up to ten bytes the groups do not meet.  No
    decoder appears here. *)
From Verif Require Import Base VlqSpec Types VersionedSpec.

(** The groups [g], the first of them at bit [k]. *)
Fixpoint overlaid (k : Z) (g : list Z) : Z :=
  match g with
  | [] => 0
  | b :: g' => Z.lor (b mod 128 * 2 ^ (k mod 64)) (overlaid (k + 7) g')
  end.

Definition wrapped_magnitude (g : list Z) : Z :=
  match g with
  | [] => 0
  | b :: g' => Z.lor ((b / 2) mod 64) (overlaid 6 g')
  end.

(** [g] is read as [z]. *)
Definition wrapped_rep (z : Z) (g : list Z) : Prop :=
  bytes_ok g /\ vlq_terminated g /\
  z = as_i64 (if Z.odd (hd 0 g) then - wrapped_magnitude g else wrapped_magnitude g).

(** The format, for a given reading [rep] of integers. *)
Section Format.
Variable rep : Z -> list Z -> Prop.

Inductive venc_by : vty -> val -> list Z -> Prop :=
| by_int : forall t z g, in_ity t z = true -> rep z g -> venc_by (TInt t) (VInt z) (INT_TAG :: g)
| by_blob : forall l g, bytes_ok l -> rep (Z.of_nat (length l)) g -> venc_by TBlob (VBytes l) (BLOB_TAG :: g ++ l)
| by_bool : forall b x, byte_ok x -> (b = true <-> x <> 0) -> venc_by TBool (VBool b) [BOOL_TAG; x]
| by_fourcc : forall a b c d, bytes_ok [a; b; c; d] ->
    venc_by TFourcc (VInt (a * 2 ^ 24 + b * 2 ^ 16 + c * 2 ^ 8 + d)) [FOURCC_TAG; a; b; c; d]
| by_none : forall t, venc_by (TOpt t) (VOpt None) [OPT_TAG; 0]
| by_some : forall t x v bs, byte_ok x -> x <> 0 -> venc_by t v bs -> venc_by (TOpt t) (VOpt (Some v)) (OPT_TAG :: x :: bs)
| by_array : forall t g vs bss, rep (Z.of_nat (length vs)) g -> Forall2 (venc_by t) vs bss ->
    venc_by (TArray t) (VList vs) (ARRAY_TAG :: g ++ concat bss)
| by_enum : forall l z n g, In (z, n) l -> rep z g -> venc_by (TEnum l) (VEnum n) (INT_TAG :: g)
| by_choice : forall tag l z n t v g bs, In (z, n, t) l -> rep z g -> venc_by t v bs ->
    venc_by (TChoice tag l) (VChoice n v) (tag :: g ++ bs)
| by_struct : forall fs ws g vals, rep (Z.of_nat (length ws)) g ->
    Forall (fun w => In (w_fld w) fs /\ rep (f_tag (w_fld w)) (w_tag w) /\ venc_by (f_ty (w_fld w)) (w_val w) (w_bytes w)) ws ->
    occurrences_ok false ws ->
    Forall2 (fun f nv => fst nv = f_name f /\ field_value ws f (snd nv)) fs vals ->
    venc_by (TStruct fs) (VStruct vals) (STRUCT_TAG :: g ++ concat (map (fun w => w_tag w ++ w_bytes w) ws)).
End Format.
