(** * Specification of the bit-packed format of whole values

    What it means for a bit string to be an encoding of a value of a given
    type, when its first bit is bit [off] of its byte.  No decoder appears
    here.  [format] switches on the deviations of the crate from Blizzard's
    format, so that both the intended format and the accepted one are
    described by the same rules. *)
From Verif Require Import Base BitSpec Types.

Record format : Type := mkformat {
  f_reread : bool;   (* a [BOptReread] value starts at its presence bit *)
  f_zero : bool;     (* an empty blob or bit array reads as one zero byte *)
  f_narrow : bool }. (* [offset + value] must not leave the i64 range, the
                        unsigned value being first taken as an i64 *)

(** Blizzard's format. *)
Definition blizzard : format := mkformat false false false.
(** What the crate accepts, in the two kinds of builds. *)
Definition crate (m : build) : format :=
  mkformat true true (match m with Checked => true | Wrapping => false end).

(** Bit offset after [l], when it starts at [off]. *)
Definition after (off : nat) (l : list bool) : nat := ((off + length l) mod 8)%nat.

(** [pad] fills up the byte. *)
Definition is_pad (off : nat) (pad : list bool) : Prop := length pad = ((8 - off) mod 8)%nat.

Definition blob_value (F : format) (l : list Z) : val :=
  VBytes (match l with [] => if f_zero F then [0] else [] | _ => l end).

Section benc.
  Variable F : format.

  (** [benc t off v bits] *)
  Inductive benc : bty -> nat -> val -> list bool -> Prop :=
  | be_int : forall o n off l,
      length l = n ->
      (f_narrow F = true -> in_i64 (o + as_i64 (be_value off l)) = true) ->
      benc (BInt o n) off (VInt (as_i64 (o + be_value off l))) l
  | be_bool : forall off b, benc BBool off (VBool b) [b]
  | be_byte : forall off l, length l = 8%nat -> benc BByte off (VInt (be_value off l)) l
  | be_fourcc : forall off l, length l = 32%nat -> benc BFourcc off (VBytes (be_bytes off l)) l
  | be_null : forall off, benc BNull off VNull []
  | be_unit : forall off, benc BUnit off VNull []
  | be_none : forall t off, benc (BOpt t) off (VOpt None) [false]
  | be_some : forall t off v l,
      benc t (after off [true]) v l -> benc (BOpt t) off (VOpt (Some v)) (true :: l)
  | be_rnone : forall t off, benc (BOptReread t) off (VOpt None) [false]
  | be_rsome : forall t off v l, f_reread F = false ->
      benc t (after off [true]) v l -> benc (BOptReread t) off (VOpt (Some v)) (true :: l)
  | be_rsome_reread : forall t off v l b s, f_reread F = true ->
      (* the presence bit is also the first bit of the value *)
      b = true -> benc t off v l -> l = b :: s -> benc (BOptReread t) off (VOpt (Some v)) l
  | be_array : forall n t off ln vs l,
      length ln = n -> be_value off ln = Z.of_nat (length vs) ->
      benc_list t (after off ln) vs l ->
      benc (BArray n t) off (VList vs) (ln ++ l)
  | be_blob : forall n off ln pad l,
      length ln = n -> be_value off ln = Z.of_nat (length l) ->
      is_pad (after off ln) pad -> bytes_ok l ->
      benc (BBlob n) off (blob_value F l) (ln ++ pad ++ flat_map byte_bits l)
  | be_fixed : forall k off pad l,
      is_pad off pad -> bytes_ok l -> Z.of_nat (length l) = k ->
      benc (BFixedBlob k) off (blob_value F l) (pad ++ flat_map byte_bits l)
  | be_bitint : forall n off ln l,
      length ln = n -> be_value off ln = Z.of_nat (length l) -> (length l <= 64)%nat ->
      benc (BBitInt n) off (VInt (as_i64 (be_value (after off ln) l))) (ln ++ l)
  | be_bitarray : forall n off ln l,
      length ln = n -> be_value off ln = Z.of_nat (length l) ->
      benc (BBitArray n) off (blob_value F (be_bytes (after off ln) l)) (ln ++ l)
  | be_enum : forall n vars off l s,
      length l = n -> In (be_value off l, s) vars -> benc (BEnum n vars) off (VEnum s) l
  | be_choice : forall n vars off ln s t v l,
      length ln = n -> In (be_value off ln, s, t) vars -> benc t (after off ln) v l ->
      benc (BChoice n vars) off (VChoice s v) (ln ++ l)
  | be_struct : forall fs off vs l,
      benc_fields fs off vs l -> benc (BStruct fs) off (VStruct vs) l
  (** elements one after the other *)
  with benc_list : bty -> nat -> list val -> list bool -> Prop :=
  | bel_nil : forall t off, benc_list t off [] []
  | bel_cons : forall t off v vs l1 l2,
      benc t off v l1 -> benc_list t (after off l1) vs l2 -> benc_list t off (v :: vs) (l1 ++ l2)
  (** fields in declaration order *)
  with benc_fields : list (string * bty) -> nat -> list (string * val) -> list bool -> Prop :=
  | bef_nil : forall off, benc_fields [] off [] []
  | bef_cons : forall n t fs off v vs l1 l2,
      benc t off v l1 -> benc_fields fs (after off l1) vs l2 ->
      benc_fields ((n, t) :: fs) off ((n, v) :: vs) (l1 ++ l2).
End benc.

(** Widths the format can express: integers and lengths of at most 64 bits,
    the bias an i64; length prefixes below 64 bits; distinct variant tags. *)
Fixpoint nodup_z (l : list Z) : bool :=
  match l with [] => true | x :: l' => negb (existsb (Z.eqb x) l') && nodup_z l' end.

Fixpoint wf_bty (t : bty) : bool :=
  match t with
  | BInt o n => Nat.leb n 64 && in_i64 o
  | BBool | BByte | BFourcc | BNull | BUnit => true
  | BFixedBlob k => 0 <? k
  | BOpt t' => wf_bty t'
  | BOptReread t' => wf_bty t' && match t' with BInt _ (S _) | BArray (S _) _ => true | _ => false end
  | BArray n t' => Nat.leb n 32 && wf_bty t'
  | BBlob n | BBitInt n | BBitArray n => Nat.leb n 32
  | BEnum n l => Nat.leb n 32 && nodup_z (map fst l)
  | BChoice n l => Nat.leb n 32 && nodup_z (map (fun x => fst (fst x)) l) && forallb (fun x => wf_bty (snd x)) l
  | BStruct fs => forallb (fun x => wf_bty (snd x)) fs
  end.
