(** * Specification of the variable-length integers of the versioned format

    Independent of the decoder: what a byte string of this format denotes.

    A number is a non-empty byte string in which every byte but the last has
    its high bit set.  Bit 0 of the first byte is the sign; the magnitude is
    made of bits 1..6 of the first byte followed by the low seven bits of each
    further byte, least significant group first. *)
From Verif Require Import Base.

(** All bytes but the last have the high bit set; the last one has not. *)
Fixpoint vlq_terminated (g : list Z) : Prop :=
  match g with
  | [] => False
  | [b] => b < 128
  | b :: g' => 128 <= b /\ vlq_terminated g'
  end.

Fixpoint vlq_groups (g : list Z) : Z :=
  match g with
  | [] => 0
  | b :: g' => b mod 128 + 128 * vlq_groups g'
  end.

Definition vlq_magnitude (g : list Z) : Z :=
  match g with
  | [] => 0
  | b :: g' => (b / 2) mod 64 + 64 * vlq_groups g'
  end.

Definition vlq_value (g : list Z) : Z :=
  match g with
  | [] => 0
  | b :: _ => if Z.odd b then - vlq_magnitude g else vlq_magnitude g
  end.

(** Canonical (shortest) encoder, used for the round-trip statements.  Nine
    further groups are enough for every 64-bit magnitude. *)
Fixpoint vlq_enc_groups (fuel : nat) (z : Z) : list Z :=
  match fuel with
  | O => [z]
  | S f => if z <? 128 then [z] else (z mod 128 + 128) :: vlq_enc_groups f (z / 128)
  end.

Definition vlq_encode (v : Z) : list Z :=
  let mag := Z.abs v in
  let sign := if v <? 0 then 1 else 0 in
  if mag <? 64 then [2 * mag + sign]
  else (2 * (mag mod 64) + sign + 128) :: vlq_enc_groups 9 (mag / 64).
