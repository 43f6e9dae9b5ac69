(** * C17, C18: unit tags and unit positions *)
From Verif Require Import Base Tags TagFacts.

(** C17. *)
Theorem C17_tag_split : forall i r, 0 <= i < 2 ^ 14 -> 0 <= r < 2 ^ 18 ->
  unit_tag_index (unit_tag i r) = i /\ unit_tag_recycle (unit_tag i r) = r /\ 0 <= unit_tag i r < two32.
Proof. exact tag_split. Qed.
Print Assumptions C17_tag_split.

Theorem C17_tag_join : forall t, 0 <= t < two32 ->
  unit_tag (unit_tag_index t) (unit_tag_recycle t) = t /\
  0 <= unit_tag_index t < 2 ^ 14 /\ 0 <= unit_tag_recycle t < 2 ^ 18.
Proof. exact tag_join. Qed.
Print Assumptions C17_tag_join.

Theorem C17_tag_injective : forall i r i' r', 0 <= i < 2 ^ 14 -> 0 <= r < 2 ^ 18 -> 0 <= i' < 2 ^ 14 -> 0 <= r' < 2 ^ 18 ->
  unit_tag i r = unit_tag i' r' -> i = i' /\ r = r'.
Proof. exact tag_inj. Qed.
Print Assumptions C17_tag_injective.

Example C17_example : unit_tag 281 3 = 73662467 /\ unit_tag_index 73662467 = 281 /\ unit_tag_recycle 73662467 = 3 /\
  unit_tag 16383 262143 = 4294967295.
Proof. repeat split. Qed.

(** C18.  [deltas_upto items k] is the sum of items 0, 3, ..., 3k.  Whatever the
    build, a result has one entry per whole triple; its fields are the
    announced numbers modulo 2^32. *)
Theorem C18_positions_modular : forall m f items r, to_unit_positions_vec m f items = Ok r ->
  length r = (length items / 3)%nat /\
  forall k, (k < length items / 3)%nat -> nth_error r k =
    Some (mkpos (as_u32 (f + deltas_upto items k)) (as_i32 (4 * nth (3 * k + 1) items 0)) (as_i32 (4 * nth (3 * k + 2) items 0))).
Proof. exact positions_value. Qed.
Print Assumptions C18_positions_modular.

(** The English claim, when nothing overflows (missing: the overflowing inputs,
    for which it is false, see below). *)
Theorem C18_positions_partial : forall m f items, 0 <= f < 2147483648 ->
  (forall k, (k < length items / 3)%nat -> 0 <= f + deltas_upto items k < 2147483648 /\
     - 536870912 <= nth (3 * k + 1) items 0 < 536870912 /\ - 536870912 <= nth (3 * k + 2) items 0 < 536870912) ->
  exists r, to_unit_positions_vec m f items = Ok r /\ length r = (length items / 3)%nat /\
    forall k, (k < length items / 3)%nat -> nth_error r k =
      Some (mkpos (f + deltas_upto items k) (4 * nth (3 * k + 1) items 0) (4 * nth (3 * k + 2) items 0)).
Proof. exact positions_exact. Qed.
Print Assumptions C18_positions_partial.

Theorem C18_wrapping_total : forall f items, exists r, to_unit_positions_vec Wrapping f items = Ok r.
Proof. exact positions_wrapping. Qed.
Print Assumptions C18_wrapping_total.

(** False when a coordinate needs more than 32 bits: a checked build panics, a
    wrapping build reports another position. *)
Theorem C18_positions_refuted : exists f items, to_unit_positions_vec Checked f items = Panic /\
  to_unit_positions_vec Wrapping f items = Ok [mkpos 2 (-2147483648) 0].
Proof. exact (ex_intro _ 1 (ex_intro _ [1; 536870912; 0] positions_checked_overflow)). Qed.
Print Assumptions C18_positions_refuted.

Example C18_example : to_unit_positions_vec Checked 10 [1; 30; 40; 5; 2; -3; 7] = Ok [mkpos 11 120 160; mkpos 16 8 (-12)].
Proof. reflexivity. Qed.
