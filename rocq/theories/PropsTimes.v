(** * C56: replay times *)
From Verif Require Import Base Times.
#[local] Open Scope Z_scope.
#[local] Open Scope list_scope.

(** C56, false before 1601, where the ticks are cut towards zero: one tick
    earlier than 1601-01-01 gives that very midnight, not the microsecond before
    ... *)
Theorem C56_floor_refuted : exists bd t off r, in_i64 t = true /\ in_i64 off = true /\ transform_to_naivetime bd t off = Ok (Some r) /\ (t - epoch_ticks - off) * 100 < nanos r.
Proof. exists Checked, (-1), 0. eexists. split; [reflexivity|]. split; [reflexivity|]. split; [vm_compute; reflexivity|]. vm_compute. reflexivity. Qed.
Print Assumptions C56_floor_refuted.
(** ... and for an offset that is no whole number of microseconds. *)
Theorem C56_offset_refuted : exists bd t off r, in_i64 t = true /\ 0 <= t /\ in_i64 off = true /\ transform_to_naivetime bd t off = Ok (Some r) /\ (t - epoch_ticks - off) * 100 < nanos r.
Proof. exists Checked, epoch_ticks, 9. eexists. split; [reflexivity|]. split; [discriminate|]. split; [reflexivity|]. split; [vm_compute; reflexivity|]. vm_compute. reflexivity. Qed.
Print Assumptions C56_offset_refuted.
(** Otherwise exact to the microsecond ... *)
Theorem C56_exact_partial : forall bd t off, in_i64 t = true -> in_i64 off = true -> 0 <= t -> off mod 10 = 0 ->
  exists r, transform_to_naivetime bd t off = Ok (Some r) /\ nanos r <= (t - epoch_ticks - off) * 100 < nanos r + 1000 /\ nanos r mod 1000 = 0.
Proof. exact time_exact. Qed.
Print Assumptions C56_exact_partial.
(** ... and less than two microseconds wrong in every case; never [None], never a panic. *)
Theorem C56_near_partial : forall bd t off, in_i64 t = true -> in_i64 off = true ->
  exists r, transform_to_naivetime bd t off = Ok (Some r) /\ Z.abs (nanos r - (t - epoch_ticks - off) * 100) < 2000.
Proof. exact time_near. Qed.
Print Assumptions C56_near_partial.
(** Later ticks never give an earlier time. *)
Theorem C56_monotone : forall bd t t' off r r', in_i64 t = true -> in_i64 t' = true -> in_i64 off = true -> t <= t' ->
  transform_to_naivetime bd t off = Ok (Some r) -> transform_to_naivetime bd t' off = Ok (Some r') -> not_before r r'.
Proof. exact time_monotone. Qed.
Print Assumptions C56_monotone.
(** A larger offset never gives a later time. *)
Theorem C56_offset : forall bd t off off' r r', in_i64 t = true -> in_i64 off = true -> in_i64 off' = true -> off <= off' ->
  transform_to_naivetime bd t off = Ok (Some r) -> transform_to_naivetime bd t off' = Ok (Some r') -> not_before r' r.
Proof. exact time_offset. Qed.
Print Assumptions C56_offset.
(** The sub-second part is in range. *)
Theorem C56_subsecond : forall bd t off r, in_i64 t = true -> in_i64 off = true -> transform_to_naivetime bd t off = Ok (Some r) -> 0 <= snd r < 1000000000.
Proof. intros bd t off r Ht Ho E. destruct (time_value bd t off Ht Ho) as (x & Ex & _ & B). assert (x = r) by congruence. subst. exact B. Qed.
Print Assumptions C56_subsecond.
(** 2023-09-24 16:01:57.1234567 UTC, two hours east. *)
Example C56_example : in_i64 133400449171234567 = true /\ transform_to_naivetime Checked 133400449171234567 72000000000 = Ok (Some (1695564117, 123456000)).
Proof. split; vm_compute; reflexivity. Qed.
