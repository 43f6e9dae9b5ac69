(** * Unit tags and unit positions *)
From Verif Require Import Base.

(** Model of src/tracker_events/mod.rs:92-94 [unit_tag].  Both arguments are
    [u32], so nothing overflows an [i64]. *)
Definition unit_tag (unit_tag_index unit_tag_recycle : Z) : Z :=
  Z.shiftl unit_tag_index 18 + unit_tag_recycle.
(** Model of src/tracker_events/mod.rs:98-100 [unit_tag_index]. *)
Definition unit_tag_index (unit_tag : Z) : Z := as_u32 (Z.land (Z.shiftr unit_tag 18) 0x3fff).
(** Model of src/tracker_events/mod.rs:104-106 [unit_tag_recycle]. *)
Definition unit_tag_recycle (unit_tag : Z) : Z := as_u32 (Z.land unit_tag 0x3ffff).

(** [i32] addition and multiplication. *)
Definition ovf_i32 (m : build) (z : Z) : outcome Z :=
  if in_i32 z then Ok z else match m with Checked => Panic | Wrapping => Ok (as_i32 z) end.

(** Model of src/tracker_events/unit_positions.rs:15-22 [UnitPosition]. *)
Record unit_position : Type := mkpos { up_tag : Z; up_x : Z; up_y : Z }.

(** Model of src/tracker_events/unit_positions.rs:41-53, the loop of
    [to_unit_positions_vec] over [chunks_exact(3)]. *)
Fixpoint positions_loop (m : build) (unit_index : Z) (items : list Z) : outcome (list unit_position) :=
  match items with
  | d :: x :: y :: rest =>
      do unit_index' <- ovf_i32 m (unit_index + d);
      do x' <- ovf_i32 m (x * 4);
      do y' <- ovf_i32 m (y * 4);
      do res <- positions_loop m unit_index' rest;
      Ok (mkpos (as_u32 unit_index') x' y' :: res)
  | _ => Ok []
  end.
(** Model of src/tracker_events/unit_positions.rs:38-55 [to_unit_positions_vec]. *)
Definition to_unit_positions_vec (m : build) (first_unit_index : Z) (items : list Z) : outcome (list unit_position) :=
  positions_loop m (as_i32 first_unit_index) items.
