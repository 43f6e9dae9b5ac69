(** * The camera boxes of the viewer, as they are drawn

    The rest of examples/tui/mod.rs:404-412: Viewer.v keeps of a box the position
    of the camera and the colour; here is the rectangle. *)
From Verif Require Import Base Events F32 F64 Viewer.
#[local] Open Scope Z_scope.

Definition f64_sub (x y : f64) : f64 := SFsub f64_prec f64_emax x y.
(** Model of examples/tui/mod.rs:61 [GAME_SPOINT_MINI_TO_MAP_RATIO]. *)
Definition mini_to_map : f64 := f64_of_int 250.
(** The fields of ratatui's [Rectangle], but its colour. *)
Record rectangle := mk_rectangle { re_x : f64; re_y : f64; re_width : f64; re_height : f64 }.
(** Model of examples/tui/mod.rs:405-406: the left, and the lower, edge. *)
Definition camera_edge (z : Z) : f64 := f64_sub (f64_div (f64_of_int z) mini_to_map) (f64_of_int 10).
(** Model of examples/tui/mod.rs:404-412. *)
Definition rectangle_of (c : camera_box) : rectangle :=
  mk_rectangle (camera_edge (pm_x (bx_center c))) (camera_edge (pm_y (bx_center c))) (f64_of_int 20) (f64_of_int 20).
(** [f64::from] of a [f32]. *)
Definition f64_from (x : f32) : f64 :=
  match x with S754_finite s m e => binary_normalize f64_prec f64_emax (cond_Zopp s (Z.pos m)) e s | _ => x end.
(** Model of examples/tui/mod.rs:397-402: the middle and the radius of a unit's
    circle. *)
Definition circle_drawn (c : circle) : f64 * f64 * f64 := (f64_from (ci_x c), f64_from (ci_y c), f64_from (ci_radius c)).
