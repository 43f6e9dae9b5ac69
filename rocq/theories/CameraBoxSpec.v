(** * Where the camera boxes should be *)
From Verif Require Import Base F32 F32Round F64 F64Round Events Maps Balance Viewer CameraBox.
#[local] Open Scope Z_scope.

(** The double [r] is a real number no more than 2^-43 from [n / d].  [fval64 r]
    is [r] in units of 2^-1074, of which every double is a multiple. *)
Definition close_to (r : f64) (n d : Z) : Prop := 2 ^ 43 * Z.abs (d * fval64 r - n * 2 ^ 1074) <= d * 2 ^ 1074.
(** The point [(x / 250, y / 250)] is in the middle of a square of 20 by 20. *)
Definition surrounds (r : rectangle) (p : point_mini) : Prop :=
  close_to (re_x r) (pm_x p - 10 * 250) 250 /\ close_to (re_y r) (pm_y p - 10 * 250) 250 /\
  fval64 (re_width r) = 20 * 2 ^ 1074 /\ fval64 (re_height r) = 20 * 2 ^ 1074.
(** Camera positions have 16 bits. *)
Definition sixteen_bits (p : point_mini) : Prop := 0 <= pm_x p < 2 ^ 16 /\ 0 <= pm_y p < 2 ^ 16.
(** The same real number; [fval x] is [x] in units of 2^-149. *)
Definition same_number (r : f64) (x : f32) : Prop :=
  match x with
  | S754_nan => r = S754_nan
  | S754_infinity s => r = S754_infinity s
  | S754_zero s => r = S754_zero s
  | S754_finite _ _ _ => (exists s m e, r = S754_finite s m e) /\ fval64 r * 2 ^ 149 = fval x * 2 ^ 1074
  end.
(** The middle and the radius of a circle are drawn as the very numbers they are. *)
Definition drawn_exactly (c : circle) : Prop :=
  let '(x, y, r) := circle_drawn c in same_number x (ci_x c) /\ same_number y (ci_y c) /\ same_number r (ci_radius c).
(** The balance data has radii an [f32] can hold; C115 reads no others. *)
Definition float_radii (b : balance) : Prop := forall n u r, sget n b = Some u -> bu_radius u = Some r -> f32_valid r = true.
