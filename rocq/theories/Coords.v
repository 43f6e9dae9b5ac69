(** * Map coordinates: src/cache_handles/map/coords.rs, src/common.rs *)
From Coq Require Import SpecFloat.
From Verif Require Import Base F32.
#[local] Open Scope Z_scope.

(** [x + y] on [f32]. *)
Definition f32_add (x y : f32) : f32 := SFadd f32_prec f32_emax x y.
(** [x as i32]: truncation towards zero, saturating, NaN to 0. *)
Definition f32_to_i32 (x : f32) : Z :=
  match x with
  | S754_zero _ | S754_nan => 0
  | S754_infinity s => if s then - 2 ^ 31 else 2 ^ 31 - 1
  | S754_finite s m e =>
      let a := if 0 <=? e then Z.pos m * 2 ^ e else Z.pos m / 2 ^ (- e) in
      let v := if s then - a else a in
      Z.max (- 2 ^ 31) (Z.min (2 ^ 31 - 1) v)
  end.
(** Model of coords.rs:83-90 [From<MapCoord> for MapTerrainCoord]. *)
Definition terrain_of_map (c : f32 * f32) : Z * Z := (f32_to_i32 (f32_add (fst c) f32_half), f32_to_i32 (f32_add (snd c) f32_half)).
(** Model of coords.rs:93-100 [From<MapTerrainCoord> for MapCoord]. *)
Definition map_of_terrain (c : Z * Z) : f32 * f32 := (f32_of_int (fst c), f32_of_int (snd c)).
(** Model of coords.rs:132-139 [From<MapCoord> for MapCellCoord]. *)
Definition cell_of_map (c : f32 * f32) : Z * Z := (f32_to_i32 (fst c), f32_to_i32 (snd c)).
(** Model of coords.rs:142-149 [From<MapCellCoord> for MapCoord]. *)
Definition map_of_cell (c : Z * Z) : f32 * f32 := (f32_add (f32_of_int (fst c)) f32_half, f32_add (f32_of_int (snd c)) f32_half).
