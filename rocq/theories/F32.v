(** * Single-precision floats

    Rust's [f32] is modelled by the standard library's executable IEEE-754
    specification (Coq.Floats.SpecFloat: no axioms), with 24 bits of precision
    and the exponent range of binary32, rounding to nearest, ties to even. *)
From Coq Require Export SpecFloat.
From Verif Require Import Base.

Definition f32 : Type := spec_float.
Definition f32_prec : Z := 24.
Definition f32_emax : Z := 128.
(** [z as f32]. *)
Definition f32_of_int (z : Z) : f32 := binary_normalize f32_prec f32_emax z 0 false.
Definition f32_mul (x y : f32) : f32 := SFmul f32_prec f32_emax x y.
Definition f32_div (x y : f32) : f32 := SFdiv f32_prec f32_emax x y.
Definition f32_neg (x : f32) : f32 := SFopp x.
Definition f32_one : f32 := f32_of_int 1.
Definition f32_two : f32 := f32_of_int 2.
(** 0.5 *)
Definition f32_half : f32 := binary_normalize f32_prec f32_emax 1 (-1) false.
(** 0.45f32, the nearest single: 15099494 * 2^-25. *)
Definition f32_045 : f32 := S754_finite false 15099494 (-25).
(** [x as i64]: truncation towards zero, saturating, NaN to 0. *)
Definition f32_to_i64 (x : f32) : Z :=
  match x with
  | S754_zero _ | S754_nan => 0
  | S754_infinity s => if s then - two63 else two63 - 1
  | S754_finite s m e =>
      let a := if 0 <=? e then Z.pos m * 2 ^ e else Z.pos m / 2 ^ (- e) in
      let v := if s then - a else a in
      Z.max (- two63) (Z.min (two63 - 1) v)
  end.
(** A float the hardware can hold. *)
Definition f32_valid (x : f32) : bool := valid_binary f32_prec f32_emax x.
