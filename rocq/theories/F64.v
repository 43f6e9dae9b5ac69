(** * Double-precision floats

    Rust's [f64], by the same executable specification as [f32] (F32): 53 bits of
    precision, the exponent range of binary64. *)
From Coq Require Export SpecFloat.
From Verif Require Import Base.

Definition f64 : Type := spec_float.
Definition f64_prec : Z := 53.
Definition f64_emax : Z := 1024.
(** [z as f64]. *)
Definition f64_of_int (z : Z) : f64 := binary_normalize f64_prec f64_emax z 0 false.
Definition f64_div (x y : f64) : f64 := SFdiv f64_prec f64_emax x y.
(** A float the hardware can hold. *)
Definition f64_valid (x : f64) : bool := valid_binary f64_prec f64_emax x.
