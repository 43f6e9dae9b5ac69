(** * Model of [parse_vlq_int] *)
From Verif Require Import Base.

(** Model of src/lib.rs:157-163, the [while] loop of [parse_vlq_int].
    [bits += 7] (line 162) is not allowed to overflow: that would need an input
    of 2^60 bytes. *)
Fixpoint vlq_loop (m : build) (tail : list Z) (result bits : Z) : outcome (list Z * Z) :=
  match tail with
  | [] => Err ENom
  | b :: new_tail =>
      do s <- shl_i64 m (Z.land b 127) bits;
      let result' := Z.lor result s in
      if Z.land b 128 =? 0 then Ok (new_tail, result')
      else vlq_loop m new_tail result' (bits + 7)
  end.

(** Model of src/lib.rs:152-168 [parse_vlq_int]. *)
Definition parse_vlq_int (m : build) (input : list Z) : outcome (list Z * Z) :=
  match input with
  | [] => Err ENom
  | b :: tail =>
      let is_negative := negb (Z.land b 1 =? 0) in
      let result := Z.land (Z.shiftr b 1) 63 in
      do r <- (if Z.land b 128 =? 0 then Ok (tail, result) else vlq_loop m tail result 6);
      if is_negative then do n <- neg_i64 m (snd r); Ok (fst r, n) else Ok r
  end.
