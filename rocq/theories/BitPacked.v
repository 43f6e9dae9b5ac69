(** * Model of the bit-packed primitives (src/bit_packed_decoder.rs) *)
From Verif Require Import Base BitSpec.

(** Model of the loop of [nom::bits::complete::take] (nom 8.0, an external
    crate) for an output type [u8].  The [u8] addition is not checked: the
    counts used below are at most 8, so the sum stays below 256
    ([nom_take_bound] in BitProofs). *)
Fixpoint nom_take_loop (bytes : list Z) (offset remaining : nat) (acc : Z) : Z * nat :=
  match bytes with
  | [] => (acc, 0%nat)
  | byte :: bytes' =>
      if Nat.eqb remaining 0 then (acc, 0%nat)
      else
        let val := Z.shiftr (as_u8 (Z.shiftl byte (Z.of_nat offset))) (Z.of_nat offset) in
        if Nat.ltb remaining (8 - offset)
        then (acc + Z.shiftr val (Z.of_nat (8 - offset - remaining)), (remaining + offset)%nat)
        else nom_take_loop bytes' 0 (remaining - (8 - offset))
               (acc + as_u8 (Z.shiftl val (Z.of_nat (remaining - (8 - offset)))))
  end.

(** Model of [nom::bits::complete::take::<&[u8], u8, usize, _>(count)]. *)
Definition nom_take (count : nat) (input : cursor) : outcome (cursor * Z) :=
  let (bs, off) := input in
  if Nat.eqb count 0 then Ok (input, 0)
  else if Nat.ltb (length bs * 8) (count + off) then Err ENom
  else
    let cnt := Nat.div (count + off) 8 in
    let (acc, end_offset) := nom_take_loop (firstn (S cnt) bs) off count 0 in
    Ok ((skipn cnt bs, end_offset), acc).

(** Model of src/bit_packed_decoder.rs:16-35 [rtake_n_bits].  The returned
    position ([input.1 + count], line 34) is dropped: every caller ignores it. *)
Definition rtake_n_bits (input : cursor) (count : nat) : outcome Z :=
  let (bs, off) := input in
  if Nat.ltb 8 (off + count) then
    do (_, res0) <- nom_take (8 - off) (bs, 0%nat);
    do (tail, _) <- nom_take 8 (bs, 0%nat);
    let left_over_count := (count - (8 - off))%nat in
    do (_, res1) <- nom_take left_over_count (fst tail, (8 - left_over_count)%nat);
    Ok (as_u8 (Z.shiftl res0 (Z.of_nat left_over_count)) + res1)
  else
    do (_, res) <- nom_take count (bs, (8 - off - count)%nat);
    Ok res.

(** Model of src/bit_packed_decoder.rs:51-69, the [loop] of
    [take_n_bits_into_i64].  Fuel bounds the number of rounds. *)
Fixpoint take_n_bits_loop (fuel : nat) (tail : cursor) (remaining_bits : nat) (res : Z)
  : outcome (cursor * Z) :=
  match fuel with
  | O => Err (EOther "out of fuel")
  | S f =>
      let count :=
        if Nat.ltb 8 remaining_bits
        then (if Nat.eqb (snd tail) 0 then 8%nat else (8 - snd tail)%nat)
        else remaining_bits in
      do bits <- rtake_n_bits tail count;
      do (new_tail, _) <- nom_take count tail;
      let res' := Z.lor res (as_i64 (Z.shiftl bits (Z.of_nat (remaining_bits - count)))) in
      let remaining_bits' := (remaining_bits - count)%nat in
      if Nat.eqb remaining_bits' 0 then Ok (new_tail, res')
      else take_n_bits_loop f new_tail remaining_bits' res'
  end.

(** Model of src/bit_packed_decoder.rs:41-71 [take_n_bits_into_i64].  At most
    ten rounds are needed for 64 bits, so [total_bits + 1] of fuel is ample. *)
Definition take_n_bits_into_i64 (input : cursor) (total_bits : nat) : outcome (cursor * Z) :=
  if Nat.ltb 64 total_bits then Err (EMoreThan64 (Z.of_nat total_bits))
  else take_n_bits_loop (S total_bits) input total_bits 0.

(** Model of src/bit_packed_decoder.rs:83-99, the [loop] of [take_bit_array]. *)
Fixpoint take_bit_array_loop (fuel : nat) (tail : cursor) (remaining_bits : Z)
  : outcome (cursor * list Z) :=
  match fuel with
  | O => Err (EOther "out of fuel")
  | S f =>
      let count := Z.to_nat (if 8 <? remaining_bits then 8 else remaining_bits) in
      do bits <- rtake_n_bits tail count;
      do (new_tail, _) <- nom_take count tail;
      let remaining_bits' := remaining_bits - Z.of_nat count in
      if remaining_bits' =? 0 then Ok (new_tail, [bits])
      else do (t, more) <- take_bit_array_loop f new_tail remaining_bits'; Ok (t, bits :: more)
  end.

(** Model of src/bit_packed_decoder.rs:76-102 [take_bit_array].  Every round but
    the last consumes eight bits, so one more round than there are bytes is
    enough ([take_bit_array_spec] in BitProofs). *)
Definition take_bit_array (input : cursor) (total_bits : Z) : outcome (cursor * list Z) :=
  take_bit_array_loop (S (S (length (fst input)))) input total_bits.

(** Model of src/bit_packed_decoder.rs:106-116 [byte_align]. *)
Definition byte_align (input : cursor) : outcome cursor :=
  if Nat.eqb (snd input) 0 then Ok input
  else do (tail, _) <- nom_take (8 - snd input) input; Ok tail.

(** Model of src/bit_packed_decoder.rs:120-124 [take_unaligned_byte]; [res[0]]
    on an empty vector would panic. *)
Definition take_unaligned_byte (input : cursor) : outcome (cursor * Z) :=
  do (tail, res) <- take_bit_array input 8;
  match res with [] => Panic | b :: _ => Ok (tail, b) end.

(** Model of src/bit_packed_decoder.rs:128-132 [take_fourcc]. *)
Definition take_fourcc (input : cursor) : outcome (cursor * list Z) := take_bit_array input (4 * 8).

(** Model of src/bit_packed_decoder.rs:136-139 [take_null]. *)
Definition take_null (input : cursor) : outcome cursor := Ok input.

(** Model of src/bit_packed_decoder.rs:144-153 [parse_packed_int]. *)
Definition parse_packed_int (m : build) (input : cursor) (offset : Z) (num_bits : nat)
  : outcome (cursor * Z) :=
  do (tail, num) <- take_n_bits_into_i64 input num_bits;
  do res <- add_i64 m offset num;
  Ok (tail, res).

(** Model of src/bit_packed_decoder.rs:157-162 [parse_bool]. *)
Definition parse_bool (input : cursor) : outcome (cursor * bool) :=
  do val <- rtake_n_bits input 1;
  do (tail, _) <- nom_take 1 input;
  Ok (tail, negb (val =? 0)).
