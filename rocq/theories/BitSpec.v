(** * Specification of the bit-packed format

    Independent of the decoder.  The stream is a sequence of bits: the bits of
    each byte in turn, least significant bit first.  An n-bit number is read as
    Blizzard's reference [BitPackedBuffer.read_bits] does in big-endian mode:

      while resultbits != bits:
          copybits = min(bits - resultbits, bits left in the current byte)
          copy     = the next copybits bits of the byte, from the low end
          result  |= copy << (bits - resultbits - copybits)

    so each chunk is a little-endian group, and the chunks are concatenated
    most significant first. *)
From Verif Require Import Base.

(** Bits of a byte, least significant first. *)
Definition byte_bits (b : Z) : list bool :=
  map (fun i => Z.testbit b (Z.of_nat i)) (seq 0 8).

(** A position in a byte string: the remaining bytes, and how many (low) bits
    of the first one are already used.  The Rust code has this same pair. *)
Definition cursor : Type := (list Z * nat)%type.

(** The bits still to be read from a position. *)
Definition stream (c : cursor) : list bool := skipn (snd c) (flat_map byte_bits (fst c)).

(** Positions the decoder works with: a partly used byte is really there. *)
Definition cursor_ok (c : cursor) : Prop :=
  bytes_ok (fst c) /\ (snd c < 8)%nat /\ (snd c <> 0%nat -> fst c <> []).

(** The position [n] bits further. *)
Definition advance (c : cursor) (n : nat) : cursor :=
  (skipn ((snd c + n) / 8) (fst c), Nat.modulo (snd c + n) 8).

Definition b2z (b : bool) : Z := if b then 1 else 0.

(** A little-endian group of bits. *)
Fixpoint lsb_value (l : list bool) : Z :=
  match l with [] => 0 | b :: l' => b2z b + 2 * lsb_value l' end.

(** The number made of [bits] when its first bit is bit [off] of its byte. *)
Fixpoint be_value_fuel (fuel off : nat) (bits : list bool) : Z :=
  match fuel, bits with
  | O, _ | _, [] => 0
  | S f, _ =>
      let c := Nat.min (length bits) (8 - off) in
      lsb_value (firstn c bits) * 2 ^ Z.of_nat (length bits - c)
      + be_value_fuel f 0 (skipn c bits)
  end.
Definition be_value (off : nat) (bits : list bool) : Z := be_value_fuel (length bits) off bits.

(** Successive 8-bit groups, the last one possibly shorter. *)
Fixpoint be_bytes_fuel (fuel off : nat) (bits : list bool) : list Z :=
  match fuel, bits with
  | O, _ | _, [] => []
  | S f, _ => be_value off (firstn 8 bits) :: be_bytes_fuel f off (skipn 8 bits)
  end.
Definition be_bytes (off : nat) (bits : list bool) : list Z := be_bytes_fuel (length bits) off bits.

(** Encoders, used for the round-trip statements. *)
Fixpoint lsb_bits (n : nat) (v : Z) : list bool :=
  match n with O => [] | S n' => Z.odd v :: lsb_bits n' (v / 2) end.

Fixpoint be_bits_fuel (fuel off n : nat) (v : Z) : list bool :=
  match fuel, n with
  | O, _ | _, O => []
  | S f, _ =>
      let c := Nat.min n (8 - off) in
      lsb_bits c (v / 2 ^ Z.of_nat (n - c)) ++ be_bits_fuel f 0 (n - c) v
  end.
(** The [n] bits of [v], when the first of them is bit [off] of its byte. *)
Definition be_bits (off n : nat) (v : Z) : list bool := be_bits_fuel n off n v.
