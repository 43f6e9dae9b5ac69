(** * What a protocol description means on the wire

    Blizzard's format of a declaration, as a descriptor of Types; [benc
    blizzard] (BitFormat) says which bits encode which values of it.  No
    definition of the generator is used, only the type of descriptions. *)
From Verif Require Import Base BitSpec Types BitFormat BitTotal Generator.
#[local] Open Scope string_scope.
#[local] Open Scope Z_scope.
#[local] Open Scope list_scope.

(** The least and the greatest value within bounds. *)
Definition lowest (b : bounds) : Z := if b_min_incl b then b_min b else b_min b + 1.
Definition highest (b : bounds) : Z := if b_max_incl b then b_max b else b_max b - 1.

(** The number of bits that tell the values from [lo] to [hi] apart: the
    least [w] with [hi - lo < 2 ^ w] ([width_least] below). *)
Definition width (lo hi : Z) : nat := Z.to_nat (Z.log2_up (hi - lo + 1)).

Lemma width_least : forall lo hi, lo <= hi -> hi - lo < 2 ^ Z.of_nat (width lo hi) /\
  forall w : nat, hi - lo < 2 ^ Z.of_nat w -> (width lo hi <= w)%nat.
Proof.
  intros lo hi H. unfold width. pose proof (Z.log2_up_nonneg (hi - lo + 1)). split.
  - rewrite Z2Nat.id by assumption. destruct (Z.eq_dec (hi - lo) 0) as [->|].
    + cbn. lia.
    + pose proof (Z.log2_up_spec (hi - lo + 1) ltac:(lia)). lia.
  - intros w Hw. assert (Z.log2_up (hi - lo + 1) <= Z.of_nat w); [|lia].
    apply Z.log2_up_le_pow2; lia.
Qed.

(** The greatest tag of an enum or a choice. *)
Definition max_tag (l : list Z) : Z := fold_right Z.max 0 l.

(** The format of a type, wherever it occurs.  Integers are written as the
    distance from the least value, lengths as they are; a string is a blob of
    up to four bytes for each character. *)
Fixpoint layout (t : ntype) : bty :=
  match t with
  | NInt b | NInum b => BInt (lowest b) (width (lowest b) (highest b))
  | NBitArray b => BBitArray (width 0 (highest b))
  | NBlob b => if b_exact b then BFixedBlob (b_max b) else BBlob (width 0 (highest b))
  | NString b => BBlob (width 0 (4 * highest b))
  | NAscii b => BBlob (width 0 (highest b))
  | NArray _ b t' => BArray (width 0 (highest b)) (layout t')
  | NBool => BBool
  | NFourcc => BFourcc
  | NNull => BNull
  | NOpt t' => BOpt (layout t')
  | NUser t' => layout t'
  | NEnum vs => BEnum (width 0 (max_tag (map fst vs))) vs
  | NEvents vs => BChoice (width 0 (max_tag (map (fun x => fst (fst x)) vs)))
      (map (fun x => (fst x, match snd x with Some t' => layout t' | None => BUnit end)) vs)
  | NChoice vs => BChoice (width 0 (max_tag (map (fun x => fst (fst x)) vs))) (map (fun x => (fst x, layout (snd x))) vs)
  | NStruct fs => BStruct (map (fun x => (fst x, layout (snd x))) fs)
  end.

(** ** The descriptions the generator gets right *)

Definition is_pow2 (z : Z) : bool := (0 <? z) && (z =? 2 ^ Z.log2 z).

(** An integer from 0 to a literal, from 0 to [2 ^ n - 1], or from [- 2 ^ n]
    to [2 ^ n - 1], the powers written as such. *)
Definition plain_int (b : bounds) : bool :=
  negb (b_exact b) && b_min_incl b &&
  match b_expr b with
  | Lit => (b_min b =? 0) && (0 <=? highest b) && (highest b <? 2 ^ 48)
  | Pow n => negb (b_max_incl b) && (b_max b =? 2 ^ Z.of_nat n) &&
      ((b_min b =? 0) && (Nat.leb n 64) || (b_min b =? - 2 ^ Z.of_nat n) && (Nat.leb n 63))
  | OtherExpr => false
  end.

(** A length from 0 up; less than 2^20, so that f32 is exact. *)
Definition plain_length (b : bounds) : bool :=
  negb (b_exact b) && (b_min b =? 0) && b_min_incl b && (0 <=? highest b) && (highest b <? 2 ^ 20 - 1).

(** The greatest length is not one less than a power of two. *)
Definition odd_length (b : bounds) : bool := plain_length b && negb (is_pow2 (highest b + 1)).

(** Tags 0, 1, ..., n - 1 in some order. *)
Definition numbered (l : list Z) : bool :=
  negb (Nat.eqb (length l) 0) && (Z.of_nat (length l) <=? 2 ^ 20) &&
  forallb (fun z => (0 <=? z) && (z <? Z.of_nat (length l))) l &&
  forallb (fun i => existsb (Z.eqb (Z.of_nat i)) l) (seq 0 (length l)).

Fixpoint plain (p : position) (t : ntype) {struct t} : bool :=
  match p with
  | Decl =>
      match t with
      | NInt b | NInum b => plain_int b
      | NBitArray b => plain_length b
      | NString b => odd_length b
      | NArray _ b (NUser t') => odd_length b && plain Decl t'
      | NUser t' => plain Decl t'
      | NEnum vs => numbered (map fst vs)
      | NEvents vs => numbered (map (fun x => fst (fst x)) vs) &&
          forallb (fun x => match snd x with Some t' => plain Decl t' | None => true end) vs
      | NChoice vs => numbered (map (fun x => fst (fst x)) vs) && forallb (fun x => plain Variant (snd x)) vs
      | NStruct fs => forallb (fun x =>
          match snd x with
          | NChoice _ => if String.eqb (fst x) "m_eventData" then plain Decl (snd x) else plain Field (snd x)
          | _ => plain Field (snd x)
          end) fs
      | _ => false
      end
  | Field =>
      match t with
      | NInt b => negb (b_exact b) && b_min_incl b && (b_min b =? 0) && (0 <=? highest b) && (highest b <? 2 ^ 48)
      (* for a length "less than", a bound that is a power of two is wrong *)
      | NArray _ b (NUser t') => plain_length b && (b_max_incl b || negb (is_pow2 (b_max b))) && plain Decl t'
      | NOpt (NUser t') | NUser t' => plain Decl t'
      | NBool | NFourcc | NNull | NOpt NBool | NOpt NFourcc | NOpt NNull => true
      | _ => false
      end
  | Variant =>
      match t with
      | NUser t' | NOpt (NUser t') => plain Decl t'
      | NBool | NFourcc | NNull => true
      | _ => false
      end
  end.

(** A decoder reads a format: from every position where a value starts, it
    yields the value and stops behind it.  [quirk_free] leaves out what the
    primitives of the crate get wrong (C06, C07): empty blobs and bit arrays,
    and in a checked build biased 64-bit integers. *)
Definition reads (k : code) (t : bty) : Prop :=
  forall m c v bits rest, quirk_free m t v = true -> cursor_ok c -> benc blizzard t (snd c) v bits ->
    stream c = bits ++ rest -> run m k c = Ok (advance c (length bits), v).
