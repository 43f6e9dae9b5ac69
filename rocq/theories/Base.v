(** * Base: outcomes, build modes and machine integers

    Shared vocabulary of the model.  Nothing here is specific to one file of
    /repo except where a comment says so. *)
From Coq Require Export String.
From Coq Require Export ZArith List Bool Lia.
Export Coq.Init.Datatypes Coq.Lists.List.
Export ListNotations.
#[global] Open Scope Z_scope.

(** Errors the modelled code can return.
    Models src/error.rs:11-56 [S2ProtocolError].  Simplification: payloads that
    no modelled property looks at (I/O errors, nom's remaining-input snapshot,
    the wrapped [Utf8Error]) are dropped; all nom failures are [ENom]. *)
Inductive err : Type :=
| ENom                               (* error.rs:  NomError (Eof, Tag, ...) *)
| EValue                             (* TryFromIntError through [?] *)
| EMoreThan64 (n : Z)                (* BitPackedMoreThan64Bits *)
| EUnknownTag (t : Z)                (* UnknownTag *)
| EDuplicateTag (f : string) (t : Z) (* DuplicateTag *)
| EMissingField (f : string)         (* MissingField *)
| EUnsupported                       (* UnsupportedEventType *)
| EUtf8                              (* Utf8Error *)
| EOther (s : string).

(** The result of running a function of the crate.  [Panic] is a Rust panic
    (arithmetic overflow in a checked build, slice index out of range,
    [expect]/[unwrap] on the wrong variant). *)
Inductive outcome (A : Type) : Type :=
| Ok (a : A)
| Err (e : err)
| Panic.
Arguments Ok {A} a.
Arguments Err {A} e.
Arguments Panic {A}.

Definition obind {A B} (x : outcome A) (f : A -> outcome B) : outcome B :=
  match x with Ok a => f a | Err e => Err e | Panic => Panic end.

Definition omap {A B} (f : A -> B) (x : outcome A) : outcome B :=
  match x with Ok a => Ok (f a) | Err e => Err e | Panic => Panic end.

Declare Scope outcome_scope.
Delimit Scope outcome_scope with outcome.
Notation "'do' x <- c1 ; c2" := (obind c1 (fun x => c2))
  (at level 200, x pattern, c1 at level 100, c2 at level 200, right associativity)
  : outcome_scope.
#[global] Open Scope outcome_scope.

(** Cargo profiles: [Checked] is a debug build (or [overflow-checks = on]),
    where integer overflow panics; [Wrapping] is a release build, where it
    wraps (and shift amounts are masked).  Cargo.toml sets no profile, so both
    are what users run. *)
Inductive build : Type := Checked | Wrapping.

(** ** Machine integers *)
Definition two8 : Z := 256.
Definition two32 : Z := 4294967296.
Definition two63 : Z := 9223372036854775808.
Definition two64 : Z := 18446744073709551616.

Definition in_i64 (z : Z) : bool := (- two63 <=? z) && (z <? two63).
Definition in_i32 (z : Z) : bool := (- 2147483648 <=? z) && (z <? 2147483648).
Definition in_u8 (z : Z) : bool := (0 <=? z) && (z <? 256).
Definition in_u16 (z : Z) : bool := (0 <=? z) && (z <? 65536).
Definition in_u32 (z : Z) : bool := (0 <=? z) && (z <? two32).
Definition in_u64 (z : Z) : bool := (0 <=? z) && (z <? two64).

(** [as i64], [as u64]/[as usize] (64-bit target), [as u32], [as u8], [as i32]. *)
Definition as_i64 (z : Z) : Z := (z + two63) mod two64 - two63.
Definition as_u64 (z : Z) : Z := z mod two64.
Definition as_u32 (z : Z) : Z := z mod two32.
Definition as_u16 (z : Z) : Z := z mod 65536.
Definition as_u8 (z : Z) : Z := z mod 256.
Definition as_i32 (z : Z) : Z := (z + 2147483648) mod two32 - 2147483648.

(** The i64 operators [+], unary [-] and [<<]. *)
Definition ovf_i64 (m : build) (z : Z) : outcome Z :=
  if in_i64 z then Ok z
  else match m with Checked => Panic | Wrapping => Ok (as_i64 z) end.
Definition add_i64 (m : build) (a b : Z) : outcome Z := ovf_i64 m (a + b).
Definition neg_i64 (m : build) (a : Z) : outcome Z := ovf_i64 m (- a).
Definition shl_i64 (m : build) (a k : Z) : outcome Z :=
  if k <? 64 then Ok (as_i64 (Z.shiftl a k))
  else match m with
       | Checked => Panic
       | Wrapping => Ok (as_i64 (Z.shiftl a (k mod 64)))
       end.

(** Bytes are integers 0..255. *)
Definition byte_ok (b : Z) : Prop := 0 <= b < 256.
Definition bytes_ok (l : list Z) : Prop := Forall byte_ok l.

(** ** Small lemmas *)
Ltac dlia := Z.to_euclidean_division_equations; lia.

Lemma obind_ok : forall A B (x : outcome A) (f : A -> outcome B) b,
  obind x f = Ok b <-> exists a, x = Ok a /\ f a = Ok b.
Proof.
  intros A B x f b; split.
  - destruct x; simpl; intros H; try discriminate; eauto.
  - intros (a & -> & H); exact H.
Qed.

Lemma in_i64_true : forall z, in_i64 z = true <-> - two63 <= z < two63.
Proof. intros z; unfold in_i64; rewrite andb_true_iff, Z.leb_le, Z.ltb_lt; tauto. Qed.

Lemma as_i64_id : forall z, - two63 <= z < two63 -> as_i64 z = z.
Proof. intros z H; unfold as_i64, two63, two64 in *; rewrite Z.mod_small; lia. Qed.

Lemma as_i64_range : forall z, - two63 <= as_i64 z < two63.
Proof.
  intros z; unfold as_i64, two63, two64.
  pose proof (Z.mod_pos_bound (z + 9223372036854775808) 18446744073709551616). lia.
Qed.

Lemma as_i64_mod : forall z, exists k, as_i64 z = z + k * two64.
Proof.
  intros z; unfold as_i64.
  exists (- ((z + two63) / two64)).
  rewrite Z.mod_eq by (unfold two64; lia). lia.
Qed.

Lemma as_u64_id : forall z, 0 <= z < two64 -> as_u64 z = z.
Proof. intros; unfold as_u64; apply Z.mod_small; auto. Qed.

Lemma bytes_ok_cons : forall b l, bytes_ok (b :: l) <-> byte_ok b /\ bytes_ok l.
Proof.
  intros b l; unfold bytes_ok; split.
  - intros H; inversion H; auto.
  - intros [? ?]; constructor; auto.
Qed.

Lemma bytes_ok_app : forall a b, bytes_ok (a ++ b) <-> bytes_ok a /\ bytes_ok b.
Proof. intros; unfold bytes_ok; apply Forall_app. Qed.

(** [s] is what is left of [l] after consuming a (non-empty) prefix. *)
Definition suffix_of {A} (s l : list A) : Prop := exists p, l = p ++ s.
Definition proper_suffix_of {A} (s l : list A) : Prop := exists p, p <> [] /\ l = p ++ s.

Lemma suffix_refl : forall A (l : list A), suffix_of l l.
Proof. intros A l; exists []; reflexivity. Qed.
Lemma suffix_trans : forall A (a b c : list A), suffix_of a b -> suffix_of b c -> suffix_of a c.
Proof. intros A a b c [p ->] [q ->]; exists (q ++ p); rewrite app_assoc; reflexivity. Qed.
Lemma psuffix_suffix : forall A (a b : list A), proper_suffix_of a b -> suffix_of a b.
Proof. intros A a b (p & _ & ->); exists p; reflexivity. Qed.
Lemma psuffix_trans_l : forall A (a b c : list A),
  proper_suffix_of a b -> suffix_of b c -> proper_suffix_of a c.
Proof.
  intros A a b c (p & Hp & ->) [q ->]; exists (q ++ p); split.
  - destruct q; simpl; [exact Hp | discriminate].
  - rewrite app_assoc; reflexivity.
Qed.
Lemma psuffix_trans_r : forall A (a b c : list A),
  suffix_of a b -> proper_suffix_of b c -> proper_suffix_of a c.
Proof.
  intros A a b c [p ->] (q & Hq & ->); exists (q ++ p); split.
  - destruct q; simpl; [congruence | discriminate].
  - rewrite app_assoc; reflexivity.
Qed.
Lemma psuffix_length : forall A (a b : list A), proper_suffix_of a b -> (length a < length b)%nat.
Proof.
  intros A a b (p & Hp & ->); rewrite app_length; destruct p; simpl; [congruence | lia].
Qed.
Lemma suffix_length : forall A (a b : list A), suffix_of a b -> (length a <= length b)%nat.
Proof. intros A a b [p ->]; rewrite app_length; lia. Qed.
Lemma suffix_cons : forall A (x : A) l, proper_suffix_of l (x :: l).
Proof. intros A x l; exists [x]; split; [discriminate | reflexivity]. Qed.
Lemma suffix_bytes_ok : forall a b, suffix_of a b -> bytes_ok b -> bytes_ok a.
Proof. intros a b [p ->] H; apply bytes_ok_app in H; tauto. Qed.
