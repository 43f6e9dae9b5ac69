(** * The tagged primitives, completely described *)
From Verif Require Import Base VlqSpec Vlq VlqProofs Types Versioned VersionedSpec VlqExact VersionedProofs.

Lemma tagged_blob_spec : forall m n g s, vlq_rep false n g -> Z.of_nat (length s) < two63 ->
  tagged_blob m (BLOB_TAG :: g ++ s) =
  if (0 <=? n) && (n <=? Z.of_nat (length s)) then Ok (skipn (Z.to_nat n) s, firstn (Z.to_nat n) s) else Err ENom.
Proof.
  intros m n g s Hg Hs. unfold tagged_blob. cbn [validate_tag]. rewrite Z.eqb_refl. cbn [obind].
  rewrite (parse_vlq_int_lax _ _ _ _ Hg). cbn [obind]. unfold take_bytes.
  pose proof (vlq_rep_range _ _ _ Hg) as Hr.
  destruct (Z.leb_spec 0 n); cbn [andb].
  - rewrite as_u64_id by (unfold two63, two64 in *; lia).
    destruct (Z.ltb_spec (Z.of_nat (length s)) n), (Z.leb_spec n (Z.of_nat (length s))); try lia; reflexivity.
  - pose proof (as_u64_neg n ltac:(unfold two63 in *; lia)).
    destruct (Z.ltb_spec (Z.of_nat (length s)) (as_u64 n)); [reflexivity|lia].
Qed.

Lemma tagged_bitarray_spec : forall m n g s, vlq_rep false n g -> Z.of_nat (length s) < 2 ^ 60 ->
  tagged_bitarray m (BIT_ARRAY_TAG :: g ++ s) =
  if (0 <=? n) && ((n + 7) / 8 <=? Z.of_nat (length s))
  then Ok (skipn (Z.to_nat ((n + 7) / 8)) s, firstn (Z.to_nat ((n + 7) / 8)) s) else Err ENom.
Proof.
  intros m n g s Hg Hs. change (2 ^ 60) with 1152921504606846976 in Hs.
  unfold tagged_bitarray. cbn [validate_tag]. rewrite Z.eqb_refl. cbn [obind].
  rewrite (parse_vlq_int_lax _ _ _ _ Hg). cbn [obind]. unfold take_bytes.
  pose proof (vlq_rep_range _ _ _ Hg) as Hr.
  destruct (Z.leb_spec 0 n); cbn [andb].
  - rewrite as_u64_id by (unfold two63, two64 in *; lia).
    destruct (Z.ltb_spec (Z.of_nat (length s)) ((n + 7) / 8)), (Z.leb_spec ((n + 7) / 8) (Z.of_nat (length s))); try lia; reflexivity.
  - pose proof (as_u64_neg n ltac:(unfold two63 in *; lia)).
    destruct (Z.ltb_spec (Z.of_nat (length s)) ((as_u64 n + 7) / 8)); [reflexivity|]. unfold two63 in *. dlia.
Qed.

Lemma tagged_vlq_int_spec : forall m n g s, vlq_rep false n g -> tagged_vlq_int m (INT_TAG :: g ++ s) = Ok (s, n).
Proof.
  intros m n g s Hg. unfold tagged_vlq_int. cbn [validate_tag]. rewrite Z.eqb_refl. cbn [obind].
  apply parse_vlq_int_lax; assumption.
Qed.

Lemma tagged_bool_spec : forall s, tagged_bool (BOOL_TAG :: s) =
  match s with [] => Err ENom | x :: r => Ok (r, negb (x =? 0)) end.
Proof. intros [|x s]; reflexivity. Qed.

Lemma tagged_fourcc_spec : forall s, tagged_fourcc (FOURCC_TAG :: s) =
  match s with
  | a :: b :: c :: d :: r => Ok (r, a * 2 ^ 24 + b * 2 ^ 16 + c * 2 ^ 8 + d)
  | _ => Err ENom
  end.
Proof.
  intros [|a [|b [|c [|d s]]]]; try reflexivity. unfold tagged_fourcc. cbn [validate_tag]. rewrite Z.eqb_refl.
  cbn [obind take_u32_be]. do 2 f_equal.
  change (2 ^ 24) with 16777216. change (2 ^ 16) with 65536. change (2 ^ 8) with 256. lia.
Qed.

Lemma validate_tag_wrong : forall t l, hd_error l <> Some t -> validate_tag t l = Err ENom.
Proof.
  intros t [|b l] H; cbn in *; [reflexivity|]. destruct (Z.eqb_spec b t); [congruence|reflexivity].
Qed.

Lemma tagged_wrong : forall m l,
  (hd_error l <> Some BLOB_TAG -> tagged_blob m l = Err ENom) /\
  (hd_error l <> Some BIT_ARRAY_TAG -> tagged_bitarray m l = Err ENom) /\
  (hd_error l <> Some INT_TAG -> tagged_vlq_int m l = Err ENom) /\
  (hd_error l <> Some BOOL_TAG -> tagged_bool l = Err ENom) /\
  (hd_error l <> Some FOURCC_TAG -> tagged_fourcc l = Err ENom).
Proof.
  intros m l. unfold tagged_blob, tagged_bitarray, tagged_vlq_int, tagged_bool, tagged_fourcc.
  repeat split; intros H; rewrite validate_tag_wrong by assumption; reflexivity.
Qed.

(** ** Witnesses for over-long and overflowing numbers *)
Definition overlong : list Z := repeat 128 10 ++ [0].            (* zero, padded to eleven bytes *)
Definition overflowing : list Z := 128 :: repeat 128 8 ++ [4].   (* magnitude 2^64 in ten bytes *)
Definition min_negated : list Z := 129 :: repeat 128 8 ++ [2].   (* -(2^63) *)

Lemma overlong_facts : vlq_terminated overlong /\ bytes_ok overlong /\ vlq_value overlong = 0 /\
  parse_vlq_int Checked overlong = Panic.
Proof. repeat split; try (vm_compute; reflexivity || (repeat split; discriminate)). repeat constructor; discriminate. Qed.

Lemma overflowing_facts : vlq_terminated overflowing /\ bytes_ok overflowing /\ vlq_value overflowing = two64 /\
  parse_vlq_int Checked overflowing = Ok ([], 0) /\ parse_vlq_int Wrapping overflowing = Ok ([], 0).
Proof. repeat split; try (vm_compute; reflexivity || (repeat split; discriminate)). repeat constructor; discriminate. Qed.

Lemma min_negated_facts : vlq_terminated min_negated /\ bytes_ok min_negated /\ vlq_value min_negated = - two63 /\
  parse_vlq_int Checked min_negated = Panic.
Proof. repeat split; try (vm_compute; reflexivity || (repeat split; discriminate)). repeat constructor; discriminate. Qed.

(** In a wrapping build an eleven-byte number can come out as anything: the
    eleventh byte is shifted by 69 mod 64 = 5 bits. *)
Definition overlong_wrap : list Z := 128 :: repeat 128 9 ++ [1].
Lemma overlong_wrap_facts : vlq_terminated overlong_wrap /\ bytes_ok overlong_wrap /\ vlq_value overlong_wrap = 2 ^ 69 /\
  parse_vlq_int Wrapping overlong_wrap = Ok ([], 32).
Proof. repeat split; try (vm_compute; reflexivity || (repeat split; discriminate)). repeat constructor; discriminate. Qed.
