(** * Rounding of double-precision floats, as inequalities between integers

    As F32Round, for doubles: every finite double is an integer multiple of
    2^-1074; [fval64] is that integer (infinities count as 2^1024). *)
From Coq Require Import SpecFloat.
From Verif Require Import Base F32 F32Facts F32Round F64.
#[local] Open Scope Z_scope.

Definition fval64 (x : f64) : Z :=
  match x with
  | S754_zero _ | S754_nan => 0
  | S754_infinity s => if s then - 2 ^ 2098 else 2 ^ 2098
  | S754_finite s m e => (if s then -1 else 1) * (Z.pos m * 2 ^ (e + 1074))
  end.

Lemma fexp64_eq : forall z, fexp f64_prec f64_emax z = Z.max (z - 53) (-1074).
Proof. reflexivity. Qed.
Lemma valid64_finite : forall s m e, f64_valid (S754_finite s m e) = true <-> fexp f64_prec f64_emax (digs m + e) = e /\ e <= 971.
Proof.
  intros s m e. unfold f64_valid, valid_binary, bounded, canonical_mantissa. rewrite andb_true_iff, Z.leb_le.
  change (Z.pos (digits2_pos m)) with (digs m). unfold f64_emax, f64_prec in *. change (1024 - 53) with 971.
  split; intros [A B]; split; auto.
  - apply Zeq_bool_eq. exact A.
  - apply Zeq_is_eq_bool. exact A.
Qed.

(** ** Rounding to a double *)
Definition is_round64 (A B : Z) (r : f64) : Prop :=
  exists E, 0 <= E /\ (0 < E -> B * 2 ^ (52 + E) <= A) /\ A < B * 2 ^ (53 + E) /\
    fval64 r = Z.min (rne A (B * 2 ^ E) * 2 ^ E) (2 ^ 2098).

Lemma round_aux_spec64 : forall s n d ex, 0 < d -> 0 < n / d ->
  forall e, e = fexp f64_prec f64_emax (Zdigits2 (n / d) + ex) -> ex <= e ->
  exists m' e', binary_round_aux f64_prec f64_emax s (n / d) ex (loc_of n d) =
      (match m' with Z0 => S754_zero s | Z.pos m => if e' <=? 971 then S754_finite s m e' else S754_infinity s | _ => S754_nan end) /\
    0 <= m' < 2 ^ 53 /\ e <= e' /\ m' * 2 ^ (e' - e) = rne n (d * 2 ^ (e - ex)) /\
    (-1074 < e' -> 2 ^ 52 <= m') /\ -1074 <= e'.
Proof.
  intros s n d ex Hd Hm e Ee Hx.
  assert (Hn : 0 <= n). { destruct (Z_le_gt_dec 0 n); [assumption|]. pose proof (Z.div_lt_upper_bound n d 0 Hd). lia. }
  unfold binary_round_aux, shr_fexp. rewrite <- Ee, repr_of_loc, shr_repr by lia.
  replace (ex + (e - ex)) with e by lia.
  assert (Hd' : 0 < d * 2 ^ (e - ex)) by (apply Z.mul_pos_pos; [lia|apply Z.pow_pos_nonneg; lia]).
  rewrite loc_of_repr by exact Hd'. cbn [shr_m repr]. fold (rne n (d * 2 ^ (e - ex))).
  set (q := rne n (d * 2 ^ (e - ex))).
  destruct (n / d) as [|mx|] eqn:Em; try lia. cbn [Zdigits2] in Ee. change (Z.pos (digits2_pos mx)) with (digs mx) in Ee.
  rewrite fexp64_eq in Ee. pose proof (digs_bounds mx) as [L U]. pose proof (digs_pos mx) as P.
  pose proof (Z.div_mod n d ltac:(lia)) as DM. pose proof (Z.mod_pos_bound n d Hd) as MB. rewrite Em in DM.
  assert (Pk : 0 < 2 ^ (e - ex)) by (apply Z.pow_pos_nonneg; lia).
  (* q <= 2^53 *)
  assert (Up : n < d * 2 ^ (e - ex) * 2 ^ 53).
  { assert (2 ^ digs mx <= 2 ^ (e - ex) * 2 ^ 53). { rewrite <- pow_split by lia. apply Z.pow_le_mono_r; lia. }
    apply Z.lt_le_trans with (d * 2 ^ digs mx); [nia|]. nia. }
  assert (Q : q <= 2 ^ 53).
  { unfold q. rewrite <- (rne_exact (2 ^ 53) 1) by lia. apply rne_mono; lia. }
  assert (Q0 : 0 <= q).
  { unfold q. rewrite <- (rne_exact 0 1) by lia. apply rne_mono; lia. }
  assert (Q23 : -1074 < e -> 2 ^ 52 <= q).
  { intros He. assert (Ed : e = digs mx + ex - 53) by lia.
    unfold q. rewrite <- (rne_exact (2 ^ 52) 1) by lia. apply rne_mono; [lia|exact Hd'|].
    assert (2 ^ (digs mx - 1) = 2 ^ (e - ex) * 2 ^ 52) by (rewrite <- pow_split by lia; f_equal; lia). nia. }
  destruct (Z.eq_dec q (2 ^ 53)) as [E24|N24].
  - exists (2 ^ 52), (e + 1). rewrite E24. change (Zdigits2 (2 ^ 53)) with 54. rewrite fexp64_eq.
    replace (Z.max (54 + e - 53) (-1074) - e) with 1 by lia.
    split; [|repeat split; try lia; replace (e + 1 - e) with 1 by lia; reflexivity].
    cbn [shr_record_of_loc]. change (Build_shr_record (2 ^ 53) false false) with (repr (2 ^ 53) 1).
    rewrite shr_repr by lia. change (shr_m (repr (2 ^ 53) (1 * 2 ^ 1))) with (2 ^ 52).
    cbv beta iota. reflexivity.
  - exists q, e. split; [|repeat split; try lia; rewrite Z.sub_diag; lia].
    assert (Ef : fexp f64_prec f64_emax (Zdigits2 q + e) - e <= 0).
    { rewrite fexp64_eq. destruct q as [|q0|q0] eqn:Eq0; cbn [Zdigits2]; [lia| |lia].
      change (Z.pos (digits2_pos q0)) with (digs q0).
      assert (digs q0 <= 53).
      { destruct (Z_le_gt_dec (digs q0) 53) as [|G]; [assumption|]. pose proof (digs_bounds q0) as [B _].
        assert (2 ^ 53 <= 2 ^ (digs q0 - 1)) by (apply Z.pow_le_mono_r; lia). lia. }
      lia. }
    cbn [shr_record_of_loc]. unfold shr.
    destruct (fexp f64_prec f64_emax (Zdigits2 q + e) - e) as [|k|k]; [|lia|]; cbn [shr_m]; reflexivity.
Qed.

Lemma fval_pos_result64 : forall m' e', 0 <= m' < 2 ^ 53 -> -1074 <= e' -> (-1074 < e' -> 2 ^ 52 <= m') ->
  let r := match m' with Z0 => S754_zero false | Z.pos m => if e' <=? 971 then S754_finite false m e' else S754_infinity false | _ => S754_nan end in
  fval64 r = Z.min (m' * 2 ^ (e' + 1074)) (2 ^ 2098) /\ f64_valid r = true.
Proof.
  intros m' e' Hm He Hn r. unfold r. destruct m' as [|m|m]; [|clear r|lia].
  - split; [|reflexivity]. cbn [fval64]. rewrite Z.mul_0_l. reflexivity.
  - destruct (Z.leb_spec e' 971) as [L|G].
    + split.
      * cbn [fval64]. rewrite Z.mul_1_l. symmetry. apply Z.min_l.
        apply Z.le_trans with (2 ^ 53 * 2 ^ (971 + 1074)); [|vm_compute; discriminate].
        apply Z.mul_le_mono_nonneg; [lia|lia|lia|apply Z.pow_le_mono_r; lia].
      * apply valid64_finite. split; [|lia]. rewrite fexp64_eq.
        destruct (Z.eq_dec e' (-1074)) as [->|N].
        -- assert (digs m <= 53).
           { destruct (Z_le_gt_dec (digs m) 53) as [|G]; [assumption|]. pose proof (digs_bounds m) as [B _].
             assert (2 ^ 53 <= 2 ^ (digs m - 1)) by (apply Z.pow_le_mono_r; lia). lia. }
           lia.
        -- rewrite (digs_unique m 53); [lia| |lia]. change (53 - 1) with 52. lia.
    + split; [|reflexivity]. cbn [fval64]. symmetry. apply Z.min_r.
      apply Z.le_trans with (2 ^ 52 * 2 ^ (972 + 1074)); [vm_compute; discriminate|].
      apply Z.mul_le_mono_nonneg; [lia|lia|apply Z.pow_nonneg; lia|apply Z.pow_le_mono_r; lia].
Qed.

(** The link between a rounding step and [is_round64]. *)
Lemma round_aux_is_round64 : forall n d ex A B, 0 < d -> 0 < n / d -> 0 < B ->
  ex <= fexp f64_prec f64_emax (Zdigits2 (n / d) + ex) ->
  (forall k, 0 <= k -> 0 <= ex + k -> A * d * 2 ^ k = n * B * 2 ^ (ex + k) * 2 ^ 1074) ->
  is_round64 A B (binary_round_aux f64_prec f64_emax false (n / d) ex (loc_of n d)) /\
  f64_valid (binary_round_aux f64_prec f64_emax false (n / d) ex (loc_of n d)) = true.
Proof.
  intros n d ex A B Hd Hm HB Hx HA.
  destruct (round_aux_spec64 false n d ex Hd Hm _ eq_refl Hx) as (m' & e' & R & Hm' & He & Hq & Hn & He').
  set (e := fexp f64_prec f64_emax (Zdigits2 (n / d) + ex)) in *. rewrite R.
  destruct (fval_pos_result64 m' e' Hm' He' Hn) as [F V]. split; [|exact V].
  assert (Ee : e = Z.max (Zdigits2 (n / d) + ex - 53) (-1074)) by (unfold e; apply fexp64_eq).
  destruct (n / d) as [|mx|] eqn:Em; try lia. cbn [Zdigits2] in Ee. change (Z.pos (digits2_pos mx)) with (digs mx) in Ee.
  pose proof (digs_bounds mx) as [L U]. pose proof (digs_pos mx) as P.
  pose proof (Z.div_mod n d ltac:(lia)) as DM. pose proof (Z.mod_pos_bound n d Hd) as MB. rewrite Em in DM.
  (* the scaled value, with exponents made non-negative by k *)
  set (k := 1074 + Z.abs ex). assert (Hk : 0 <= k /\ 0 <= ex + k /\ 0 <= e + k /\ 1074 <= k) by (unfold k; lia).
  specialize (HA k ltac:(lia) ltac:(lia)).
  assert (Pk : 0 < 2 ^ k) by (apply Z.pow_pos_nonneg; lia).
  assert (Pn : 0 < n) by nia.
  assert (Px : 0 < 2 ^ (ex + k)) by (apply Z.pow_pos_nonneg; lia).
  exists (e + 1074). split; [lia|]. split; [|split].
  - intros HE. assert (Ed : e = digs mx + ex - 53) by lia.
    (* d * 2^(digs-1) <= n *)
    assert (N1 : d * 2 ^ (digs mx - 1) <= n) by nia.
    assert (S1 : 2 ^ (52 + (e + 1074)) * 2 ^ k = 2 ^ (digs mx - 1) * 2 ^ (ex + k) * 2 ^ 1074).
    { rewrite <- !pow_split by lia. f_equal. lia. }
    apply Z.mul_le_mono_pos_r with (p := d * 2 ^ k); [apply Z.mul_pos_pos; assumption|].
    replace (A * (d * 2 ^ k)) with (A * d * 2 ^ k) by ring. rewrite HA.
    replace (B * 2 ^ (52 + (e + 1074)) * (d * 2 ^ k)) with (B * d * (2 ^ (52 + (e + 1074)) * 2 ^ k)) by ring. rewrite S1.
    replace (B * d * (2 ^ (digs mx - 1) * 2 ^ (ex + k) * 2 ^ 1074)) with ((B * 2 ^ (ex + k) * 2 ^ 1074) * (d * 2 ^ (digs mx - 1))) by ring.
    replace (n * B * 2 ^ (ex + k) * 2 ^ 1074) with ((B * 2 ^ (ex + k) * 2 ^ 1074) * n) by ring.
    apply Z.mul_le_mono_nonneg_l; [|exact N1]. apply Z.mul_nonneg_nonneg; [apply Z.mul_nonneg_nonneg; lia|apply Z.pow_nonneg; lia].
  - assert (N1 : n < d * 2 ^ digs mx) by nia.
    assert (S1 : 2 ^ digs mx * 2 ^ (ex + k) * 2 ^ 1074 <= 2 ^ (53 + (e + 1074)) * 2 ^ k).
    { rewrite <- !pow_split by lia. apply Z.pow_le_mono_r; lia. }
    apply Z.mul_lt_mono_pos_r with (p := d * 2 ^ k); [apply Z.mul_pos_pos; assumption|].
    replace (A * (d * 2 ^ k)) with (A * d * 2 ^ k) by ring. rewrite HA.
    replace (B * 2 ^ (53 + (e + 1074)) * (d * 2 ^ k)) with (B * d * (2 ^ (53 + (e + 1074)) * 2 ^ k)) by ring.
    apply Z.lt_le_trans with (B * d * (2 ^ digs mx * 2 ^ (ex + k) * 2 ^ 1074)).
    + replace (B * d * (2 ^ digs mx * 2 ^ (ex + k) * 2 ^ 1074)) with ((B * 2 ^ (ex + k) * 2 ^ 1074) * (d * 2 ^ digs mx)) by ring.
      replace (n * B * 2 ^ (ex + k) * 2 ^ 1074) with ((B * 2 ^ (ex + k) * 2 ^ 1074) * n) by ring.
      apply Z.mul_lt_mono_pos_l; [|exact N1]. apply Z.mul_pos_pos; [apply Z.mul_pos_pos; lia|apply Z.pow_pos_nonneg; lia].
    + apply Z.mul_le_mono_nonneg_l; [apply Z.mul_nonneg_nonneg; lia|exact S1].
  - rewrite F. f_equal. replace (e' + 1074) with ((e' - e) + (e + 1074)) by lia. rewrite pow_split, Z.mul_assoc, Hq by lia. f_equal.
    apply rne_ratio.
    + apply Z.mul_pos_pos; [lia|apply Z.pow_pos_nonneg; lia].
    + apply Z.mul_pos_pos; [lia|apply Z.pow_pos_nonneg; lia].
    + (* n * (B * 2^(e+1074)) = A * (d * 2^(e-ex)) *)
      assert (S2 : 2 ^ (e + 1074) * 2 ^ k = 2 ^ (e - ex) * 2 ^ (ex + k) * 2 ^ 1074).
      { rewrite <- !pow_split by lia. f_equal. lia. }
      apply Z.mul_reg_r with (p := 2 ^ k); [lia|].
      replace (n * (B * 2 ^ (e + 1074)) * 2 ^ k) with (n * B * (2 ^ (e + 1074) * 2 ^ k)) by ring. rewrite S2.
      replace (A * (d * 2 ^ (e - ex)) * 2 ^ k) with (A * d * 2 ^ k * 2 ^ (e - ex)) by ring. rewrite HA. ring.
Qed.

(** ** The operations *)
Lemma binary_round_is_round64 : forall p ex A B, 0 < B ->
  (forall k, 0 <= k -> 0 <= ex + k -> A * 2 ^ k = Z.pos p * B * 2 ^ (ex + k) * 2 ^ 1074) ->
  is_round64 A B (binary_round f64_prec f64_emax false p ex) /\ f64_valid (binary_round f64_prec f64_emax false p ex) = true.
Proof.
  intros p ex A B HB HA. unfold binary_round. change (Z.pos (digits2_pos p)) with (digs p).
  unfold shl_align. rewrite fexp64_eq.
  assert (G : forall mz ez, Z.pos mz * 2 ^ (ez - ez) = Z.pos mz -> ez <= ex -> Z.pos mz = Z.pos p * 2 ^ (ex - ez) ->
    ez <= Z.max (digs p + ex - 53) (-1074) ->
    is_round64 A B (binary_round_aux f64_prec f64_emax false (Z.pos mz) ez loc_Exact) /\
    f64_valid (binary_round_aux f64_prec f64_emax false (Z.pos mz) ez loc_Exact) = true).
  { intros mz ez _ Hle Emz Hz.
    assert (Dm : digs mz = digs p + (ex - ez)) by (apply digs_mul_pow; [lia|exact Emz]).
    pose proof (round_aux_is_round64 (Z.pos mz) 1 ez A B) as X. unfold loc_of in X. rewrite Z.div_1_r, Z.mod_1_r in X. apply X; try lia.
    - rewrite fexp64_eq. cbn [Zdigits2]. change (Z.pos (digits2_pos mz)) with (digs mz). lia.
    - intros k Hk Hz'. rewrite Z.mul_1_r. rewrite (HA k) by lia. rewrite Emz.
      replace (ex + k) with ((ex - ez) + (ez + k)) by lia. rewrite (pow_split (ex - ez)) by lia. ring. }
  destruct (Z.max (digs p + ex - 53) (-1074) - ex) as [|d|d] eqn:E.
  - apply G; rewrite ?Z.sub_diag; lia.
  - apply G; rewrite ?Z.sub_diag; lia.
  - set (ez := Z.max (digs p + ex - 53) (-1074)) in *. apply G; rewrite ?Z.sub_diag; try lia.
    rewrite shift_pos_correct. replace (ex - ez) with (Z.pos d) by lia. rewrite Z.pow_pos_fold. lia.
Qed.

Lemma f64_of_int_round : forall z, 0 < z -> is_round64 (z * 2 ^ 1074) 1 (f64_of_int z) /\ f64_valid (f64_of_int z) = true.
Proof.
  intros [|p|p] Hz; try lia. unfold f64_of_int, binary_normalize. apply binary_round_is_round64; [lia|].
  intros k Hk Hx. rewrite Z.add_0_l. ring.
Qed.

Lemma valid64_bounds : forall s m e, f64_valid (S754_finite s m e) = true ->
  -1074 <= e <= 971 /\ 1 <= digs m <= 53 /\ (-1074 < e -> digs m = 53).
Proof. intros s m e V. apply valid64_finite in V as [C L]. rewrite fexp64_eq in C. pose proof (digs_pos m). lia. Qed.

(** For quotients that are not subnormal. *)
Lemma f64_div_round : forall m1 e1 m2 e2, -1021 <= digs m1 + e1 - (digs m2 + e2) ->
  f64_valid (S754_finite false m1 e1) = true -> f64_valid (S754_finite false m2 e2) = true ->
  is_round64 (fval64 (S754_finite false m1 e1) * 2 ^ 1074) (fval64 (S754_finite false m2 e2))
    (f64_div (S754_finite false m1 e1) (S754_finite false m2 e2)) /\
  f64_valid (f64_div (S754_finite false m1 e1) (S754_finite false m2 e2)) = true.
Proof.
  intros m1 e1 m2 e2 HQ V1 V2. apply valid64_bounds in V1 as (B1 & D1 & N1). apply valid64_bounds in V2 as (B2 & D2 & N2).
  unfold f64_div. cbn [SFdiv xorb]. unfold SFdiv_core_binary. cbn [Zdigits2].
  change (Z.pos (digits2_pos m1)) with (digs m1). change (Z.pos (digits2_pos m2)) with (digs m2). rewrite fexp64_eq.
  set (e' := Z.min (Z.max (digs m1 + e1 - (digs m2 + e2) - 53) (-1074)) (e1 - e2)).
  set (m' := match e1 - e2 - e' with Z0 => Z.pos m1 | Z.pos _ => Z.shiftl (Z.pos m1) (e1 - e2 - e') | Z.neg _ => 0 end).
  assert (Em' : m' = Z.pos m1 * 2 ^ (e1 - e2 - e')).
  { unfold m'. destruct (e1 - e2 - e') as [|k|k] eqn:E; [cbn; lia| |lia]. rewrite Z.shiftl_mul_pow2 by lia. reflexivity. }
  clearbody m'.
  pose proof (Z.div_eucl_eq m' (Z.pos m2) ltac:(lia)) as DE.
  assert (Hdm : Z.div_eucl m' (Z.pos m2) = (m' / Z.pos m2, m' mod Z.pos m2)).
  { unfold Z.div, Z.modulo. destruct (Z.div_eucl m' (Z.pos m2)). reflexivity. }
  rewrite Hdm. clear DE. rewrite new_location_loc by lia.
  pose proof (digs_bounds m1) as [L1 U1]. pose proof (digs_bounds m2) as [L2 U2].
  assert (Ps : 0 < 2 ^ (e1 - e2 - e')) by (apply Z.pow_pos_nonneg; lia).
  assert (Q : 0 < m' / Z.pos m2 -> e' <= Z.max (Zdigits2 (m' / Z.pos m2) + e' - 53) (-1074)).
  { intros Hq. destruct (m' / Z.pos m2) as [|q|] eqn:Eq; try lia. cbn [Zdigits2]. change (Z.pos (digits2_pos q)) with (digs q).
    pose proof (digs_bounds q) as [_ Uq]. pose proof (digs_pos q).
    pose proof (Z.div_mod m' (Z.pos m2) ltac:(lia)) as DM. pose proof (Z.mod_pos_bound m' (Z.pos m2) ltac:(lia)) as MB. rewrite Eq in DM.
    (* m1 2^s < m2 2^digs q, so digs m1 - 1 + s < digs m2 + digs q *)
    assert (X : 2 ^ (digs m1 - 1 + (e1 - e2 - e')) < 2 ^ (digs m2 + digs q)).
    { rewrite !pow_split by lia. apply Z.le_lt_trans with m'; [rewrite Em'; apply Z.mul_le_mono_nonneg_r; lia|].
      apply Z.lt_le_trans with (Z.pos m2 * 2 ^ digs q); [nia|]. apply Z.mul_le_mono_nonneg_r; [apply Z.pow_nonneg; lia|lia]. }
    apply Z.pow_lt_mono_r_iff in X; lia. }
  assert (Hq : 0 < m' / Z.pos m2).
  { apply Z.div_str_pos. split; [lia|]. rewrite Em'.
    assert (2 ^ digs m2 <= 2 ^ (digs m1 - 1) * 2 ^ (e1 - e2 - e')) by (rewrite <- pow_split by lia; apply Z.pow_le_mono_r; lia).
    nia. }
  apply round_aux_is_round64; [lia|exact Hq| | |].
  - cbn [fval64]. rewrite Z.mul_1_l. apply Z.mul_pos_pos; [lia|apply Z.pow_pos_nonneg; lia].
  - rewrite fexp64_eq. apply Q. exact Hq.
  - intros k Hk Hx. cbn [fval64]. rewrite !Z.mul_1_l, Em'.
    assert (S : 2 ^ (e1 + 1074) * 2 ^ k = 2 ^ (e1 - e2 - e') * 2 ^ (e2 + 1074) * 2 ^ (e' + k)).
    { rewrite <- !pow_split by lia. f_equal. lia. }
    replace (Z.pos m1 * 2 ^ (e1 + 1074) * 2 ^ 1074 * Z.pos m2 * 2 ^ k) with (Z.pos m1 * Z.pos m2 * 2 ^ 1074 * (2 ^ (e1 + 1074) * 2 ^ k)) by ring.
    rewrite S. ring.
Qed.

(** ** What [is_round64] implies *)
Lemma is_round_mono64 : forall A1 B1 r1 A2 B2 r2, 0 < B1 -> 0 < B2 -> 0 <= A1 ->
  is_round64 A1 B1 r1 -> is_round64 A2 B2 r2 -> A1 * B2 <= A2 * B1 -> fval64 r1 <= fval64 r2.
Proof.
  intros A1 B1 r1 A2 B2 r2 H1 H2 HA (E1 & P1 & L1 & U1 & R1) (E2 & P2 & L2 & U2 & R2) Le. rewrite R1, R2.
  apply Z.min_le_compat; [|lia].
  assert (Q1 : 0 < 2 ^ E1) by (apply Z.pow_pos_nonneg; lia). assert (Q2 : 0 < 2 ^ E2) by (apply Z.pow_pos_nonneg; lia).
  assert (HE : E1 <= E2).
  { destruct (Z_le_gt_dec E1 E2) as [|G]; [assumption|exfalso].
    specialize (L1 ltac:(lia)).
    assert (2 ^ (53 + E2) <= 2 ^ (52 + E1)) by (apply Z.pow_le_mono_r; lia).
    assert (A2 * B1 < A1 * B2); [|lia].
    apply Z.lt_le_trans with (B2 * 2 ^ (53 + E2) * B1); [apply Z.mul_lt_mono_pos_r; lia|].
    apply Z.le_trans with (B1 * 2 ^ (52 + E1) * B2); [|apply Z.mul_le_mono_nonneg_r; lia].
    replace (B2 * 2 ^ (53 + E2) * B1) with (B1 * B2 * 2 ^ (53 + E2)) by ring. replace (B1 * 2 ^ (52 + E1) * B2) with (B1 * B2 * 2 ^ (52 + E1)) by ring.
    apply Z.mul_le_mono_nonneg_l; [apply Z.mul_nonneg_nonneg; lia|assumption]. }
  destruct (Z.eq_dec E1 E2) as [<-|NE].
  - apply Z.mul_le_mono_nonneg_r; [lia|]. apply rne_mono; [apply Z.mul_pos_pos; lia|apply Z.mul_pos_pos; lia|].
    replace (A1 * (B2 * 2 ^ E1)) with (A1 * B2 * 2 ^ E1) by ring. replace (A2 * (B1 * 2 ^ E1)) with (A2 * B1 * 2 ^ E1) by ring.
    apply Z.mul_le_mono_nonneg_r; lia.
  - specialize (L2 ltac:(lia)).
    assert (R53 : rne A1 (B1 * 2 ^ E1) <= 2 ^ 53).
    { rewrite <- (rne_exact (2 ^ 53) 1) by lia. apply rne_mono; [apply Z.mul_pos_pos; lia|lia|]. rewrite pow_split in U1 by lia. lia. }
    assert (R23 : 2 ^ 52 <= rne A2 (B2 * 2 ^ E2)).
    { rewrite <- (rne_exact (2 ^ 52) 1) by lia. apply rne_mono; [lia|apply Z.mul_pos_pos; lia|]. rewrite pow_split in L2 by lia. lia. }
    apply Z.le_trans with (2 ^ 53 * 2 ^ E1); [apply Z.mul_le_mono_nonneg_r; lia|].
    apply Z.le_trans with (2 ^ 52 * 2 ^ E2); [|apply Z.mul_le_mono_nonneg_r; lia].
    rewrite <- !pow_split by lia. apply Z.pow_le_mono_r; lia.
Qed.

(** The rounding error is at most one part in 2^53. *)
Lemma is_round_error64 : forall A B r, 0 < B -> is_round64 A B r -> B * 2 ^ 52 <= A -> A < B * 2 ^ 2097 ->
  2 ^ 53 * (B * fval64 r - A) <= A /\ 2 ^ 53 * (A - B * fval64 r) <= A.
Proof.
  intros A B r HB (E & P & L & U & R) HN HF.
  assert (Q : 0 < 2 ^ E) by (apply Z.pow_pos_nonneg; lia).
  assert (L' : B * 2 ^ (52 + E) <= A).
  { destruct (Z.eq_dec E 0) as [->|N]; [exact HN|apply L; lia]. }
  assert (HE : E < 2045).
  { destruct (Z_lt_ge_dec E 2045) as [|G]; [assumption|exfalso].
    assert (2 ^ 2097 <= 2 ^ (52 + E)) by (apply Z.pow_le_mono_r; lia). nia. }
  assert (R53 : rne A (B * 2 ^ E) <= 2 ^ 53).
  { rewrite <- (rne_exact (2 ^ 53) 1) by lia. apply rne_mono; [apply Z.mul_pos_pos; lia|lia|]. rewrite pow_split in U by lia. lia. }
  rewrite Z.min_l in R.
  2:{ apply Z.le_trans with (2 ^ 53 * 2 ^ E); [apply Z.mul_le_mono_nonneg_r; lia|]. rewrite <- pow_split by lia. apply Z.pow_le_mono_r; lia. }
  pose proof (rne_near A (B * 2 ^ E) ltac:(apply Z.mul_pos_pos; lia)) as [X Y].
  rewrite R. rewrite pow_split in L' by lia. set (q := rne A (B * 2 ^ E)) in *. set (b := 2 ^ E) in *.
  replace (B * (q * b)) with (B * b * q) by ring. set (c := B * b) in *. change (2 ^ 53) with (2 ^ 52 * 2).
  assert (c * 2 ^ 52 <= A) by (unfold c; lia). lia.
Qed.

(** A value that is itself a double is not changed. *)
Lemma is_round_exact64 : forall A B r q E, 0 < B -> is_round64 A B r -> 0 <= E -> A = q * 2 ^ E * B -> 0 <= q < 2 ^ 53 -> A < B * 2 ^ 2098 ->
  B * fval64 r = A.
Proof.
  intros A B r q E HB (E' & P & L & U & R) HE EA Hq HF.
  assert (HL : q * 2 ^ E < 2 ^ (53 + E')) by (rewrite EA in U; nia).
  assert (X : exists k, A = k * (B * 2 ^ E')).
  { destruct (Z_le_gt_dec E' E) as [Le|G].
    - exists (q * 2 ^ (E - E')). rewrite EA. replace E with ((E - E') + E') at 1 by lia. rewrite pow_split by lia. ring.
    - specialize (L ltac:(lia)). exfalso.
      assert (2 ^ (53 + E) <= 2 ^ (52 + E')) by (apply Z.pow_le_mono_r; lia). rewrite pow_split in H by lia.
      assert (P2 : 0 < 2 ^ E) by (apply Z.pow_pos_nonneg; lia). assert (q * 2 ^ E < 2 ^ 53 * 2 ^ E) by (apply Z.mul_lt_mono_pos_r; lia).
      assert (q * 2 ^ E * B < 2 ^ (52 + E') * B) by (apply Z.mul_lt_mono_pos_r; lia). lia. }
  destruct X as [k Ek]. assert (0 < 2 ^ E') by (apply Z.pow_pos_nonneg; lia).
  rewrite R, Ek, rne_exact by (apply Z.mul_pos_pos; lia). rewrite Z.min_l; [ring|].
  assert (k * 2 ^ E' < 2 ^ 2098) by (apply Z.mul_lt_mono_pos_l with (p := B); [lia|]; replace (B * (k * 2 ^ E')) with (k * (B * 2 ^ E')) by ring; lia). lia.
Qed.
