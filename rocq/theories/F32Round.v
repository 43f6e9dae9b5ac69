(** * Rounding of single-precision floats, as inequalities between integers

    Every finite single is an integer multiple of 2^-149; [fval] is that
    integer (infinities count as 2^128).  [is_round A B r] says that [r] is the
    nearest single to the rational [A/B] * 2^-149. *)
From Coq Require Import SpecFloat.
From Verif Require Import Base F32 F32Facts Coords.
#[local] Open Scope Z_scope.

Definition fval (x : f32) : Z :=
  match x with
  | S754_zero _ | S754_nan => 0
  | S754_infinity s => if s then - 2 ^ 277 else 2 ^ 277
  | S754_finite s m e => (if s then -1 else 1) * (Z.pos m * 2 ^ (e + 149))
  end.

(** ** Nearest integer to a quotient, ties to even *)
Definition loc_of (n d : Z) : location := if n mod d =? 0 then loc_Exact else loc_Inexact (2 * (n mod d) ?= d).
Definition rne (n d : Z) : Z := round_nearest_even (n / d) (loc_of n d).
Definition repr (n d : Z) : shr_record := Build_shr_record (n / d) (d <=? 2 * (n mod d)) (negb ((2 * (n mod d)) mod d =? 0)).

Lemma double_mod : forall x d, 0 <= x < d -> (2 * x) mod d = if 2 * x <? d then 2 * x else 2 * x - d.
Proof.
  intros x d Hx. destruct (Z.ltb_spec (2 * x) d).
  - apply Z.mod_small. lia.
  - symmetry. apply Z.mod_unique with (q := 1); lia.
Qed.
Lemma repr_of_loc : forall n d, 0 < d -> shr_record_of_loc (n / d) (loc_of n d) = repr n d.
Proof.
  intros n d Hd. unfold loc_of, repr. pose proof (Z.mod_pos_bound n d Hd) as B. rewrite double_mod by lia.
  destruct (Z.eqb_spec (n mod d) 0) as [E|E].
  - rewrite E. cbn [shr_record_of_loc]. destruct (Z.leb_spec d (2 * 0)), (Z.ltb_spec (2 * 0) d); try lia. reflexivity.
  - destruct (Z.compare_spec (2 * (n mod d)) d) as [C|C|C]; cbn [shr_record_of_loc];
      destruct (Z.leb_spec d (2 * (n mod d))), (Z.ltb_spec (2 * (n mod d)) d); try lia;
      (destruct (Z.eqb_spec (2 * (n mod d)) 0); destruct (Z.eqb_spec (2 * (n mod d) - d) 0)); try lia; reflexivity.
Qed.
Lemma loc_of_repr : forall n d, 0 < d -> loc_of_shr_record (repr n d) = loc_of n d.
Proof.
  intros n d Hd. rewrite <- repr_of_loc by exact Hd. destruct (loc_of n d) as [|[]]; reflexivity.
Qed.
Lemma shr_1_half : forall m r s, 0 <= m -> shr_1 (Build_shr_record m r s) = Build_shr_record (m / 2) (Z.odd m) (orb r s).
Proof.
  intros [|p|p] r s Hm; [reflexivity| |lia]. rewrite <- Z.div2_div. destruct p; reflexivity.
Qed.
Lemma mod_double : forall n d, 0 < d -> n mod (2 * d) = n mod d + d * (n / d mod 2).
Proof.
  intros n d Hd. rewrite Z.mul_comm with (n := 2). rewrite Z.rem_mul_r by lia. reflexivity.
Qed.
Lemma shr_1_repr : forall n d, 0 < d -> 0 <= n -> shr_1 (repr n d) = repr n (2 * d).
Proof.
  intros n d Hd Hn. unfold repr at 1. rewrite shr_1_half by (apply Z.div_pos; lia).
  unfold repr. pose proof (Z.mod_pos_bound n d Hd) as B.
  f_equal.
  - rewrite Z.div_div by lia. f_equal. lia.
  - rewrite mod_double by exact Hd. rewrite Zmod_odd. destruct (Z.odd (n / d)); [destruct (Z.leb_spec (2 * d) (2 * (n mod d + d * 1)))|destruct (Z.leb_spec (2 * d) (2 * (n mod d + d * 0)))]; lia || reflexivity.
  - rewrite Zmult_mod_distr_l. rewrite double_mod by lia.
    replace ((n mod (2 * d)) mod d) with (n mod d).
    2:{ rewrite mod_double by exact Hd. rewrite Z.add_mod, (Z.mul_comm d), Z.mod_mul, Z.add_0_r, !Z.mod_mod by lia. reflexivity. }
    destruct (Z.leb_spec d (2 * (n mod d))), (Z.ltb_spec (2 * (n mod d)) d); try lia; cbn [orb];
      (destruct (Z.eqb_spec (2 * (n mod d)) 0); destruct (Z.eqb_spec (2 * (n mod d) - d) 0); destruct (Z.eqb_spec (2 * (n mod d)) 0)); try lia; try reflexivity.
Qed.
Lemma iter_shr_repr : forall k n d, 0 < d -> 0 <= n -> Pos.iter shr_1 (repr n d) k = repr n (d * 2 ^ Z.pos k).
Proof.
  induction k as [|k IH] using Pos.peano_ind; intros n d Hd Hn.
  - cbn [Pos.iter]. rewrite shr_1_repr by assumption. f_equal. lia.
  - rewrite Pos.iter_succ_r, shr_1_repr, IH by lia. f_equal. rewrite Pos2Z.inj_succ, Z.pow_succ_r by lia. lia.
Qed.
Lemma shr_repr : forall n d e k, 0 < d -> 0 <= n -> 0 <= k -> shr (repr n d) e k = (repr n (d * 2 ^ k), e + k).
Proof.
  intros n d e [|k|k] Hd Hn Hk; [|cbn [shr]|lia].
  - cbn [shr]. rewrite Z.mul_1_r, Z.add_0_r. reflexivity.
  - rewrite iter_pos_iter, iter_shr_repr by assumption. reflexivity.
Qed.

Lemma rne_near : forall n d, 0 < d -> 2 * (n - d * rne n d) <= d /\ 2 * (d * rne n d - n) <= d.
Proof.
  intros n d Hd. unfold rne, loc_of. pose proof (Z.mod_pos_bound n d Hd). pose proof (Z.div_mod n d ltac:(lia)).
  destruct (Z.eqb_spec (n mod d) 0); cbn [round_nearest_even]; [lia|].
  destruct (Z.compare_spec (2 * (n mod d)) d); [|lia|lia]. destruct (Z.even (n / d)); lia.
Qed.
Lemma rne_tie : forall n d, 0 < d -> 2 * (n - d * rne n d) = d \/ 2 * (d * rne n d - n) = d -> Z.even (rne n d) = true.
Proof.
  intros n d Hd. unfold rne, loc_of. pose proof (Z.mod_pos_bound n d Hd). pose proof (Z.div_mod n d ltac:(lia)).
  destruct (Z.eqb_spec (n mod d) 0); cbn [round_nearest_even]; [lia|].
  destruct (Z.compare_spec (2 * (n mod d)) d); [|lia|lia]. destruct (Z.even (n / d)) eqn:Ev; [auto|].
  intros _. change (n / d + 1) with (Z.succ (n / d)). rewrite Z.even_succ, <- Z.negb_even, Ev. reflexivity.
Qed.
Lemma rne_mono : forall n1 d1 n2 d2, 0 < d1 -> 0 < d2 -> n1 * d2 <= n2 * d1 -> rne n1 d1 <= rne n2 d2.
Proof.
  intros n1 d1 n2 d2 H1 H2 L. destruct (Z_le_gt_dec (rne n1 d1) (rne n2 d2)) as [|G]; [assumption|exfalso].
  pose proof (rne_near n1 d1 H1) as [A1 A2]. pose proof (rne_near n2 d2 H2) as [B1 B2].
  set (q1 := rne n1 d1) in *. set (q2 := rne n2 d2) in *.
  (* q1 - 1/2 <= n1/d1 <= n2/d2 <= q2 + 1/2 *)
  assert (C1 : (2 * q1 - 1) * d1 <= 2 * n1) by lia. assert (C2 : 2 * n2 <= (2 * q2 + 1) * d2) by lia.
  assert (C3 : (2 * q1 - 1) * d1 * d2 <= (2 * q2 + 1) * d2 * d1) by nia.
  assert (C4 : 2 * q1 - 1 <= 2 * q2 + 1) by nia.
  assert (Eq : q1 = q2 + 1) by lia.
  (* both are ties, and neighbours are not both even *)
  assert (T1 : 2 * (d1 * q1 - n1) = d1) by nia. assert (T2 : 2 * (n2 - d2 * q2) = d2) by nia.
  pose proof (rne_tie n1 d1 H1 (or_intror T1)) as V1. pose proof (rne_tie n2 d2 H2 (or_introl T2)) as V2.
  fold q1 in V1. fold q2 in V2. rewrite Eq in V1. change (q2 + 1) with (Z.succ q2) in V1.
  rewrite Z.even_succ, <- Z.negb_even, V2 in V1. discriminate.
Qed.
Lemma rne_ratio : forall n1 d1 n2 d2, 0 < d1 -> 0 < d2 -> n1 * d2 = n2 * d1 -> rne n1 d1 = rne n2 d2.
Proof. intros n1 d1 n2 d2 H1 H2 E. apply Z.le_antisymm; apply rne_mono; lia. Qed.
Lemma rne_exact : forall q d, 0 < d -> rne (q * d) d = q.
Proof. intros q d Hd. unfold rne, loc_of. rewrite Z.mod_mul, Z.div_mul by lia. reflexivity. Qed.

(** ** Rounding to a single *)
Definition is_round (A B : Z) (r : f32) : Prop :=
  exists E, 0 <= E /\ (0 < E -> B * 2 ^ (23 + E) <= A) /\ A < B * 2 ^ (24 + E) /\
    fval r = Z.min (rne A (B * 2 ^ E) * 2 ^ E) (2 ^ 277).

Lemma pow_split : forall a b, 0 <= a -> 0 <= b -> 2 ^ (a + b) = 2 ^ a * 2 ^ b.
Proof. intros. apply Z.pow_add_r; assumption. Qed.

Lemma round_aux_spec : forall s n d ex, 0 < d -> 0 < n / d ->
  forall e, e = fexp f32_prec f32_emax (Zdigits2 (n / d) + ex) -> ex <= e ->
  exists m' e', binary_round_aux f32_prec f32_emax s (n / d) ex (loc_of n d) =
      (match m' with Z0 => S754_zero s | Z.pos m => if e' <=? 104 then S754_finite s m e' else S754_infinity s | _ => S754_nan end) /\
    0 <= m' < 2 ^ 24 /\ e <= e' /\ m' * 2 ^ (e' - e) = rne n (d * 2 ^ (e - ex)) /\
    (-149 < e' -> 2 ^ 23 <= m') /\ -149 <= e'.
Proof.
  intros s n d ex Hd Hm e Ee Hx.
  assert (Hn : 0 <= n). { destruct (Z_le_gt_dec 0 n); [assumption|]. pose proof (Z.div_lt_upper_bound n d 0 Hd). lia. }
  unfold binary_round_aux, shr_fexp. rewrite <- Ee, repr_of_loc, shr_repr by lia.
  replace (ex + (e - ex)) with e by lia.
  assert (Hd' : 0 < d * 2 ^ (e - ex)) by (apply Z.mul_pos_pos; [lia|apply Z.pow_pos_nonneg; lia]).
  rewrite loc_of_repr by exact Hd'. cbn [shr_m repr]. fold (rne n (d * 2 ^ (e - ex))).
  set (q := rne n (d * 2 ^ (e - ex))).
  destruct (n / d) as [|mx|] eqn:Em; try lia. cbn [Zdigits2] in Ee. change (Z.pos (digits2_pos mx)) with (digs mx) in Ee.
  rewrite fexp_eq in Ee. pose proof (digs_bounds mx) as [L U]. pose proof (digs_pos mx) as P.
  pose proof (Z.div_mod n d ltac:(lia)) as DM. pose proof (Z.mod_pos_bound n d Hd) as MB. rewrite Em in DM.
  assert (Pk : 0 < 2 ^ (e - ex)) by (apply Z.pow_pos_nonneg; lia).
  (* q <= 2^24 *)
  assert (Up : n < d * 2 ^ (e - ex) * 2 ^ 24).
  { assert (2 ^ digs mx <= 2 ^ (e - ex) * 2 ^ 24). { rewrite <- pow_split by lia. apply Z.pow_le_mono_r; lia. }
    apply Z.lt_le_trans with (d * 2 ^ digs mx); [nia|]. nia. }
  assert (Q : q <= 2 ^ 24).
  { unfold q. rewrite <- (rne_exact (2 ^ 24) 1) by lia. apply rne_mono; lia. }
  assert (Q0 : 0 <= q).
  { unfold q. rewrite <- (rne_exact 0 1) by lia. apply rne_mono; lia. }
  assert (Q23 : -149 < e -> 2 ^ 23 <= q).
  { intros He. assert (Ed : e = digs mx + ex - 24) by lia.
    unfold q. rewrite <- (rne_exact (2 ^ 23) 1) by lia. apply rne_mono; [lia|exact Hd'|].
    assert (2 ^ (digs mx - 1) = 2 ^ (e - ex) * 2 ^ 23) by (rewrite <- pow_split by lia; f_equal; lia). nia. }
  destruct (Z.eq_dec q (2 ^ 24)) as [E24|N24].
  - exists (2 ^ 23), (e + 1). rewrite E24. change (Zdigits2 (2 ^ 24)) with 25. rewrite fexp_eq.
    replace (Z.max (25 + e - 24) (-149) - e) with 1 by lia.
    split; [|repeat split; try lia; replace (e + 1 - e) with 1 by lia; reflexivity].
    cbn [shr_record_of_loc]. change (Build_shr_record (2 ^ 24) false false) with (repr (2 ^ 24) 1).
    rewrite shr_repr by lia. change (shr_m (repr (2 ^ 24) (1 * 2 ^ 1))) with (2 ^ 23).
    cbv beta iota. reflexivity.
  - exists q, e. split; [|repeat split; try lia; rewrite Z.sub_diag; lia].
    assert (Ef : fexp f32_prec f32_emax (Zdigits2 q + e) - e <= 0).
    { rewrite fexp_eq. destruct q as [|q0|q0] eqn:Eq0; cbn [Zdigits2]; [lia| |lia].
      change (Z.pos (digits2_pos q0)) with (digs q0).
      assert (digs q0 <= 24).
      { destruct (Z_le_gt_dec (digs q0) 24) as [|G]; [assumption|]. pose proof (digs_bounds q0) as [B _].
        assert (2 ^ 24 <= 2 ^ (digs q0 - 1)) by (apply Z.pow_le_mono_r; lia). lia. }
      lia. }
    cbn [shr_record_of_loc]. unfold shr.
    destruct (fexp f32_prec f32_emax (Zdigits2 q + e) - e) as [|k|k]; [|lia|]; cbn [shr_m]; reflexivity.
Qed.

Lemma fval_pos_result : forall m' e', 0 <= m' < 2 ^ 24 -> -149 <= e' -> (-149 < e' -> 2 ^ 23 <= m') ->
  let r := match m' with Z0 => S754_zero false | Z.pos m => if e' <=? 104 then S754_finite false m e' else S754_infinity false | _ => S754_nan end in
  fval r = Z.min (m' * 2 ^ (e' + 149)) (2 ^ 277) /\ f32_valid r = true.
Proof.
  intros m' e' Hm He Hn r. unfold r. destruct m' as [|m|m]; [|clear r|lia].
  - split; [|reflexivity]. cbn [fval]. rewrite Z.mul_0_l. reflexivity.
  - destruct (Z.leb_spec e' 104) as [L|G].
    + split.
      * cbn [fval]. rewrite Z.mul_1_l. symmetry. apply Z.min_l.
        apply Z.le_trans with (2 ^ 24 * 2 ^ (104 + 149)); [|vm_compute; discriminate].
        apply Z.mul_le_mono_nonneg; [lia|lia|lia|apply Z.pow_le_mono_r; lia].
      * apply valid_finite. split; [|lia]. rewrite fexp_eq.
        destruct (Z.eq_dec e' (-149)) as [->|N].
        -- assert (digs m <= 24).
           { destruct (Z_le_gt_dec (digs m) 24) as [|G]; [assumption|]. pose proof (digs_bounds m) as [B _].
             assert (2 ^ 24 <= 2 ^ (digs m - 1)) by (apply Z.pow_le_mono_r; lia). lia. }
           lia.
        -- rewrite (digs_unique m 24); [lia| |lia]. change (24 - 1) with 23. lia.
    + split; [|reflexivity]. cbn [fval]. symmetry. apply Z.min_r.
      apply Z.le_trans with (2 ^ 23 * 2 ^ (105 + 149)); [vm_compute; discriminate|].
      apply Z.mul_le_mono_nonneg; [lia|lia|apply Z.pow_nonneg; lia|apply Z.pow_le_mono_r; lia].
Qed.

(** The link between a rounding step and [is_round]. *)
Lemma round_aux_is_round : forall n d ex A B, 0 < d -> 0 < n / d -> 0 < B ->
  ex <= fexp f32_prec f32_emax (Zdigits2 (n / d) + ex) ->
  (forall k, 0 <= k -> 0 <= ex + k -> A * d * 2 ^ k = n * B * 2 ^ (ex + k) * 2 ^ 149) ->
  is_round A B (binary_round_aux f32_prec f32_emax false (n / d) ex (loc_of n d)) /\
  f32_valid (binary_round_aux f32_prec f32_emax false (n / d) ex (loc_of n d)) = true.
Proof.
  intros n d ex A B Hd Hm HB Hx HA.
  destruct (round_aux_spec false n d ex Hd Hm _ eq_refl Hx) as (m' & e' & R & Hm' & He & Hq & Hn & He').
  set (e := fexp f32_prec f32_emax (Zdigits2 (n / d) + ex)) in *. rewrite R.
  destruct (fval_pos_result m' e' Hm' He' Hn) as [F V]. split; [|exact V].
  assert (Ee : e = Z.max (Zdigits2 (n / d) + ex - 24) (-149)) by (unfold e; apply fexp_eq).
  destruct (n / d) as [|mx|] eqn:Em; try lia. cbn [Zdigits2] in Ee. change (Z.pos (digits2_pos mx)) with (digs mx) in Ee.
  pose proof (digs_bounds mx) as [L U]. pose proof (digs_pos mx) as P.
  pose proof (Z.div_mod n d ltac:(lia)) as DM. pose proof (Z.mod_pos_bound n d Hd) as MB. rewrite Em in DM.
  (* the scaled value, with exponents made non-negative by k *)
  set (k := 149 + Z.abs ex). assert (Hk : 0 <= k /\ 0 <= ex + k /\ 0 <= e + k /\ 149 <= k) by (unfold k; lia).
  specialize (HA k ltac:(lia) ltac:(lia)).
  assert (Pk : 0 < 2 ^ k) by (apply Z.pow_pos_nonneg; lia).
  assert (Pn : 0 < n) by nia.
  assert (Px : 0 < 2 ^ (ex + k)) by (apply Z.pow_pos_nonneg; lia).
  exists (e + 149). split; [lia|]. split; [|split].
  - intros HE. assert (Ed : e = digs mx + ex - 24) by lia.
    (* d * 2^(digs-1) <= n *)
    assert (N1 : d * 2 ^ (digs mx - 1) <= n) by nia.
    assert (S1 : 2 ^ (23 + (e + 149)) * 2 ^ k = 2 ^ (digs mx - 1) * 2 ^ (ex + k) * 2 ^ 149).
    { rewrite <- !pow_split by lia. f_equal. lia. }
    apply Z.mul_le_mono_pos_r with (p := d * 2 ^ k); [apply Z.mul_pos_pos; assumption|].
    replace (A * (d * 2 ^ k)) with (A * d * 2 ^ k) by ring. rewrite HA.
    replace (B * 2 ^ (23 + (e + 149)) * (d * 2 ^ k)) with (B * d * (2 ^ (23 + (e + 149)) * 2 ^ k)) by ring. rewrite S1.
    replace (B * d * (2 ^ (digs mx - 1) * 2 ^ (ex + k) * 2 ^ 149)) with ((B * 2 ^ (ex + k) * 2 ^ 149) * (d * 2 ^ (digs mx - 1))) by ring.
    replace (n * B * 2 ^ (ex + k) * 2 ^ 149) with ((B * 2 ^ (ex + k) * 2 ^ 149) * n) by ring.
    apply Z.mul_le_mono_nonneg_l; [|exact N1]. repeat apply Z.mul_nonneg_nonneg; lia.
  - assert (N1 : n < d * 2 ^ digs mx) by nia.
    assert (S1 : 2 ^ digs mx * 2 ^ (ex + k) * 2 ^ 149 <= 2 ^ (24 + (e + 149)) * 2 ^ k).
    { rewrite <- !pow_split by lia. apply Z.pow_le_mono_r; lia. }
    apply Z.mul_lt_mono_pos_r with (p := d * 2 ^ k); [apply Z.mul_pos_pos; assumption|].
    replace (A * (d * 2 ^ k)) with (A * d * 2 ^ k) by ring. rewrite HA.
    replace (B * 2 ^ (24 + (e + 149)) * (d * 2 ^ k)) with (B * d * (2 ^ (24 + (e + 149)) * 2 ^ k)) by ring.
    apply Z.lt_le_trans with (B * d * (2 ^ digs mx * 2 ^ (ex + k) * 2 ^ 149)).
    + replace (B * d * (2 ^ digs mx * 2 ^ (ex + k) * 2 ^ 149)) with ((B * 2 ^ (ex + k) * 2 ^ 149) * (d * 2 ^ digs mx)) by ring.
      replace (n * B * 2 ^ (ex + k) * 2 ^ 149) with ((B * 2 ^ (ex + k) * 2 ^ 149) * n) by ring.
      apply Z.mul_lt_mono_pos_l; [|exact N1]. repeat apply Z.mul_pos_pos; lia.
    + apply Z.mul_le_mono_nonneg_l; [apply Z.mul_nonneg_nonneg; lia|exact S1].
  - rewrite F. f_equal. replace (e' + 149) with ((e' - e) + (e + 149)) by lia. rewrite pow_split, Z.mul_assoc, Hq by lia. f_equal.
    apply rne_ratio.
    + apply Z.mul_pos_pos; [lia|apply Z.pow_pos_nonneg; lia].
    + apply Z.mul_pos_pos; [lia|apply Z.pow_pos_nonneg; lia].
    + (* n * (B * 2^(e+149)) = A * (d * 2^(e-ex)) *)
      assert (S2 : 2 ^ (e + 149) * 2 ^ k = 2 ^ (e - ex) * 2 ^ (ex + k) * 2 ^ 149).
      { rewrite <- !pow_split by lia. f_equal. lia. }
      apply Z.mul_reg_r with (p := 2 ^ k); [lia|].
      replace (n * (B * 2 ^ (e + 149)) * 2 ^ k) with (n * B * (2 ^ (e + 149) * 2 ^ k)) by ring. rewrite S2.
      replace (A * (d * 2 ^ (e - ex)) * 2 ^ k) with (A * d * 2 ^ k * 2 ^ (e - ex)) by ring. rewrite HA. ring.
Qed.

(** ** The operations *)
Lemma binary_round_is_round : forall p ex A B, 0 < B ->
  (forall k, 0 <= k -> 0 <= ex + k -> A * 2 ^ k = Z.pos p * B * 2 ^ (ex + k) * 2 ^ 149) ->
  is_round A B (binary_round f32_prec f32_emax false p ex) /\ f32_valid (binary_round f32_prec f32_emax false p ex) = true.
Proof.
  intros p ex A B HB HA. unfold binary_round. change (Z.pos (digits2_pos p)) with (digs p).
  unfold shl_align. rewrite fexp_eq.
  assert (G : forall mz ez, Z.pos mz * 2 ^ (ez - ez) = Z.pos mz -> ez <= ex -> Z.pos mz = Z.pos p * 2 ^ (ex - ez) ->
    ez <= Z.max (digs p + ex - 24) (-149) ->
    is_round A B (binary_round_aux f32_prec f32_emax false (Z.pos mz) ez loc_Exact) /\
    f32_valid (binary_round_aux f32_prec f32_emax false (Z.pos mz) ez loc_Exact) = true).
  { intros mz ez _ Hle Emz Hz.
    assert (Dm : digs mz = digs p + (ex - ez)) by (apply digs_mul_pow; [lia|exact Emz]).
    pose proof (round_aux_is_round (Z.pos mz) 1 ez A B) as X. unfold loc_of in X. rewrite Z.div_1_r, Z.mod_1_r in X. apply X; try lia.
    - rewrite fexp_eq. cbn [Zdigits2]. change (Z.pos (digits2_pos mz)) with (digs mz). lia.
    - intros k Hk Hz'. rewrite Z.mul_1_r. rewrite (HA k) by lia. rewrite Emz.
      replace (ex + k) with ((ex - ez) + (ez + k)) by lia. rewrite (pow_split (ex - ez)) by lia. ring. }
  destruct (Z.max (digs p + ex - 24) (-149) - ex) as [|d|d] eqn:E.
  - apply G; rewrite ?Z.sub_diag; lia.
  - apply G; rewrite ?Z.sub_diag; lia.
  - set (ez := Z.max (digs p + ex - 24) (-149)) in *. apply G; rewrite ?Z.sub_diag; try lia.
    rewrite shift_pos_correct. replace (ex - ez) with (Z.pos d) by lia. rewrite Z.pow_pos_fold. lia.
Qed.

Lemma f32_of_int_round : forall z, 0 < z -> is_round (z * 2 ^ 149) 1 (f32_of_int z) /\ f32_valid (f32_of_int z) = true.
Proof.
  intros [|p|p] Hz; try lia. unfold f32_of_int, binary_normalize. apply binary_round_is_round; [lia|].
  intros k Hk Hx. rewrite Z.add_0_l. ring.
Qed.

Lemma valid_bounds : forall s m e, f32_valid (S754_finite s m e) = true ->
  -149 <= e <= 104 /\ 1 <= digs m <= 24 /\ (-149 < e -> digs m = 24).
Proof. intros s m e V. apply valid_finite in V as [C L]. rewrite fexp_eq in C. pose proof (digs_pos m). lia. Qed.

Lemma f32_mul_round : forall m1 e1 m2 e2,
  f32_valid (S754_finite false m1 e1) = true -> f32_valid (S754_finite false m2 e2) = true ->
  is_round (fval (S754_finite false m1 e1) * fval (S754_finite false m2 e2)) (2 ^ 149)
    (f32_mul (S754_finite false m1 e1) (S754_finite false m2 e2)) /\
  f32_valid (f32_mul (S754_finite false m1 e1) (S754_finite false m2 e2)) = true.
Proof.
  intros m1 e1 m2 e2 V1 V2. apply valid_bounds in V1 as (B1 & D1 & N1). apply valid_bounds in V2 as (B2 & D2 & N2).
  unfold f32_mul. cbn [SFmul xorb fval].
  pose proof (round_aux_is_round (Z.pos (m1 * m2)) 1 (e1 + e2)) as X. unfold loc_of in X. rewrite Z.div_1_r, Z.mod_1_r in X.
  apply X; [lia|lia|lia| |].
  - rewrite fexp_eq. cbn [Zdigits2]. change (Z.pos (digits2_pos (m1 * m2))) with (digs (m1 * m2)).
    pose proof (digs_bounds m1) as [L1 _]. pose proof (digs_bounds m2) as [L2 _].
    assert (Lm : 2 ^ (digs m1 + digs m2 - 2) <= Z.pos (m1 * m2)).
    { replace (digs m1 + digs m2 - 2) with ((digs m1 - 1) + (digs m2 - 1)) by lia. rewrite pow_split, Pos2Z.inj_mul by lia.
      apply Z.mul_le_mono_nonneg; try apply Z.pow_nonneg; lia. }
    pose proof (digs_bounds (m1 * m2)) as [_ U].
    assert (digs m1 + digs m2 - 2 < digs (m1 * m2)) by (apply (Z.pow_lt_mono_r_iff 2); [lia|pose proof (digs_pos (m1 * m2)); lia|eapply Z.le_lt_trans; eassumption]).
    lia.
  - intros k Hk Hx. rewrite !Z.mul_1_l, Z.mul_1_r, Pos2Z.inj_mul.
    assert (S : 2 ^ (e1 + 149) * 2 ^ (e2 + 149) * 2 ^ k = 2 ^ (e1 + e2 + k) * 2 ^ 149 * 2 ^ 149).
    { rewrite <- !pow_split by lia. f_equal. lia. }
    replace (Z.pos m1 * 2 ^ (e1 + 149) * (Z.pos m2 * 2 ^ (e2 + 149)) * 2 ^ k) with (Z.pos m1 * Z.pos m2 * (2 ^ (e1 + 149) * 2 ^ (e2 + 149) * 2 ^ k)) by ring.
    rewrite S. ring.
Qed.

Lemma new_location_loc : forall n d, 0 < d -> new_location d (n mod d) = loc_of n d.
Proof.
  intros n d Hd. unfold new_location, new_location_even, new_location_odd, loc_of.
  assert (Z0 : Zeq_bool (n mod d) 0 = (n mod d =? 0)).
  { unfold Zeq_bool. rewrite Z.eqb_compare. reflexivity. }
  destruct (Z.even d) eqn:Ev; rewrite Z0; [reflexivity|]. destruct (Z.eqb_spec (n mod d) 0); [reflexivity|].
  f_equal. assert (Od : Z.odd d = true) by (rewrite <- Z.negb_even, Ev; reflexivity).
  apply Z.odd_spec in Od as [j Ej].
  destruct (Z.compare_spec (2 * (n mod d) + 1) d), (Z.compare_spec (2 * (n mod d)) d); lia || reflexivity.
Qed.

(** For quotients that are not subnormal. *)
Lemma f32_div_round : forall m1 e1 m2 e2, -125 <= digs m1 + e1 - (digs m2 + e2) ->
  f32_valid (S754_finite false m1 e1) = true -> f32_valid (S754_finite false m2 e2) = true ->
  is_round (fval (S754_finite false m1 e1) * 2 ^ 149) (fval (S754_finite false m2 e2))
    (f32_div (S754_finite false m1 e1) (S754_finite false m2 e2)) /\
  f32_valid (f32_div (S754_finite false m1 e1) (S754_finite false m2 e2)) = true.
Proof.
  intros m1 e1 m2 e2 HQ V1 V2. apply valid_bounds in V1 as (B1 & D1 & N1). apply valid_bounds in V2 as (B2 & D2 & N2).
  unfold f32_div. cbn [SFdiv xorb]. unfold SFdiv_core_binary. cbn [Zdigits2].
  change (Z.pos (digits2_pos m1)) with (digs m1). change (Z.pos (digits2_pos m2)) with (digs m2). rewrite fexp_eq.
  set (e' := Z.min (Z.max (digs m1 + e1 - (digs m2 + e2) - 24) (-149)) (e1 - e2)).
  set (m' := match e1 - e2 - e' with Z0 => Z.pos m1 | Z.pos _ => Z.shiftl (Z.pos m1) (e1 - e2 - e') | Z.neg _ => 0 end).
  assert (Em' : m' = Z.pos m1 * 2 ^ (e1 - e2 - e')).
  { unfold m'. destruct (e1 - e2 - e') as [|k|k] eqn:E; [cbn; lia| |lia]. rewrite Z.shiftl_mul_pow2 by lia. reflexivity. }
  clearbody m'.
  pose proof (Z.div_eucl_eq m' (Z.pos m2) ltac:(lia)) as DE.
  assert (Hdm : Z.div_eucl m' (Z.pos m2) = (m' / Z.pos m2, m' mod Z.pos m2)).
  { unfold Z.div, Z.modulo. destruct (Z.div_eucl m' (Z.pos m2)). reflexivity. }
  rewrite Hdm. clear DE. rewrite new_location_loc by lia.
  pose proof (digs_bounds m1) as [L1 U1]. pose proof (digs_bounds m2) as [L2 U2].
  assert (Ps : 0 < 2 ^ (e1 - e2 - e')) by (apply Z.pow_pos_nonneg; lia).
  assert (Q : 0 < m' / Z.pos m2 -> e' <= Z.max (Zdigits2 (m' / Z.pos m2) + e' - 24) (-149)).
  { intros Hq. destruct (m' / Z.pos m2) as [|q|] eqn:Eq; try lia. cbn [Zdigits2]. change (Z.pos (digits2_pos q)) with (digs q).
    pose proof (digs_bounds q) as [_ Uq]. pose proof (digs_pos q).
    pose proof (Z.div_mod m' (Z.pos m2) ltac:(lia)) as DM. pose proof (Z.mod_pos_bound m' (Z.pos m2) ltac:(lia)) as MB. rewrite Eq in DM.
    (* m1 2^s < m2 2^digs q, so digs m1 - 1 + s < digs m2 + digs q *)
    assert (X : 2 ^ (digs m1 - 1 + (e1 - e2 - e')) < 2 ^ (digs m2 + digs q)).
    { rewrite !pow_split by lia. apply Z.le_lt_trans with m'; [rewrite Em'; apply Z.mul_le_mono_nonneg_r; lia|].
      apply Z.lt_le_trans with (Z.pos m2 * 2 ^ digs q); [nia|]. apply Z.mul_le_mono_nonneg_r; [apply Z.pow_nonneg; lia|lia]. }
    apply Z.pow_lt_mono_r_iff in X; lia. }
  assert (Hq : 0 < m' / Z.pos m2).
  { apply Z.div_str_pos. split; [lia|]. rewrite Em'.
    assert (2 ^ digs m2 <= 2 ^ (digs m1 - 1) * 2 ^ (e1 - e2 - e')) by (rewrite <- pow_split by lia; apply Z.pow_le_mono_r; lia).
    nia. }
  apply round_aux_is_round; [lia|exact Hq| | |].
  - cbn [fval]. rewrite Z.mul_1_l. apply Z.mul_pos_pos; [lia|apply Z.pow_pos_nonneg; lia].
  - rewrite fexp_eq. apply Q. exact Hq.
  - intros k Hk Hx. cbn [fval]. rewrite !Z.mul_1_l, Em'.
    assert (S : 2 ^ (e1 + 149) * 2 ^ k = 2 ^ (e1 - e2 - e') * 2 ^ (e2 + 149) * 2 ^ (e' + k)).
    { rewrite <- !pow_split by lia. f_equal. lia. }
    replace (Z.pos m1 * 2 ^ (e1 + 149) * 2 ^ 149 * Z.pos m2 * 2 ^ k) with (Z.pos m1 * Z.pos m2 * 2 ^ 149 * (2 ^ (e1 + 149) * 2 ^ k)) by ring.
    rewrite S. ring.
Qed.

Lemma shl_align_val : forall m e e', e' <= e -> Z.pos (fst (shl_align m e e')) = Z.pos m * 2 ^ (e - e').
Proof.
  intros m e e' H. unfold shl_align. destruct (e' - e) as [|d|d] eqn:E; cbn [fst]; [|lia|].
  - replace (e - e') with 0 by lia. lia.
  - rewrite shift_pos_correct. replace (e - e') with (Z.pos d) by lia. rewrite Z.pow_pos_fold. lia.
Qed.
Lemma f32_add_round : forall m1 e1 m2 e2,
  f32_valid (S754_finite false m1 e1) = true -> f32_valid (S754_finite false m2 e2) = true ->
  is_round (fval (S754_finite false m1 e1) + fval (S754_finite false m2 e2)) 1
    (f32_add (S754_finite false m1 e1) (S754_finite false m2 e2)) /\
  f32_valid (f32_add (S754_finite false m1 e1) (S754_finite false m2 e2)) = true.
Proof.
  intros m1 e1 m2 e2 V1 V2. apply valid_bounds in V1 as (B1 & D1 & N1). apply valid_bounds in V2 as (B2 & D2 & N2).
  unfold f32_add. cbn [SFadd cond_Zopp]. set (ez := Z.min e1 e2).
  pose proof (shl_align_val m1 e1 ez ltac:(lia)) as A1. pose proof (shl_align_val m2 e2 ez ltac:(lia)) as A2.
  set (a1 := fst (shl_align m1 e1 ez)) in *. set (a2 := fst (shl_align m2 e2 ez)) in *.
  cbn [Z.add binary_normalize]. apply binary_round_is_round; [lia|].
  intros k Hk Hx. cbn [fval]. rewrite !Z.mul_1_l, Z.mul_1_r, Pos2Z.inj_add, A1, A2.
  assert (S1 : 2 ^ (e1 + 149) * 2 ^ k = 2 ^ (e1 - ez) * 2 ^ (ez + k) * 2 ^ 149) by (rewrite <- !pow_split by lia; f_equal; lia).
  assert (S2 : 2 ^ (e2 + 149) * 2 ^ k = 2 ^ (e2 - ez) * 2 ^ (ez + k) * 2 ^ 149) by (rewrite <- !pow_split by lia; f_equal; lia).
  replace ((Z.pos m1 * 2 ^ (e1 + 149) + Z.pos m2 * 2 ^ (e2 + 149)) * 2 ^ k) with (Z.pos m1 * (2 ^ (e1 + 149) * 2 ^ k) + Z.pos m2 * (2 ^ (e2 + 149) * 2 ^ k)) by ring.
  rewrite S1, S2. ring.
Qed.

(** ** What [is_round] implies *)
Lemma is_round_mono : forall A1 B1 r1 A2 B2 r2, 0 < B1 -> 0 < B2 -> 0 <= A1 ->
  is_round A1 B1 r1 -> is_round A2 B2 r2 -> A1 * B2 <= A2 * B1 -> fval r1 <= fval r2.
Proof.
  intros A1 B1 r1 A2 B2 r2 H1 H2 HA (E1 & P1 & L1 & U1 & R1) (E2 & P2 & L2 & U2 & R2) Le. rewrite R1, R2.
  apply Z.min_le_compat; [|lia].
  assert (Q1 : 0 < 2 ^ E1) by (apply Z.pow_pos_nonneg; lia). assert (Q2 : 0 < 2 ^ E2) by (apply Z.pow_pos_nonneg; lia).
  assert (HE : E1 <= E2).
  { destruct (Z_le_gt_dec E1 E2) as [|G]; [assumption|exfalso].
    specialize (L1 ltac:(lia)).
    assert (2 ^ (24 + E2) <= 2 ^ (23 + E1)) by (apply Z.pow_le_mono_r; lia).
    assert (A2 * B1 < A1 * B2); [|lia].
    apply Z.lt_le_trans with (B2 * 2 ^ (24 + E2) * B1); [apply Z.mul_lt_mono_pos_r; lia|].
    apply Z.le_trans with (B1 * 2 ^ (23 + E1) * B2); [|apply Z.mul_le_mono_nonneg_r; lia].
    replace (B2 * 2 ^ (24 + E2) * B1) with (B1 * B2 * 2 ^ (24 + E2)) by ring. replace (B1 * 2 ^ (23 + E1) * B2) with (B1 * B2 * 2 ^ (23 + E1)) by ring.
    apply Z.mul_le_mono_nonneg_l; [apply Z.mul_nonneg_nonneg; lia|assumption]. }
  destruct (Z.eq_dec E1 E2) as [<-|NE].
  - apply Z.mul_le_mono_nonneg_r; [lia|]. apply rne_mono; [apply Z.mul_pos_pos; lia|apply Z.mul_pos_pos; lia|].
    replace (A1 * (B2 * 2 ^ E1)) with (A1 * B2 * 2 ^ E1) by ring. replace (A2 * (B1 * 2 ^ E1)) with (A2 * B1 * 2 ^ E1) by ring.
    apply Z.mul_le_mono_nonneg_r; lia.
  - specialize (L2 ltac:(lia)).
    assert (R24 : rne A1 (B1 * 2 ^ E1) <= 2 ^ 24).
    { rewrite <- (rne_exact (2 ^ 24) 1) by lia. apply rne_mono; [apply Z.mul_pos_pos; lia|lia|]. rewrite pow_split in U1 by lia. lia. }
    assert (R23 : 2 ^ 23 <= rne A2 (B2 * 2 ^ E2)).
    { rewrite <- (rne_exact (2 ^ 23) 1) by lia. apply rne_mono; [lia|apply Z.mul_pos_pos; lia|]. rewrite pow_split in L2 by lia. lia. }
    apply Z.le_trans with (2 ^ 24 * 2 ^ E1); [apply Z.mul_le_mono_nonneg_r; lia|].
    apply Z.le_trans with (2 ^ 23 * 2 ^ E2); [|apply Z.mul_le_mono_nonneg_r; lia].
    rewrite <- !pow_split by lia. apply Z.pow_le_mono_r; lia.
Qed.

(** The rounding error is at most one part in 2^24. *)
Lemma is_round_error : forall A B r, 0 < B -> is_round A B r -> B * 2 ^ 23 <= A -> A < B * 2 ^ 276 ->
  2 ^ 24 * (B * fval r - A) <= A /\ 2 ^ 24 * (A - B * fval r) <= A.
Proof.
  intros A B r HB (E & P & L & U & R) HN HF.
  assert (Q : 0 < 2 ^ E) by (apply Z.pow_pos_nonneg; lia).
  assert (L' : B * 2 ^ (23 + E) <= A).
  { destruct (Z.eq_dec E 0) as [->|N]; [exact HN|apply L; lia]. }
  assert (HE : E < 253).
  { destruct (Z_lt_ge_dec E 253) as [|G]; [assumption|exfalso].
    assert (2 ^ 276 <= 2 ^ (23 + E)) by (apply Z.pow_le_mono_r; lia). nia. }
  assert (R24 : rne A (B * 2 ^ E) <= 2 ^ 24).
  { rewrite <- (rne_exact (2 ^ 24) 1) by lia. apply rne_mono; [apply Z.mul_pos_pos; lia|lia|]. rewrite pow_split in U by lia. lia. }
  rewrite Z.min_l in R.
  2:{ apply Z.le_trans with (2 ^ 24 * 2 ^ E); [apply Z.mul_le_mono_nonneg_r; lia|]. rewrite <- pow_split by lia. apply Z.pow_le_mono_r; lia. }
  pose proof (rne_near A (B * 2 ^ E) ltac:(apply Z.mul_pos_pos; lia)) as [X Y].
  rewrite R. rewrite pow_split in L' by lia. set (q := rne A (B * 2 ^ E)) in *. set (b := 2 ^ E) in *.
  replace (B * (q * b)) with (B * b * q) by ring. set (c := B * b) in *. change (2 ^ 24) with (2 ^ 23 * 2).
  assert (c * 2 ^ 23 <= A) by (unfold c; lia). lia.
Qed.

(** A value that is itself a single is not changed. *)
Lemma is_round_exact : forall A B r q E, 0 < B -> is_round A B r -> 0 <= E -> A = q * 2 ^ E * B -> 0 <= q < 2 ^ 24 -> A < B * 2 ^ 277 ->
  B * fval r = A.
Proof.
  intros A B r q E HB (E' & P & L & U & R) HE EA Hq HF.
  assert (HL : q * 2 ^ E < 2 ^ (24 + E')) by (rewrite EA in U; nia).
  assert (X : exists k, A = k * (B * 2 ^ E')).
  { destruct (Z_le_gt_dec E' E) as [Le|G].
    - exists (q * 2 ^ (E - E')). rewrite EA. replace E with ((E - E') + E') at 1 by lia. rewrite pow_split by lia. ring.
    - specialize (L ltac:(lia)). exfalso.
      assert (2 ^ (24 + E) <= 2 ^ (23 + E')) by (apply Z.pow_le_mono_r; lia). rewrite pow_split in H by lia.
      assert (P2 : 0 < 2 ^ E) by (apply Z.pow_pos_nonneg; lia). assert (q * 2 ^ E < 2 ^ 24 * 2 ^ E) by (apply Z.mul_lt_mono_pos_r; lia).
      assert (q * 2 ^ E * B < 2 ^ (23 + E') * B) by (apply Z.mul_lt_mono_pos_r; lia). lia. }
  destruct X as [k Ek]. assert (0 < 2 ^ E') by (apply Z.pow_pos_nonneg; lia).
  rewrite R, Ek, rne_exact by (apply Z.mul_pos_pos; lia). rewrite Z.min_l; [ring|].
  assert (k * 2 ^ E' < 2 ^ 277) by (apply Z.mul_lt_mono_pos_l with (p := B); [lia|]; replace (B * (k * 2 ^ E')) with (k * (B * 2 ^ E')) by ring; lia). lia.
Qed.
