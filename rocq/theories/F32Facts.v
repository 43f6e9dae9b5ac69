From Verif Require Import Base F32.

Definition digs (m : positive) : Z := Z.pos (digits2_pos m).

Lemma digs_log2 : forall p, digs p = Z.log2 (Z.pos p) + 1.
Proof.
  unfold digs. induction p as [p IH|p IH|]; cbn [digits2_pos].
  - rewrite Pos2Z.inj_succ, IH. replace (Z.pos p~1) with (2 * Z.pos p + 1) by lia.
    rewrite Z.log2_succ_double by lia. lia.
  - rewrite Pos2Z.inj_succ, IH. replace (Z.pos p~0) with (2 * Z.pos p) by lia.
    rewrite Z.log2_double by lia. lia.
  - reflexivity.
Qed.

Lemma digs_bounds : forall p, 2 ^ (digs p - 1) <= Z.pos p < 2 ^ digs p.
Proof.
  intros p. rewrite digs_log2. pose proof (Z.log2_spec (Z.pos p) ltac:(lia)).
  replace (Z.log2 (Z.pos p) + 1 - 1) with (Z.log2 (Z.pos p)) by lia.
  replace (Z.log2 (Z.pos p) + 1) with (Z.succ (Z.log2 (Z.pos p))) by lia. exact H.
Qed.
Lemma digs_pos : forall p, 1 <= digs p.
Proof. intros p. unfold digs. lia. Qed.

Lemma digs_unique : forall p k, 2 ^ (k - 1) <= Z.pos p < 2 ^ k -> 1 <= k -> digs p = k.
Proof.
  intros p k Hk H1. rewrite digs_log2. rewrite (Z.log2_unique (Z.pos p) (k - 1)); [lia|lia|].
  replace (Z.succ (k - 1)) with k by lia. exact Hk.
Qed.

Lemma digs_mul_pow : forall p q k, 0 <= k -> Z.pos q = Z.pos p * 2 ^ k -> digs q = digs p + k.
Proof. intros p q k Hk E. rewrite !digs_log2, E. rewrite Z.log2_mul_pow2 by lia. lia. Qed.

Lemma Zdigits2_pos : forall p, Zdigits2 (Z.pos p) = digs p.
Proof. reflexivity. Qed.

Lemma shr_1_even : forall m, 0 < m -> shr_1 (Build_shr_record (2 * m) false false) = Build_shr_record m false false.
Proof. intros [|p|p] Hm; try lia. reflexivity. Qed.

Lemma iter_shr : forall k m, 0 < m ->
  Pos.iter shr_1 (Build_shr_record (m * 2 ^ Z.pos k) false false) k = Build_shr_record m false false.
Proof.
  induction k as [|k IH] using Pos.peano_ind; intros m Hm.
  - replace (m * 2 ^ 1) with (2 * m) by lia. cbn [Pos.iter]. apply shr_1_even. exact Hm.
  - rewrite Pos.iter_succ_r. replace (m * 2 ^ Z.pos (Pos.succ k)) with (2 * (m * 2 ^ Z.pos k)).
    + rewrite shr_1_even by (apply Z.mul_pos_pos; [lia|apply Z.pow_pos_nonneg; lia]). apply IH. exact Hm.
    + rewrite Pos2Z.inj_succ, Z.pow_succ_r by lia. lia.
Qed.

Lemma iter_pos_iter : forall A (f : A -> A) p x, iter_pos f p x = Pos.iter f x p.
Proof.
  intros A f. induction p as [p IH|p IH|]; intros x; cbn [iter_pos Pos.iter].
  - rewrite !IH. rewrite <- Pos.iter_swap. f_equal. rewrite <- Pos.iter_swap. reflexivity.
  - rewrite !IH. reflexivity.
  - reflexivity.
Qed.

(** An exactly representable result is not rounded. *)
Lemma exact_round : forall s mx ex m e,
  fexp f32_prec f32_emax (digs m + e) = e -> e <= 104 -> ex <= e -> Z.pos mx = Z.pos m * 2 ^ (e - ex) ->
  binary_round_aux f32_prec f32_emax s (Z.pos mx) ex loc_Exact = S754_finite s m e.
Proof.
  intros s mx ex m e Hc He Hx Em.
  assert (Hd : digs mx = digs m + (e - ex)) by (apply digs_mul_pow; [lia|exact Em]).
  unfold binary_round_aux, shr_fexp. rewrite Zdigits2_pos, Hd.
  replace (digs m + (e - ex) + ex) with (digs m + e) by lia. rewrite Hc.
  assert (Es : shr (shr_record_of_loc (Z.pos mx) loc_Exact) ex (e - ex) = (Build_shr_record (Z.pos m) false false, e)).
  { unfold shr. cbn [shr_record_of_loc]. destruct (e - ex) as [|k|k] eqn:Ek; [| |lia].
    - rewrite Em. replace (2 ^ 0) with 1 by reflexivity. rewrite Z.mul_1_r. f_equal. lia.
    - rewrite Em, iter_pos_iter, iter_shr by lia. f_equal. lia. }
  rewrite Es. cbn [shr_m loc_of_shr_record shr_r shr_s round_nearest_even].
  rewrite Zdigits2_pos, Hc, Z.sub_diag. cbn [shr shr_record_of_loc shr_m].
  replace (e <=? f32_emax - f32_prec) with true by (symmetry; apply Z.leb_le; unfold f32_emax, f32_prec; lia).
  reflexivity.
Qed.

Lemma fexp_eq : forall z, fexp f32_prec f32_emax z = Z.max (z - 24) (-149).
Proof. reflexivity. Qed.

(** Integers of at most 24 bits are represented exactly. *)
Lemma f32_of_pos : forall s p, Z.pos p < 2 ^ 24 ->
  exists m, binary_round f32_prec f32_emax s p 0 = S754_finite s m (digs p - 24) /\ Z.pos m = Z.pos p * 2 ^ (24 - digs p) /\ digs m = 24.
Proof.
  intros s p Hp. unfold binary_round.
  assert (Hd : digs p <= 24).
  { destruct (Z_le_gt_dec (digs p) 24) as [H|H]; [exact H|]. pose proof (digs_bounds p) as [B _].
    assert (2 ^ 24 <= 2 ^ (digs p - 1)) by (apply Z.pow_le_mono_r; lia). lia. }
  pose proof (digs_pos p) as Hd1.
  change (Z.pos (digits2_pos p)) with (digs p). rewrite fexp_eq.
  replace (Z.max (digs p + 0 - 24) (-149)) with (digs p - 24) by lia.
  unfold shl_align. rewrite Z.sub_0_r.
  destruct (digs p - 24) as [|d|d] eqn:E; [|lia|].
  - exists p. split; [|split; [|lia]].
    + apply exact_round; [rewrite fexp_eq; lia|lia|lia|]. cbn. lia.
    + replace (24 - digs p) with 0 by lia. lia.
  - set (mz := shift_pos d p).
    assert (Emz : Z.pos mz = Z.pos p * 2 ^ (24 - digs p)).
    { unfold mz. rewrite shift_pos_correct. rewrite <- Z.pow_pos_fold in *. replace (24 - digs p) with (Z.pos d) by lia. rewrite Z.pow_pos_fold. lia. }
    assert (Edm : digs mz = 24) by (rewrite (digs_mul_pow p mz (24 - digs p)); [lia|lia|exact Emz]).
    exists mz. split; [|split; assumption].
    apply exact_round; [rewrite fexp_eq; lia|lia|lia|]. rewrite Z.sub_diag. lia.
Qed.

Definition canonical (x : f32) : Prop := f32_valid x = true.
Lemma valid_finite : forall s m e, f32_valid (S754_finite s m e) = true <-> fexp f32_prec f32_emax (digs m + e) = e /\ e <= 104.
Proof.
  intros s m e. unfold f32_valid, valid_binary, bounded, canonical_mantissa. rewrite andb_true_iff, Z.leb_le.
  change (Z.pos (digits2_pos m)) with (digs m). unfold f32_emax, f32_prec in *. change (128 - 24) with 104.
  split; intros [A B]; split; auto.
  - apply Zeq_bool_eq. exact A.
  - apply Zeq_is_eq_bool. exact A.
Qed.

Lemma f32_mul_one : forall x, f32_valid x = true -> f32_mul x f32_one = x.
Proof.
  intros [s|s| |s m e] Hv; try (destruct s; reflexivity); [reflexivity|].
  apply valid_finite in Hv as [Hc He].
  change f32_one with (S754_finite false 8388608 (-23)). unfold f32_mul. cbn [SFmul].
  rewrite xorb_false_r. apply exact_round; [exact Hc|exact He|lia|].
  replace (e - (e + -23)) with 23 by lia. rewrite Pos2Z.inj_mul. reflexivity.
Qed.

(** Finite and at most half of the largest float: doubling does not overflow. *)
Definition f32_doublable (x : f32) : bool :=
  match x with S754_finite _ m e => (e <? 104) | _ => true end.

Lemma f32_double_half : forall x, f32_valid x = true -> f32_doublable x = true ->
  f32_mul (f32_mul x f32_two) f32_half = x /\ f32_valid (f32_mul x f32_two) = true.
Proof.
  intros [s|s| |s m e] Hv Hd; try (destruct s; split; reflexivity); [split; reflexivity|].
  apply valid_finite in Hv as [Hc He]. cbn [f32_doublable] in Hd. apply Z.ltb_lt in Hd.
  change f32_two with (S754_finite false 8388608 (-22)). change f32_half with (S754_finite false 8388608 (-24)).
  unfold f32_mul at 2 3. cbn [SFmul]. rewrite xorb_false_r.
  rewrite fexp_eq in Hc. pose proof (digs_pos m) as Hdp.
  destruct (Z.eq_dec (digs m) 24) as [E24|N24].
  - (* normal *)
    assert (E1 : binary_round_aux f32_prec f32_emax s (Z.pos (m * 8388608)) (e + -22) loc_Exact = S754_finite s m (e + 1)).
    { apply exact_round; [rewrite fexp_eq; lia|lia|lia|]. replace (e + 1 - (e + -22)) with 23 by lia.
      rewrite Pos2Z.inj_mul. reflexivity. }
    rewrite E1. split.
    + unfold f32_mul. cbn [SFmul]. rewrite xorb_false_r.
      apply exact_round; [rewrite fexp_eq; lia|lia|lia|]. replace (e - (e + 1 + -24)) with 23 by lia.
      rewrite Pos2Z.inj_mul. reflexivity.
    + apply valid_finite. rewrite fexp_eq. lia.
  - (* subnormal *)
    assert (Hsub : digs m < 24 /\ e = -149) by lia. destruct Hsub as [Hs ->].
    assert (Hd2 : digs m~0 = digs m + 1) by (apply digs_mul_pow; lia).
    assert (E1 : binary_round_aux f32_prec f32_emax s (Z.pos (m * 8388608)) (-149 + -22) loc_Exact = S754_finite s m~0 (-149)).
    { apply exact_round; [rewrite fexp_eq; lia|lia|lia|]. replace (-149 - (-149 + -22)) with 22 by lia.
      rewrite Pos2Z.inj_mul. replace (Z.pos m~0) with (2 * Z.pos m) by lia. change (2 ^ 22) with 4194304. lia. }
    rewrite E1. split.
    + unfold f32_mul. cbn [SFmul]. rewrite xorb_false_r.
      apply exact_round; [rewrite fexp_eq; lia|lia|lia|]. replace (-149 - (-149 + -24)) with 24 by lia.
      rewrite Pos2Z.inj_mul. replace (Z.pos m~0) with (2 * Z.pos m) by lia. change (2 ^ 24) with 16777216. lia.
    + apply valid_finite. rewrite fexp_eq. lia.
Qed.

Lemma f32_of_int_valid24 : forall z, - 2 ^ 24 <= z <= 2 ^ 24 -> f32_valid (f32_of_int z) = true.
Proof.
  intros z Hz. unfold f32_of_int, binary_normalize. destruct z as [|p|p]; [reflexivity| |].
  - destruct (Z.eq_dec (Z.pos p) (2 ^ 24)) as [E|N]; [injection E as ->; reflexivity|].
    destruct (f32_of_pos false p ltac:(lia)) as (m & -> & Em & Ed). apply valid_finite. rewrite fexp_eq, Ed.
    pose proof (digs_pos p). assert (digs p <= 24); [|lia].
    destruct (Z_le_gt_dec (digs p) 24) as [H'|H']; [exact H'|]. pose proof (digs_bounds p) as [B _].
    assert (2 ^ 24 <= 2 ^ (digs p - 1)) by (apply Z.pow_le_mono_r; lia). lia.
  - destruct (Z.eq_dec (Z.pos p) (2 ^ 24)) as [E|N]; [injection E as ->; reflexivity|].
    destruct (f32_of_pos true p ltac:(lia)) as (m & -> & Em & Ed). apply valid_finite. rewrite fexp_eq, Ed.
    pose proof (digs_pos p). assert (digs p <= 24); [|lia].
    destruct (Z_le_gt_dec (digs p) 24) as [H'|H']; [exact H'|]. pose proof (digs_bounds p) as [B _].
    assert (2 ^ 24 <= 2 ^ (digs p - 1)) by (apply Z.pow_le_mono_r; lia). lia.
Qed.

Lemma f32_int_round_trip : forall z, - 2 ^ 24 <= z <= 2 ^ 24 -> f32_to_i64 (f32_of_int z) = z.
Proof.
  assert (Hpos : forall s p, Z.pos p < 2 ^ 24 -> f32_to_i64 (binary_round f32_prec f32_emax s p 0) = if s then Z.neg p else Z.pos p).
  { intros s p Hp. destruct (f32_of_pos s p Hp) as (m & -> & Em & Ed). cbn [f32_to_i64].
    assert (Hd : digs p <= 24).
    { destruct (Z_le_gt_dec (digs p) 24) as [H'|H']; [exact H'|]. pose proof (digs_bounds p) as [B _].
      assert (2 ^ 24 <= 2 ^ (digs p - 1)) by (apply Z.pow_le_mono_r; lia). lia. }
    assert (Ea : (if 0 <=? digs p - 24 then Z.pos m * 2 ^ (digs p - 24) else Z.pos m / 2 ^ - (digs p - 24)) = Z.pos p).
    { destruct (Z.leb_spec 0 (digs p - 24)).
      - replace (digs p - 24) with 0 by lia. rewrite Em. replace (24 - digs p) with 0 by lia. lia.
      - rewrite Em. replace (- (digs p - 24)) with (24 - digs p) by lia.
        rewrite Z.div_mul; [reflexivity|]. apply Z.pow_nonzero; lia. }
    rewrite Ea. change (2 ^ 24) with 16777216 in Hp. unfold two63. destruct s; lia. }
  intros z Hz. unfold f32_of_int, binary_normalize. destruct z as [|p|p]; [reflexivity| |].
  - destruct (Z.eq_dec (Z.pos p) (2 ^ 24)) as [E|N]; [injection E as ->; reflexivity|]. rewrite Hpos by lia. reflexivity.
  - destruct (Z.eq_dec (Z.pos p) (2 ^ 24)) as [E|N]; [injection E as ->; reflexivity|]. rewrite Hpos by lia. reflexivity.
Qed.
