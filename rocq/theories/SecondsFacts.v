(** * Facts about the conversion of game loops to seconds *)
From Coq Require Import SpecFloat.
From Verif Require Import Base F32 F32Facts F32Round Rows.
#[local] Open Scope Z_scope.

Lemma fval_pos_shape : forall x, f32_valid x = true -> 0 < fval x -> fval x < 2 ^ 277 -> exists m e, x = S754_finite false m e.
Proof.
  intros [s|s| |s m e] V P L; cbn [fval] in *; try lia.
  - destruct s; lia.
  - destruct s; [|eauto]. exfalso. assert (0 <= Z.pos m * 2 ^ (e + 149)) by (apply Z.mul_nonneg_nonneg; [lia|apply Z.pow_nonneg; lia]). lia.
Qed.
Lemma fval_ge1 : forall m e, f32_valid (S754_finite false m e) = true -> 2 ^ 149 <= fval (S754_finite false m e) -> 1 <= digs m + e.
Proof.
  intros m e V L. apply valid_bounds in V as (B & D & _). cbn [fval] in L. rewrite Z.mul_1_l in L.
  pose proof (digs_bounds m) as [_ U].
  assert (2 ^ 149 < 2 ^ (digs m + (e + 149))).
  { rewrite pow_split by lia. apply Z.le_lt_trans with (1 := L). apply Z.mul_lt_mono_pos_r; [apply Z.pow_pos_nonneg; lia|exact U]. }
  apply Z.pow_lt_mono_r_iff in H; lia.
Qed.
Lemma to_u32_fval : forall m e, f32_valid (S754_finite false m e) = true ->
  f32_to_u32 (S754_finite false m e) = Z.min (two32 - 1) (fval (S754_finite false m e) / 2 ^ 149).
Proof.
  intros m e V. apply valid_bounds in V as (B & _ & _). unfold f32_to_u32. f_equal. cbn [fval]. rewrite Z.mul_1_l.
  destruct (Z.leb_spec 0 e) as [H|H].
  - rewrite pow_split, Z.mul_assoc, Z.div_mul by lia. reflexivity.
  - replace (2 ^ 149) with (2 ^ (- e) * 2 ^ (e + 149)) by (rewrite <- pow_split by lia; f_equal; lia).
    rewrite Z.div_mul_cancel_r; [reflexivity| |]; apply Z.pow_nonzero; lia.
Qed.

Definition sec1 (l : Z) : f32 := f32_of_int l.
Definition sec2 (l : Z) : f32 := f32_mul (sec1 l) f32_loop_ms.
Definition sec3 (l : Z) : f32 := f32_div (sec2 l) f32_1000.
Lemma game_seconds_steps : forall l, game_seconds l = f32_to_u32 (sec3 l).
Proof. reflexivity. Qed.
Definition ms_val : Z := 8989430 * 2 ^ 132.
Definition k1000_val : Z := 1000 * 2 ^ 149.

Lemma steps_round : forall l, 0 < l < two63 ->
  is_round (l * 2 ^ 149) 1 (sec1 l) /\ is_round (fval (sec1 l) * ms_val) (2 ^ 149) (sec2 l) /\
  is_round (fval (sec2 l) * 2 ^ 149) k1000_val (sec3 l) /\
  f32_valid (sec3 l) = true /\
  (2 ^ 24 * (fval (sec1 l) - l * 2 ^ 149) <= l * 2 ^ 149 /\ 2 ^ 24 * (l * 2 ^ 149 - fval (sec1 l)) <= l * 2 ^ 149) /\
  (2 ^ 24 * (2 ^ 149 * fval (sec2 l) - fval (sec1 l) * ms_val) <= fval (sec1 l) * ms_val /\
   2 ^ 24 * (fval (sec1 l) * ms_val - 2 ^ 149 * fval (sec2 l)) <= fval (sec1 l) * ms_val) /\
  (2 ^ 24 * (k1000_val * fval (sec3 l) - fval (sec2 l) * 2 ^ 149) <= fval (sec2 l) * 2 ^ 149 /\
   2 ^ 24 * (fval (sec2 l) * 2 ^ 149 - k1000_val * fval (sec3 l)) <= fval (sec2 l) * 2 ^ 149).
Proof.
  intros l Hl. unfold two63 in Hl.
  destruct (f32_of_int_round l) as [R1 V1]; [lia|]. fold (sec1 l) in R1, V1.
  destruct (is_round_error _ 1 _ ltac:(lia) R1) as [A1 A2]; [lia|lia|]. rewrite Z.mul_1_l in A1, A2.
  destruct (fval_pos_shape (sec1 l) V1) as (m1 & e1 & E1); [lia|lia|].
  destruct (f32_mul_round m1 e1 8989430 (-17)) as [R2 V2]; [rewrite <- E1; exact V1|reflexivity|].
  rewrite <- E1 in R2, V2. change (S754_finite false 8989430 (-17)) with f32_loop_ms in R2, V2. fold (sec2 l) in R2, V2.
  change (fval f32_loop_ms) with ms_val in R2.
  destruct (is_round_error _ (2 ^ 149) _ ltac:(lia) R2) as [B1 B2]; [unfold ms_val; lia|unfold ms_val; lia|].
  destruct (fval_pos_shape (sec2 l) V2) as (m2 & e2 & E2); [unfold ms_val in *; lia|unfold ms_val in *; lia|].
  assert (G2 : 2 ^ 149 <= fval (sec2 l)) by (unfold ms_val in *; lia).
  destruct (f32_div_round m2 e2 16384000 (-14)) as [R3 V3].
  { pose proof (fval_ge1 m2 e2) as X. rewrite <- E2 in X. specialize (X V2 G2). change (digs 16384000) with 24. lia. }
  { rewrite <- E2; exact V2. }
  { reflexivity. }
  rewrite <- E2 in R3, V3. change (S754_finite false 16384000 (-14)) with f32_1000 in R3, V3. fold (sec3 l) in R3, V3.
  change (fval f32_1000) with k1000_val in R3.
  destruct (is_round_error _ k1000_val _ ltac:(unfold k1000_val; lia) R3) as [C1 C2]; [unfold k1000_val, ms_val in *; lia|unfold k1000_val, ms_val in *; lia|].
  auto 12.
Qed.

Lemma seconds_value : forall l, 0 < l < two63 -> game_seconds l = Z.min (two32 - 1) (fval (sec3 l) / 2 ^ 149) /\ 0 < fval (sec3 l).
Proof.
  intros l Hl. destruct (steps_round l Hl) as (_ & _ & _ & V3 & [A1 A2] & [B1 B2] & [C1 C2]).
  unfold two63, ms_val, k1000_val in *.
  destruct (fval_pos_shape (sec3 l) V3) as (m & e & E); [lia|lia|].
  rewrite game_seconds_steps, E, to_u32_fval by (rewrite <- E; exact V3). split; [reflexivity|]. rewrite <- E. lia.
Qed.

Lemma seconds_nonpos : forall l, in_i64 l = true -> l <= 0 -> game_seconds l = 0.
Proof.
  intros [|p|p] _ Hl; [reflexivity|lia|].
  assert (N : forall x, (exists s, x = S754_zero s) \/ x = S754_nan \/ (exists m e, x = S754_finite true m e) \/ x = S754_infinity true -> f32_to_u32 x = 0).
  { intros x [(s & ->)|[->|[(m & e & ->)| ->]]]; reflexivity. }
  unfold game_seconds. apply N.
  assert (R : forall mx ex lx, let x := binary_round_aux f32_prec f32_emax true mx ex lx in
    (exists s, x = S754_zero s) \/ x = S754_nan \/ (exists m e, x = S754_finite true m e) \/ x = S754_infinity true).
  { intros mx ex lx x. unfold x, binary_round_aux. destruct (shr_fexp _ _ mx ex lx) as [mrs e]. destruct (shr_fexp _ _ _ e _) as [mrs' e'].
    destruct (shr_m mrs'); [eauto| |eauto]. destruct (_ <=? _); eauto 6. }
  assert (X1 : let x := f32_of_int (Z.neg p) in
    (exists s, x = S754_zero s) \/ x = S754_nan \/ (exists m e, x = S754_finite true m e) \/ x = S754_infinity true).
  { unfold f32_of_int, binary_normalize, binary_round. destruct (shl_align _ _ _) as [mz ez]. apply R. }
  assert (X2 : let x := f32_mul (f32_of_int (Z.neg p)) f32_loop_ms in
    (exists s, x = S754_zero s) \/ x = S754_nan \/ (exists m e, x = S754_finite true m e) \/ x = S754_infinity true).
  { cbv zeta. destruct X1 as [(s & ->)|[->|[(m & e & ->)| ->]]]; unfold f32_mul, f32_loop_ms; cbn [SFmul xorb]; eauto 6; apply R. }
  destruct X2 as [(s & ->)|[->|[(m & e & ->)| ->]]]; change f32_1000 with (S754_finite false 16384000 (-14)); unfold f32_div; cbn [SFdiv xorb]; eauto 6.
  destruct (SFdiv_core_binary _ _ _ _ _ _) as [[mz ez] lz]. apply R.
Qed.

Lemma seconds_nonneg : forall l, in_i64 l = true -> 0 <= game_seconds l <= two32 - 1.
Proof.
  intros l Hi. destruct (Z_le_gt_dec l 0) as [N|P]; [rewrite seconds_nonpos by assumption; unfold two32; lia|].
  destruct (seconds_value l) as [-> F]; [unfold in_i64 in Hi; lia|].
  assert (0 <= fval (sec3 l) / 2 ^ 149) by (apply Z.div_pos; lia). unfold two32. lia.
Qed.

Lemma seconds_mono : forall l1 l2, in_i64 l1 = true -> in_i64 l2 = true -> l1 <= l2 -> game_seconds l1 <= game_seconds l2.
Proof.
  intros l1 l2 H1 H2 L. destruct (Z_le_gt_dec l1 0) as [N|P].
  - rewrite (seconds_nonpos l1) by assumption. apply seconds_nonneg. exact H2.
  - assert (I1 : 0 < l1 < two63) by (unfold in_i64 in *; lia). assert (I2 : 0 < l2 < two63) by (unfold in_i64 in *; lia).
    destruct (steps_round l1 I1) as (R1 & R2 & R3 & _ & A & B & _). destruct (steps_round l2 I2) as (S1 & S2 & S3 & _ & A' & B' & _).
    assert (F1 : fval (sec1 l1) <= fval (sec1 l2)) by (eapply is_round_mono; [| | |exact R1|exact S1|]; lia).
    assert (F2 : fval (sec2 l1) <= fval (sec2 l2)).
    { eapply is_round_mono; [| | |exact R2|exact S2|]; unfold ms_val, two63 in *; lia. }
    assert (F3 : fval (sec3 l1) <= fval (sec3 l2)).
    { eapply is_round_mono; [| | |exact R3|exact S3|]; unfold k1000_val, ms_val, two63 in *; lia. }
    destruct (seconds_value l1 I1) as [-> _]. destruct (seconds_value l2 I2) as [-> _].
    apply Z.min_le_compat_l. apply Z.div_le_mono; lia.
Qed.

Lemma seconds_close : forall l, 0 <= l <= 2 ^ 35 ->
  game_seconds l * 2 ^ 22 * 100000000 <= (2 ^ 22 + 1) * (l * 6858391) /\
  (2 ^ 22 - 1) * (l * 6858391) < (game_seconds l + 1) * 2 ^ 22 * 100000000.
Proof.
  intros l Hl. destruct (Z.eq_dec l 0) as [->|N]; [rewrite seconds_nonpos by (unfold in_i64; lia || reflexivity); lia|].
  assert (I : 0 < l < two63) by (unfold two63; lia).
  destruct (steps_round l I) as (_ & _ & _ & _ & [A1 A2] & [B1 B2] & [C1 C2]). destruct (seconds_value l I) as [-> F].
  unfold ms_val, k1000_val in *.
  pose proof (Z.div_mod (fval (sec3 l)) (2 ^ 149) ltac:(lia)) as DM. pose proof (Z.mod_pos_bound (fval (sec3 l)) (2 ^ 149) ltac:(lia)) as MB.
  set (q := fval (sec3 l) / 2 ^ 149) in *. set (r := fval (sec3 l) mod 2 ^ 149) in *.
  set (f1 := fval (sec1 l)) in *. set (f2 := fval (sec2 l)) in *. set (f3 := fval (sec3 l)) in *. clearbody q r f1 f2 f3.
  rewrite Z.min_r; [|unfold two32; lia]. split; lia.
Qed.

Lemma seconds_within_one : forall l, 0 <= l <= 2 ^ 25 -> Z.abs (game_seconds l - l * 6858391 / 100000000) <= 1.
Proof.
  intros l Hl. destruct (seconds_close l) as [A B]; [lia|].
  pose proof (Z.div_mod (l * 6858391) 100000000 ltac:(lia)). pose proof (Z.mod_pos_bound (l * 6858391) 100000000 ltac:(lia)).
  set (q := l * 6858391 / 100000000) in *. set (r := (l * 6858391) mod 100000000) in *. clearbody q r. lia.
Qed.

(** The float of a loop number, read back as an integer, is the same float. *)
Lemma to_i64_fval : forall m e, f32_valid (S754_finite false m e) = true ->
  f32_to_i64 (S754_finite false m e) = Z.max (- two63) (Z.min (two63 - 1) (fval (S754_finite false m e) / 2 ^ 149)).
Proof.
  intros m e V. apply valid_bounds in V as (B & _ & _). unfold f32_to_i64. do 2 f_equal. cbn [fval]. rewrite Z.mul_1_l.
  destruct (Z.leb_spec 0 e) as [H|H].
  - rewrite pow_split, Z.mul_assoc, Z.div_mul by lia. reflexivity.
  - replace (2 ^ 149) with (2 ^ (- e) * 2 ^ (e + 149)) by (rewrite <- pow_split by lia; f_equal; lia).
    rewrite Z.div_mul_cancel_r; [reflexivity| |]; apply Z.pow_nonzero; lia.
Qed.
Lemma fval_inj : forall m1 e1 m2 e2, f32_valid (S754_finite false m1 e1) = true -> f32_valid (S754_finite false m2 e2) = true ->
  fval (S754_finite false m1 e1) = fval (S754_finite false m2 e2) -> S754_finite false m1 e1 = S754_finite false m2 e2.
Proof.
  intros m1 e1 m2 e2 V1 V2 E. pose proof (valid_bounds _ _ _ V1) as (B1 & D1 & _). pose proof (valid_bounds _ _ _ V2) as (B2 & D2 & _).
  apply valid_finite in V1 as [C1 _]. apply valid_finite in V2 as [C2 _]. cbn [fval] in E. rewrite !Z.mul_1_l in E.
  assert (D : digs m1 + e1 = digs m2 + e2).
  { assert (X : forall m e m' e', -149 <= e -> -149 <= e' -> Z.pos m * 2 ^ (e + 149) = Z.pos m' * 2 ^ (e' + 149) -> digs m + e <= digs m' + e').
    { intros m e m' e' G G' X. pose proof (digs_bounds m) as [L _]. pose proof (digs_bounds m') as [_ U]. pose proof (digs_pos m). pose proof (digs_pos m').
      assert (Y : 2 ^ (digs m - 1 + (e + 149)) < 2 ^ (digs m' + (e' + 149))).
      { rewrite (pow_split (digs m - 1)), (pow_split (digs m')) by lia. apply Z.le_lt_trans with (Z.pos m * 2 ^ (e + 149)); [apply Z.mul_le_mono_nonneg_r; [apply Z.pow_nonneg; lia|lia]|].
        rewrite X. apply Z.mul_lt_mono_pos_r; [apply Z.pow_pos_nonneg; lia|lia]. }
      apply Z.pow_lt_mono_r_iff in Y; lia. }
    apply Z.le_antisymm; apply X; lia. }
  rewrite D in C1. rewrite C1 in C2. subst e2. apply Z.mul_reg_r in E; [congruence|apply Z.pow_nonzero; lia].
Qed.
Lemma f32_one_mul : forall x, f32_valid x = true -> f32_mul f32_one x = x.
Proof.
  intros x V. rewrite <- (f32_mul_one x V) at 2. unfold f32_mul. change f32_one with (S754_finite false 8388608 (-23)).
  destruct x as [s|s| |s m e]; try (destruct s; reflexivity); [reflexivity|]. cbn [SFmul]. replace (xorb false s) with (xorb s false) by (destruct s; reflexivity).
  replace (8388608 * m)%positive with (m * 8388608)%positive by apply Pos.mul_comm. rewrite (Z.add_comm (-23)). reflexivity.
Qed.
Lemma f32_of_int_mono : forall a b, 0 < a -> a <= b -> fval (f32_of_int a) <= fval (f32_of_int b).
Proof.
  intros a b Ha L. destruct (f32_of_int_round a) as [R1 _]; [lia|]. destruct (f32_of_int_round b) as [R2 _]; [lia|].
  eapply is_round_mono; [| | |exact R1|exact R2|]; lia.
Qed.
Lemma f32_reread : forall l, 0 < l < two63 -> f32_of_int (f32_to_i64 (f32_of_int l)) = f32_of_int l.
Proof.
  intros l Hl. destruct (Z_le_gt_dec l (2 ^ 24)) as [S|G]; [rewrite f32_int_round_trip by lia; reflexivity|].
  destruct (f32_of_int_round l) as [_ V]; [lia|].
  assert (Lo : 2 ^ 24 * 2 ^ 149 <= fval (f32_of_int l)).
  { change (2 ^ 24 * 2 ^ 149) with (fval (f32_of_int (2 ^ 24))). apply f32_of_int_mono; lia. }
  assert (Hi : fval (f32_of_int l) <= 2 ^ 63 * 2 ^ 149).
  { change (2 ^ 63 * 2 ^ 149) with (fval (f32_of_int (2 ^ 63))). apply f32_of_int_mono; unfold two63 in *; lia. }
  destruct (fval_pos_shape _ V) as (m & e & E); [lia|lia|]. rewrite E in V, Lo, Hi |- *.
  rewrite to_i64_fval by exact V. pose proof (valid_bounds _ _ _ V) as (B & D & N).
  pose proof (digs_bounds m) as [_ U]. assert (Um : Z.pos m < 2 ^ 24) by (eapply Z.lt_le_trans; [exact U|apply Z.pow_le_mono_r; lia]).
  cbn [fval] in *. rewrite Z.mul_1_l in *.
  assert (He : 0 <= e).
  { destruct (Z_le_gt_dec 0 e) as [|G']; [assumption|exfalso].
    assert (2 ^ (e + 149) <= 2 ^ 149) by (apply Z.pow_le_mono_r; lia). assert (0 < 2 ^ (e + 149)) by (apply Z.pow_pos_nonneg; lia). nia. }
  rewrite pow_split in Lo, Hi |- * by lia. rewrite Z.mul_assoc in Lo, Hi |- *. rewrite Z.div_mul by lia.
  assert (P : 0 < 2 ^ e) by (apply Z.pow_pos_nonneg; lia).
  destruct (Z.eq_dec (Z.pos m * 2 ^ e) (2 ^ 63)) as [E63|N63].
  - rewrite E63. change (f32_of_int (Z.max (- two63) (Z.min (two63 - 1) (2 ^ 63)))) with (S754_finite false 8388608 40).
    apply fval_inj; [reflexivity|exact V|]. cbn [fval]. rewrite !Z.mul_1_l, pow_split, Z.mul_assoc by lia. rewrite (pow_split e) by lia. rewrite (Z.mul_assoc (Z.pos m)), E63. reflexivity.
  - assert (I : 0 < Z.pos m * 2 ^ e < 2 ^ 63) by (split; [apply Z.mul_pos_pos; lia|lia]).
    rewrite Z.max_r, Z.min_r by (unfold two63; lia).
    destruct (f32_of_int_round (Z.pos m * 2 ^ e)) as [R V']; [lia|].
    pose proof (is_round_exact _ 1 _ (Z.pos m) (e + 149) ltac:(lia) R ltac:(lia)) as X. rewrite Z.mul_1_r, !Z.mul_1_l in X.
    specialize (X ltac:(rewrite pow_split by lia; ring) ltac:(lia) ltac:(lia)).
    destruct (fval_pos_shape _ V') as (m' & e' & E'); [lia|lia|]. rewrite E' in *. apply fval_inj; [exact V'|exact V|]. rewrite X. cbn [fval].
    rewrite Z.mul_1_l, pow_split by lia. ring.
Qed.
Lemma f32_of_neg_valid : forall p, exists r, f32_of_int (Z.neg p) = f32_neg r /\ f32_of_int (Z.pos p) = r.
Proof.
  intros p. exists (f32_of_int (Z.pos p)). split; [|reflexivity]. unfold f32_of_int, binary_normalize, binary_round.
  destruct (shl_align _ _ _) as [mz ez]. unfold binary_round_aux. destruct (shr_fexp _ _ _ ez _) as [mrs e]. destruct (shr_fexp _ _ _ e _) as [mrs' e'].
  destruct (shr_m mrs'); [reflexivity| |reflexivity]. destruct (_ <=? _); reflexivity.
Qed.
Lemma neg_to_i64 : forall r, 0 < fval r -> f32_to_i64 (f32_neg r) <= 0 /\ in_i64 (f32_to_i64 (f32_neg r)) = true.
Proof.
  intros r Pr. destruct r as [s|s| |s m e]; cbn [fval f32_neg SFopp f32_to_i64] in *; try lia.
  - destruct s; [lia|]. cbn [negb]. unfold two63. split; [lia|reflexivity].
  - destruct s.
    { exfalso. assert (0 <= Z.pos m * 2 ^ (e + 149)) by (apply Z.mul_nonneg_nonneg; [lia|apply Z.pow_nonneg; lia]). lia. }
    cbn [negb]. assert (A : 0 <= (if 0 <=? e then Z.pos m * 2 ^ e else Z.pos m / 2 ^ (- e))).
    { destruct (Z.leb_spec 0 e); [apply Z.mul_nonneg_nonneg; [lia|apply Z.pow_nonneg; lia]|apply Z.div_pos; [lia|apply Z.pow_pos_nonneg; lia]]. }
    set (a := if 0 <=? e then Z.pos m * 2 ^ e else Z.pos m / 2 ^ (- e)) in *. clearbody a. unfold in_i64, two63. lia.
Qed.
Lemma of_int_pos : forall p, 0 < fval (f32_of_int (Z.pos p)).
Proof. intros p. apply Z.lt_le_trans with (fval (f32_of_int 1)); [reflexivity|]. apply f32_of_int_mono; lia. Qed.
Lemma tracker_game_seconds : forall l, in_i64 l = true -> tracker_seconds l = game_seconds l.
Proof.
  intros l Hi. unfold tracker_seconds. destruct (Z.compare_spec l 0) as [->|N|P].
  - reflexivity.
  - destruct l as [|p|p]; try lia.
    destruct (f32_of_neg_valid p) as (r & E & Er). destruct (f32_of_int_round (Z.pos p)) as [_ V]; [lia|]. rewrite Er in V.
    assert (V' : f32_valid (f32_neg r) = true) by (destruct r; exact V).
    rewrite E, f32_one_mul by exact V'. rewrite (seconds_nonpos (Z.neg p)) by (assumption || lia).
    pose proof (of_int_pos p) as Q. rewrite Er in Q. destruct (neg_to_i64 r Q) as [X Y]. apply seconds_nonpos; assumption.
  - destruct (f32_of_int_round l) as [_ V]; [lia|]. rewrite f32_one_mul by exact V.
    assert (R : f32_of_int (f32_to_i64 (f32_of_int l)) = f32_of_int l) by (apply f32_reread; unfold in_i64 in Hi; lia).
    rewrite !game_seconds_steps. unfold sec3, sec2, sec1. rewrite R. reflexivity.
Qed.

(** ** Where the conversion is exact *)
Definition fine (L r : Z) : bool := ((L <? 2 ^ 22 * (100000000 - r)) && (L <=? 2 ^ 22 * r))%bool.
Lemma fine_exact : forall l, 0 <= l <= 2 ^ 35 -> fine (l * 6858391) ((l * 6858391) mod 100000000) = true ->
  game_seconds l = l * 6858391 / 100000000.
Proof.
  intros l Hl F. unfold fine in F. destruct (seconds_close l Hl) as [A B].
  pose proof (Z.div_mod (l * 6858391) 100000000 ltac:(lia)). pose proof (Z.mod_pos_bound (l * 6858391) 100000000 ltac:(lia)).
  set (q := l * 6858391 / 100000000) in *. set (r := (l * 6858391) mod 100000000) in *. clearbody q r.
  apply andb_true_iff in F as [F1 F2]. lia.
Qed.
Fixpoint scan_exact (n : nat) (l q r : Z) : bool :=
  match n with
  | O => true
  | S n' =>
      ((fine (q * 100000000 + r) r || (game_seconds l =? q)) &&
       (let r' := r + 6858391 in if r' <? 100000000 then scan_exact n' (l + 1) q r' else scan_exact n' (l + 1) (q + 1) (r' - 100000000)))%bool
  end.
Lemma scan_exact_ok : forall n l q r, 0 <= l -> l + Z.of_nat n <= 2 ^ 35 -> l * 6858391 = q * 100000000 + r -> 0 <= r < 100000000 ->
  scan_exact n l q r = true -> forall x, l <= x < l + Z.of_nat n -> game_seconds x = x * 6858391 / 100000000.
Proof.
  induction n as [|n IH]; intros l q r Hl Hn E Hr Hs x Hx; [lia|]. cbn [scan_exact] in Hs. apply andb_true_iff in Hs as [H1 H2].
  destruct (Z.eq_dec x l) as [->|N].
  - assert (Eq : l * 6858391 / 100000000 = q) by (symmetry; apply Z.div_unique with r; lia).
    assert (Er : (l * 6858391) mod 100000000 = r) by (symmetry; apply Z.mod_unique with q; lia).
    apply orb_true_iff in H1 as [F|G].
    + apply fine_exact; [lia|]. rewrite Er, E. exact F.
    + rewrite Eq. apply Z.eqb_eq. exact G.
  - cbv zeta in H2. destruct (Z.ltb_spec (r + 6858391) 100000000) as [C|C].
    + apply (IH (l + 1) q (r + 6858391)); [lia|lia|lia|lia|exact H2|lia].
    + apply (IH (l + 1) (q + 1) (r + 6858391 - 100000000)); [lia|lia|lia|lia|exact H2|lia].
Qed.
Lemma scan_69127 : scan_exact (Z.to_nat 69127) 0 0 0 = true.
Proof. vm_compute. reflexivity. Qed.
Lemma seconds_exact : forall l, 0 <= l < 69127 -> game_seconds l = l * 6858391 / 100000000.
Proof.
  intros l Hl. apply (scan_exact_ok (Z.to_nat 69127) 0 0 0); [lia|rewrite Z2Nat.id; lia|lia|lia|exact scan_69127|rewrite Z2Nat.id; lia].
Qed.
Lemma seconds_not_exact : game_seconds 69127 = 69127 * 6858391 / 100000000 - 1 \/ game_seconds 69127 = 69127 * 6858391 / 100000000 + 1.
Proof. vm_compute. auto. Qed.
