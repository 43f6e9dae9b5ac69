(** * Facts about map coordinates *)
From Coq Require Import SpecFloat.
From Verif Require Import Base F32 F32Facts Coords F32Round Types BitSpec BitPacked BitProofs BitInterp BitTypes BitFacts Typed Events Convert ConvertSpec ConvertFacts State SecondsFacts.
#[local] Open Scope Z_scope.

(** ** Signs *)
Lemma round_aux_opp : forall s mx ex lx, binary_round_aux f32_prec f32_emax (negb s) mx ex lx = SFopp (binary_round_aux f32_prec f32_emax s mx ex lx).
Proof.
  intros s mx ex lx. unfold binary_round_aux. destruct (shr_fexp _ _ mx ex lx) as [mrs e]. destruct (shr_fexp _ _ _ e _) as [mrs' e'].
  destruct (shr_m mrs'); [reflexivity| |reflexivity]. destruct (_ <=? _); reflexivity.
Qed.
Lemma binary_round_opp : forall p e, binary_round f32_prec f32_emax true p e = SFopp (binary_round f32_prec f32_emax false p e).
Proof. intros p e. unfold binary_round. destruct (shl_align _ _ _) as [mz ez]. apply (round_aux_opp false). Qed.
Lemma fval_opp : forall x, fval (SFopp x) = - fval x.
Proof. intros [s|s| |s m e]; cbn [SFopp fval]; try lia; destruct s; cbn [negb]; lia. Qed.
Lemma of_int_opp : forall p, f32_of_int (Z.neg p) = SFopp (f32_of_int (Z.pos p)).
Proof. intros p. apply binary_round_opp. Qed.
Lemma div_opp : forall x y, (exists m e, x = S754_finite false m e) -> (exists m e, y = S754_finite false m e) -> f32_div (SFopp x) y = SFopp (f32_div x y).
Proof.
  intros x y (m & e & ->) (m' & e' & ->). unfold f32_div. cbn [SFopp SFdiv negb]. change (xorb true false) with (negb (xorb false false)).
  destruct (SFdiv_core_binary _ _ _ _ _ _) as [[mz ez] lz]. apply (round_aux_opp (xorb false false)).
Qed.

(** ** Integers as floats *)
Lemma of_int_exact : forall x, 0 < x <= 2 ^ 24 -> exists m e, f32_of_int x = S754_finite false m e /\ f32_valid (S754_finite false m e) = true /\ fval (S754_finite false m e) = x * 2 ^ 149.
Proof.
  intros x Hx. destruct (f32_of_int_round x) as [R V]; [lia|].
  assert (F : fval (f32_of_int x) = x * 2 ^ 149).
  { destruct (Z.eq_dec x (2 ^ 24)) as [->|N]; [reflexivity|].
    pose proof (is_round_exact _ 1 _ x 149 ltac:(lia) R ltac:(lia)) as X. rewrite !Z.mul_1_l in X. apply X; lia. }
  destruct (fval_pos_shape _ V) as (m & e & E); [lia|lia|]. rewrite E in *. eauto.
Qed.
Lemma trunc_fval : forall m e, f32_valid (S754_finite false m e) = true ->
  (if 0 <=? e then Z.pos m * 2 ^ e else Z.pos m / 2 ^ - e) = fval (S754_finite false m e) / 2 ^ 149 /\ 0 <= fval (S754_finite false m e) / 2 ^ 149.
Proof.
  intros m e V. apply valid_bounds in V as (B & _ & _). cbn [fval]. rewrite Z.mul_1_l. split.
  - destruct (Z.leb_spec 0 e) as [H|H].
    + rewrite pow_split, Z.mul_assoc, Z.div_mul by lia. reflexivity.
    + replace (2 ^ 149) with (2 ^ (- e) * 2 ^ (e + 149)) by (rewrite <- pow_split by lia; f_equal; lia).
      rewrite Z.div_mul_cancel_r; [reflexivity| |]; apply Z.pow_nonzero; lia.
  - apply Z.div_pos; [|lia]. apply Z.mul_nonneg_nonneg; [lia|apply Z.pow_nonneg; lia].
Qed.
Lemma to_i32_fval : forall m e, f32_valid (S754_finite false m e) = true ->
  f32_to_i32 (S754_finite false m e) = Z.min (2 ^ 31 - 1) (fval (S754_finite false m e) / 2 ^ 149).
Proof.
  intros m e V. destruct (trunc_fval m e V) as [E P]. unfold f32_to_i32. rewrite E. cbv zeta.
  set (b := fval (S754_finite false m e) / 2 ^ 149) in *. clearbody b. lia.
Qed.
Lemma to_i32_opp : forall m e, f32_valid (S754_finite false m e) = true -> fval (S754_finite false m e) < 2 ^ 31 * 2 ^ 149 ->
  f32_to_i32 (SFopp (S754_finite false m e)) = - (fval (S754_finite false m e) / 2 ^ 149).
Proof.
  intros m e V L. destruct (trunc_fval m e V) as [E P]. unfold f32_to_i32. cbn [SFopp negb]. rewrite E. cbv zeta.
  assert (fval (S754_finite false m e) / 2 ^ 149 < 2 ^ 31) by (apply Z.div_lt_upper_bound; lia).
  set (b := fval (S754_finite false m e) / 2 ^ 149) in *. clearbody b. lia.
Qed.

(** ** Sums with one half *)
Definition half_fin : f32_half = S754_finite false 8388608 (-24) := eq_refl.
Lemma half_val : fval (S754_finite false 8388608 (-24)) = 2 ^ 148.
Proof. reflexivity. Qed.
Lemma add_half_round : forall m e, f32_valid (S754_finite false m e) = true ->
  is_round (fval (S754_finite false m e) + 2 ^ 148) 1 (f32_add (S754_finite false m e) f32_half) /\
  f32_valid (f32_add (S754_finite false m e) f32_half) = true.
Proof.
  intros m e V. rewrite half_fin. pose proof (f32_add_round m e 8388608 (-24) V eq_refl) as X. rewrite half_val in X. exact X.
Qed.
(** [x + 0.5] for a whole number below 2^23 is exact. *)
Lemma add_half_int : forall x, 0 < x < 2 ^ 23 -> exists m e, f32_add (f32_of_int x) f32_half = S754_finite false m e /\
  f32_valid (S754_finite false m e) = true /\ fval (S754_finite false m e) = x * 2 ^ 149 + 2 ^ 148.
Proof.
  intros x Hx. destruct (of_int_exact x) as (m & e & E & V & F); [lia|]. destruct (add_half_round m e V) as [R V']. rewrite E in *. rewrite F in R.
  pose proof (is_round_exact _ 1 _ (2 * x + 1) 148 ltac:(lia) R ltac:(lia)) as X. rewrite !Z.mul_1_l in X.
  specialize (X ltac:(lia) ltac:(lia) ltac:(lia)).
  destruct (fval_pos_shape _ V') as (m' & e' & E'); [lia|lia|]. rewrite E' in *. eauto.
Qed.
Lemma int_half_trunc : forall x, 0 <= x < 2 ^ 23 -> f32_to_i32 (f32_add (f32_of_int x) f32_half) = x.
Proof.
  intros x Hx. destruct (Z.eq_dec x 0) as [->|N]; [reflexivity|]. destruct (add_half_int x) as (m & e & -> & V & F); [lia|].
  rewrite to_i32_fval, F by exact V. rewrite Z.min_r.
  - symmetry. apply Z.div_unique with (2 ^ 148); lia.
  - assert (E : (x * 2 ^ 149 + 2 ^ 148) / 2 ^ 149 = x) by (symmetry; apply Z.div_unique with (2 ^ 148); lia). rewrite E. lia.
Qed.

(** Subtraction: the sum of a negative and a smaller positive number. *)
Lemma shl_align_pos : forall m e e', e' <= e -> exists a, fst (shl_align m e e') = a /\ Z.pos a = Z.pos m * 2 ^ (e - e').
Proof. intros m e e' H. eexists. split; [reflexivity|]. apply shl_align_val. exact H. Qed.
Lemma neg_add_round : forall m1 e1 m2 e2,
  f32_valid (S754_finite false m1 e1) = true -> f32_valid (S754_finite false m2 e2) = true ->
  fval (S754_finite false m2 e2) < fval (S754_finite false m1 e1) ->
  exists r, f32_add (S754_finite true m1 e1) (S754_finite false m2 e2) = SFopp r /\
    is_round (fval (S754_finite false m1 e1) - fval (S754_finite false m2 e2)) 1 r /\ f32_valid r = true.
Proof.
  intros m1 e1 m2 e2 V1 V2 L. apply valid_bounds in V1 as (B1 & D1 & N1). apply valid_bounds in V2 as (B2 & D2 & N2).
  unfold f32_add. cbn [SFadd cond_Zopp]. set (ez := Z.min e1 e2).
  pose proof (shl_align_val m1 e1 ez ltac:(lia)) as A1. pose proof (shl_align_val m2 e2 ez ltac:(lia)) as A2.
  set (a1 := fst (shl_align m1 e1 ez)) in *. set (a2 := fst (shl_align m2 e2 ez)) in *. clearbody a1 a2.
  cbn [fval] in *. rewrite !Z.mul_1_l in *.
  assert (S1 : 2 ^ (e1 + 149) = 2 ^ (e1 - ez) * 2 ^ (ez + 149)) by (rewrite <- !pow_split by lia; f_equal; lia).
  assert (S2 : 2 ^ (e2 + 149) = 2 ^ (e2 - ez) * 2 ^ (ez + 149)) by (rewrite <- !pow_split by lia; f_equal; lia).
  assert (Lt : Z.pos a2 < Z.pos a1).
  { rewrite A1, A2. rewrite S1, S2, !Z.mul_assoc in L. apply Z.mul_lt_mono_pos_r in L; [exact L|apply Z.pow_pos_nonneg; lia]. }
  assert (En : Z.opp (Z.pos a1) + Z.pos a2 = Z.neg (a1 - a2)).
  { rewrite <- Pos2Z.opp_pos. rewrite Pos2Z.inj_sub by lia. lia. }
  rewrite En. cbn [binary_normalize]. rewrite binary_round_opp. eexists. split; [reflexivity|].
  apply binary_round_is_round; [lia|]. intros k Hk Hx. rewrite Z.mul_1_r, Pos2Z.inj_sub by lia. rewrite A1, A2, S1, S2.
  assert (S3 : 2 ^ (ez + 149) * 2 ^ k = 2 ^ (ez + k) * 2 ^ 149) by (rewrite <- !pow_split by lia; f_equal; lia).
  replace ((Z.pos m1 * (2 ^ (e1 - ez) * 2 ^ (ez + 149)) - Z.pos m2 * (2 ^ (e2 - ez) * 2 ^ (ez + 149))) * 2 ^ k)
    with ((Z.pos m1 * 2 ^ (e1 - ez) - Z.pos m2 * 2 ^ (e2 - ez)) * (2 ^ (ez + 149) * 2 ^ k)) by ring.
  rewrite S3. ring.
Qed.
Lemma neg_half_trunc : forall x, - 2 ^ 23 <= x < 0 -> f32_to_i32 (f32_add (f32_of_int x) f32_half) = x + 1.
Proof.
  intros [|p|p] Hx; try lia. rewrite of_int_opp. destruct (of_int_exact (Z.pos p)) as (m & e & -> & V & F); [lia|].
  cbn [SFopp negb]. rewrite half_fin. destruct (neg_add_round m e 8388608 (-24) V eq_refl) as (r & -> & R & V'); [rewrite half_val; lia|].
  rewrite half_val, F in R.
  pose proof (is_round_exact _ 1 _ (2 * Z.pos p - 1) 148 ltac:(lia) R ltac:(lia)) as X. rewrite !Z.mul_1_l in X.
  specialize (X ltac:(lia) ltac:(lia) ltac:(lia)).
  destruct (fval_pos_shape _ V') as (m' & e' & E'); [lia|lia|]. rewrite E' in *.
  rewrite to_i32_opp by (exact V' || lia). rewrite X.
  assert (E : (Z.pos p * 2 ^ 149 - 2 ^ 148) / 2 ^ 149 = Z.pos p - 1) by (symmetry; apply Z.div_unique with (2 ^ 148); lia). rewrite E. lia.
Qed.

(** ** The conversions *)
Lemma cell_round_trip : forall x y, 0 <= x < 2 ^ 23 -> 0 <= y < 2 ^ 23 -> cell_of_map (map_of_cell (x, y)) = (x, y).
Proof. intros x y Hx Hy. unfold cell_of_map, map_of_cell. cbn [fst snd]. rewrite !int_half_trunc by assumption. reflexivity. Qed.
Lemma terrain_round_trip : forall x y, 0 <= x < 2 ^ 23 -> 0 <= y < 2 ^ 23 -> terrain_of_map (map_of_terrain (x, y)) = (x, y).
Proof. intros x y Hx Hy. unfold terrain_of_map, map_of_terrain. cbn [fst snd]. rewrite !int_half_trunc by assumption. reflexivity. Qed.
Lemma negative_round_trip : forall x y, - 2 ^ 23 <= x < 0 -> - 2 ^ 23 <= y < 0 ->
  cell_of_map (map_of_cell (x, y)) = (x + 1, y + 1) /\ terrain_of_map (map_of_terrain (x, y)) = (x + 1, y + 1).
Proof. intros x y Hx Hy. unfold cell_of_map, map_of_cell, terrain_of_map, map_of_terrain. cbn [fst snd]. rewrite !neg_half_trunc by assumption. auto. Qed.

(** A non-negative float. *)
Definition at_least_zero (x : f32) : Prop := f32_valid x = true /\ match x with S754_zero _ | S754_finite false _ _ => True | _ => False end.
Lemma cell_contains1 : forall x, at_least_zero x -> fval x < 2 ^ 31 * 2 ^ 149 ->
  f32_to_i32 x * 2 ^ 149 <= fval x < (f32_to_i32 x + 1) * 2 ^ 149.
Proof.
  intros [s|s| |[] m e] [V S] L; try contradiction; [cbn [f32_to_i32 fval]; lia|].
  rewrite to_i32_fval by exact V. assert (fval (S754_finite false m e) / 2 ^ 149 < 2 ^ 31) by (apply Z.div_lt_upper_bound; lia).
  rewrite Z.min_r by lia. pose proof (Z.div_mod (fval (S754_finite false m e)) (2 ^ 149) ltac:(lia)). pose proof (Z.mod_pos_bound (fval (S754_finite false m e)) (2 ^ 149) ltac:(lia)). lia.
Qed.
Lemma terrain_near1 : forall x, at_least_zero x -> fval x < 2 ^ 30 * 2 ^ 149 ->
  2 ^ 24 * Z.abs (fval x - f32_to_i32 (f32_add x f32_half) * 2 ^ 149) <= 2 ^ 24 * 2 ^ 148 + (fval x + 2 ^ 148).
Proof.
  intros [s|s| |[] m e] [V S] L; try contradiction.
  - change (f32_to_i32 (f32_add (S754_zero s) f32_half)) with 0. cbn [fval]. lia.
  - destruct (add_half_round m e V) as [R V'].
    assert (P : 0 <= fval (S754_finite false m e)).
    { cbn [fval]. rewrite Z.mul_1_l. apply Z.mul_nonneg_nonneg; [lia|]. apply Z.pow_nonneg. lia. }
    set (v := fval (S754_finite false m e)) in *. clearbody v.
    destruct (is_round_error _ 1 _ ltac:(lia) R) as [A B]; [lia|lia|]. rewrite Z.mul_1_l in A, B.
    destruct (fval_pos_shape _ V') as (m' & e' & E'); [lia|lia|]. rewrite E' in *.
    rewrite to_i32_fval by exact V'. set (w := fval (S754_finite false m' e')) in *.
    pose proof (Z.div_mod w (2 ^ 149) ltac:(lia)). pose proof (Z.mod_pos_bound w (2 ^ 149) ltac:(lia)).
    set (q := w / 2 ^ 149) in *. set (r := w mod 2 ^ 149) in *. clearbody w q r. rewrite Z.min_r by lia. lia.
Qed.

(** ** Positions of commands *)
Lemma k4096_fin : f32_4096 = S754_finite false 8388608 (-11).
Proof. reflexivity. Qed.
Lemma div_4096_pos : forall x, 0 < x <= 2 ^ 24 -> exists m e, f32_div (f32_of_int x) f32_4096 = S754_finite false m e /\
  f32_valid (S754_finite false m e) = true /\ 4096 * fval (S754_finite false m e) = x * 2 ^ 149.
Proof.
  intros x Hx. destruct (of_int_exact x) as (m & e & E & V & F); [lia|]. rewrite E, k4096_fin.
  destruct (f32_div_round m e 8388608 (-11)) as [R V'].
  { pose proof (fval_ge1 m e V ltac:(lia)). change (digs 8388608) with 24. lia. }
  { exact V. } { reflexivity. }
  change (fval (S754_finite false 8388608 (-11))) with (4096 * 2 ^ 149) in R. rewrite F in R.
  assert (X : 4096 * 2 ^ 149 * fval (f32_div (S754_finite false m e) (S754_finite false 8388608 (-11))) = x * 2 ^ 149 * 2 ^ 149).
  { destruct (Z.eq_dec x (2 ^ 24)) as [->|N].
    - apply (is_round_exact _ (4096 * 2 ^ 149) _ 1 (24 - 12 + 149) ltac:(lia) R); lia.
    - apply (is_round_exact _ (4096 * 2 ^ 149) _ x (149 - 12) ltac:(lia) R); lia. }
  destruct (fval_pos_shape _ V') as (m' & e' & E'); [lia|lia|]. rewrite E' in *. exists m', e'. split; [reflexivity|]. split; [exact V'|]. lia.
Qed.
Lemma div_4096 : forall x, - 2 ^ 24 <= x <= 2 ^ 24 -> 4096 * fval (f32_div (f32_of_int x) f32_4096) = x * 2 ^ 149.
Proof.
  intros [|p|p] Hx; [reflexivity| |].
  - destruct (div_4096_pos (Z.pos p)) as (m & e & -> & _ & F); [lia|exact F].
  - rewrite of_int_opp. destruct (of_int_exact (Z.pos p)) as (m & e & E & V & F); [lia|]. rewrite E, div_opp by (rewrite ?k4096_fin; eauto).
    rewrite fval_opp, <- E. destruct (div_4096_pos (Z.pos p)) as (m' & e' & -> & _ & F'); [lia|]. lia.
Qed.
Lemma div_4096_neg : forall x, - 2 ^ 24 <= x <= 2 ^ 24 -> 4096 * fval (f32_div (f32_neg (f32_of_int x)) f32_4096) = - x * 2 ^ 149.
Proof.
  intros x Hx. destruct x as [|p|p]; [reflexivity| |].
  - unfold f32_neg. rewrite <- of_int_opp. rewrite div_4096 by lia. lia.
  - unfold f32_neg. rewrite of_int_opp. replace (SFopp (SFopp (f32_of_int (Z.pos p)))) with (f32_of_int (Z.pos p)).
    + rewrite div_4096 by lia. lia.
    + destruct (f32_of_int (Z.pos p)) as [s|s| |s m e]; cbn [SFopp]; rewrite ?negb_involutive; reflexivity.
Qed.
Lemma command_position : forall c, - 2 ^ 24 <= co_x c <= 2 ^ 24 -> - 2 ^ 24 <= co_y c <= 2 ^ 24 -> - 2 ^ 24 <= co_z c <= 2 ^ 24 ->
  4096 * fval (fst (fst (vec3_of_coord c))) = co_x c * 2 ^ 149 /\ 4096 * fval (snd (fst (vec3_of_coord c))) = - co_y c * 2 ^ 149 /\
  4096 * fval (snd (vec3_of_coord c)) = co_z c * 2 ^ 149.
Proof.
  intros c Hx Hy Hz. unfold vec3_of_coord. cbn [fst snd]. split; [apply div_4096; exact Hx|]. split; [apply div_4096_neg; exact Hy|apply div_4096; exact Hz].
Qed.

(** Positions of units, in quarters. *)
Lemma div_4_pos : forall x, 0 < x <= 2 ^ 24 -> 4 * fval (f32_div (f32_of_int x) (f32_of_int 4)) = x * 2 ^ 149.
Proof.
  intros x Hx. destruct (of_int_exact x) as (m & e & E & V & F); [lia|]. rewrite E. change (f32_of_int 4) with (S754_finite false 8388608 (-21)).
  destruct (f32_div_round m e 8388608 (-21)) as [R V'].
  { pose proof (fval_ge1 m e V ltac:(lia)). change (digs 8388608) with 24. lia. }
  { exact V. } { reflexivity. }
  change (fval (S754_finite false 8388608 (-21))) with (4 * 2 ^ 149) in R. rewrite F in R.
  assert (X : 4 * 2 ^ 149 * fval (f32_div (S754_finite false m e) (S754_finite false 8388608 (-21))) = x * 2 ^ 149 * 2 ^ 149).
  { destruct (Z.eq_dec x (2 ^ 24)) as [->|N].
    - apply (is_round_exact _ (4 * 2 ^ 149) _ 1 (24 - 2 + 149) ltac:(lia) R); lia.
    - apply (is_round_exact _ (4 * 2 ^ 149) _ x (149 - 2) ltac:(lia) R); lia. }
  lia.
Qed.
Lemma div_4 : forall x, - 2 ^ 24 <= x <= 2 ^ 24 -> 4 * fval (f32_div (f32_of_int x) (f32_of_int 4)) = x * 2 ^ 149.
Proof.
  intros [|p|p] Hx; [reflexivity|apply div_4_pos; lia|].
  rewrite of_int_opp. destruct (of_int_exact (Z.pos p)) as (m & e & E & V & F); [lia|]. rewrite E, div_opp.
  - rewrite fval_opp, <- E. pose proof (div_4_pos (Z.pos p)). lia.
  - eauto.
  - exists 8388608%positive, (-21). reflexivity.
Qed.

(** Larger coordinates are rounded once, to the nearest float. *)
Lemma div_4096_near_pos : forall x, 0 < x < 2 ^ 32 ->
  2 ^ 24 * Z.abs (4096 * fval (f32_div (f32_of_int x) f32_4096) - x * 2 ^ 149) <= x * 2 ^ 149 /\ exists m e, f32_of_int x = S754_finite false m e.
Proof.
  intros x Hx. destruct (f32_of_int_round x) as [R V]; [lia|].
  destruct (is_round_error _ 1 _ ltac:(lia) R) as [A B]; [lia|lia|]. rewrite Z.mul_1_l in A, B.
  assert (L1 : 2 ^ 149 <= fval (f32_of_int x)) by (change (2 ^ 149) with (fval (f32_of_int 1)); apply f32_of_int_mono; lia).
  destruct (fval_pos_shape _ V) as (m & e & E); [lia|lia|]. rewrite E in *. split; [|eauto]. rewrite k4096_fin.
  pose proof (fval_ge1 m e V L1) as G. pose proof (valid_bounds _ _ _ V) as (Be & Bd & _).
  destruct (f32_div_round m e 8388608 (-11)) as [R' V'].
  { change (digs 8388608) with 24. lia. } { exact V. } { reflexivity. }
  change (fval (S754_finite false 8388608 (-11))) with (4096 * 2 ^ 149) in R'.
  pose proof (digs_bounds m) as [_ U].
  assert (X : 4096 * 2 ^ 149 * fval (f32_div (S754_finite false m e) (S754_finite false 8388608 (-11))) = fval (S754_finite false m e) * 2 ^ 149).
  { apply (is_round_exact _ (4096 * 2 ^ 149) _ (Z.pos m) (e + 149 - 12) ltac:(lia) R').
    - lia.
    - cbn [fval]. rewrite Z.mul_1_l. replace (e + 149) with ((e + 149 - 12) + 12) at 1 by lia. rewrite pow_split by lia. ring.
    - split; [lia|]. eapply Z.lt_le_trans; [exact U|]. apply Z.pow_le_mono_r; lia.
    - lia. }
  set (v := fval (S754_finite false m e)) in *. set (w := fval (f32_div (S754_finite false m e) (S754_finite false 8388608 (-11)))) in *. clearbody v w. lia.
Qed.
Lemma div_4096_near : forall x, - 2 ^ 31 <= x < 2 ^ 31 ->
  2 ^ 24 * Z.abs (4096 * fval (f32_div (f32_of_int x) f32_4096) - x * 2 ^ 149) <= Z.abs x * 2 ^ 149.
Proof.
  intros [|p|p] Hx; [vm_compute; discriminate| |].
  - destruct (div_4096_near_pos (Z.pos p)) as [X _]; lia.
  - rewrite of_int_opp. destruct (div_4096_near_pos (Z.pos p)) as [X (m & e & E)]; [lia|]. rewrite div_opp by (rewrite ?k4096_fin; eauto). rewrite fval_opp.
    set (w := fval (f32_div (f32_of_int (Z.pos p)) f32_4096)) in *. clearbody w. lia.
Qed.
Lemma coord_ranges : forall v, btyped bp_GameSMapCoord3D v = true ->
  exists c, coord3_from v = Ok c /\ coord_value c = v /\ 0 <= co_x c < 2 ^ 20 /\ 0 <= co_y c < 2 ^ 20 /\ - 2 ^ 31 <= co_z c < 2 ^ 31.
Proof.
  intros v H. binv. unfold coord3_from. run. ids. eexists. split; [reflexivity|]. split; [reflexivity|]. cbn [co_x co_y co_z]. lia.
Qed.
Lemma coord_from_file : forall m c c' v, cursor_ok c -> bparse m bp_GameSMapCoord3D c = Ok (c', v) ->
  exists k, coord3_from v = Ok k /\ coord_value k = v /\
    4096 * fval (fst (fst (vec3_of_coord k))) = co_x k * 2 ^ 149 /\ 4096 * fval (snd (fst (vec3_of_coord k))) = - co_y k * 2 ^ 149 /\
    2 ^ 24 * Z.abs (4096 * fval (snd (vec3_of_coord k)) - co_z k * 2 ^ 149) <= Z.abs (co_z k) * 2 ^ 149.
Proof.
  intros m c c' v Hc E. destruct (coord_ranges v) as (k & E1 & E2 & Hx & Hy & Hz).
  { exact (bparse_typed m bp_GameSMapCoord3D c c' v eq_refl eq_refl Hc E). }
  exists k. split; [exact E1|]. split; [exact E2|]. unfold vec3_of_coord. cbn [fst snd].
  split; [apply div_4096; lia|]. split; [apply div_4096_neg; lia|]. apply div_4096_near. exact Hz.
Qed.
