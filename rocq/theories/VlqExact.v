(** * Exact behaviour of [parse_vlq_int] on every input *)
From Verif Require Import Base VlqSpec Vlq VlqProofs BitProofs Types VersionedSpec.

Lemma shl_i64_small : forall m a k, k < 64 -> shl_i64 m a k = Ok (as_i64 (Z.shiftl a k)).
Proof. intros m a k H. unfold shl_i64. destruct (Z.ltb_spec k 64); [reflexivity|lia]. Qed.

Lemma vlq_loop_mod : forall m g rest r bits,
  bytes_ok g -> vlq_terminated g -> 0 <= bits -> 0 <= r < 2 ^ bits ->
  bits + 7 * (Z.of_nat (length g) - 1) < 64 ->
  vlq_loop m (g ++ rest) (as_i64 r) bits = Ok (rest, as_i64 (r + 2 ^ bits * vlq_groups g)).
Proof.
  intros m g; induction g as [|b g IH]; intros rest r bits Hok Ht Hb Hr Hm; [contradiction|].
  apply bytes_ok_cons in Hok; destruct Hok as [Hbok Hgok].
  cbn [app vlq_loop vlq_groups length] in *.
  rewrite shl_i64_small by lia. rewrite land_127. cbn [obind].
  rewrite as_i64_lor, Z.shiftl_mul_pow2, lor_disjoint by lia. rewrite land_128 by assumption.
  pose proof (Z.mod_pos_bound b 128 ltac:(lia)) as Hmb.
  pose proof (Z.pow_pos_nonneg 2 bits ltac:(lia) Hb) as Hp.
  apply vlq_terminated_inv in Ht. destruct Ht as [[-> Hlt] | (Hne & Hge & Ht)].
  - rewrite (proj2 (Z.ltb_lt b 128) Hlt). cbn [vlq_groups app]. f_equal. f_equal. f_equal. lia.
  - rewrite (proj2 (Z.ltb_ge b 128) Hge).
    assert (Hpow : 2 ^ (bits + 7) = 128 * 2 ^ bits) by (rewrite Z.pow_add_r by lia; change (2 ^ 7) with 128; lia).
    rewrite IH; try assumption; try lia.
    + f_equal; f_equal; f_equal. rewrite Hpow. lia.
    + rewrite Hpow. nia.
Qed.

(** The outcome on a number of at most ten bytes. *)
Lemma parse_vlq_int_mod : forall m g rest,
  bytes_ok g -> vlq_terminated g -> (length g <= 10)%nat ->
  parse_vlq_int m (g ++ rest) =
  if Z.odd (hd 0 g) then do n <- neg_i64 m (as_i64 (vlq_magnitude g)); Ok (rest, n)
  else Ok (rest, as_i64 (vlq_magnitude g)).
Proof.
  intros m [|b g] rest Hok Ht Hl; [contradiction|].
  apply bytes_ok_cons in Hok; destruct Hok as [Hbok Hgok].
  unfold parse_vlq_int. cbn [app hd]. rewrite land_128, odd_land, shiftr_1, land_63 by assumption.
  pose proof (Z.mod_pos_bound (b / 2) 64 ltac:(lia)) as Hmb.
  assert (Hr : (if b <? 128 then Ok (g ++ rest, (b / 2) mod 64)
                else vlq_loop m (g ++ rest) ((b / 2) mod 64) 6)
               = Ok (rest, as_i64 (vlq_magnitude (b :: g)))).
  { assert (E : (b / 2) mod 64 = as_i64 ((b / 2) mod 64)) by (rewrite as_i64_id; unfold two63; lia).
    apply vlq_terminated_inv in Ht. destruct Ht as [[-> Hlt] | (Hne & Hge & Ht)].
    - rewrite (proj2 (Z.ltb_lt b 128) Hlt). cbn [vlq_magnitude vlq_groups app].
      rewrite E at 1. rewrite Z.mul_0_r, Z.add_0_r. reflexivity.
    - rewrite (proj2 (Z.ltb_ge b 128) Hge). rewrite E.
      rewrite vlq_loop_mod; try assumption; try lia.
      + reflexivity.
      + cbn [length] in Hl. lia. }
  rewrite Hr. cbn [obind fst snd]. destruct (Z.odd b); reflexivity.
Qed.

Lemma as_i64_opp : forall x, as_i64 x <> - two63 -> as_i64 (- x) = - as_i64 x.
Proof.
  intros x H. pose proof (as_i64_range x) as Hr. destruct (as_i64_mod x) as [k Hk].
  replace (- x) with (- as_i64 x + k * two64) by lia.
  unfold as_i64 at 1. replace (- as_i64 x + k * two64 + two63) with (- as_i64 x + two63 + k * two64) by lia.
  rewrite Z.mod_add by (unfold two64; lia). rewrite Z.mod_small; unfold two63, two64 in *; lia.
Qed.

Lemma vlq_magnitude_nonneg : forall g, 0 <= vlq_magnitude g.
Proof.
  intros [|b g]; cbn [vlq_magnitude]; [lia|].
  pose proof (vlq_groups_nonneg g). pose proof (Z.mod_pos_bound (b / 2) 64). lia.
Qed.

Lemma vlq_value_hd : forall g, vlq_value g = if Z.odd (hd 0 g) then - vlq_magnitude g else vlq_magnitude g.
Proof. intros [|b g]; reflexivity. Qed.

Lemma parse_vlq_int_lax : forall m g rest z,
  vlq_rep false z g -> parse_vlq_int m (g ++ rest) = Ok (rest, z).
Proof.
  intros m g rest z (Hok & Ht & Hl & -> & Hm).
  rewrite parse_vlq_int_mod by assumption. rewrite vlq_value_hd in *.
  destruct (Z.odd (hd 0 g)); [|reflexivity].
  pose proof (vlq_magnitude_nonneg g) as Hg.
  assert (Hn : as_i64 (vlq_magnitude g) <> - two63).
  { intros E. specialize (Hm E). replace (vlq_magnitude g) with 0 in E by lia. cbv in E. discriminate. }
  rewrite as_i64_opp by assumption.
  unfold neg_i64, ovf_i64. pose proof (as_i64_range (vlq_magnitude g)).
  replace (in_i64 _) with true; [reflexivity|]. symmetry; apply in_i64_true. lia.
Qed.

Lemma vlq_rep_weaken : forall z g, vlq_rep true z g -> vlq_rep false z g.
Proof.
  intros z g (Hok & Ht & Hl & Hm & ->). pose proof (vlq_magnitude_nonneg g) as Hg.
  repeat split; try assumption.
  - rewrite as_i64_id; [reflexivity|]. rewrite vlq_value_hd. destruct (Z.odd _); unfold two63 in *; lia.
  - rewrite as_i64_id by (unfold two63 in *; lia). unfold two63 in *; lia.
Qed.

Lemma vlq_rep_lax : forall s z g, vlq_rep s z g -> vlq_rep false z g.
Proof. intros [|] z g H; [apply vlq_rep_weaken|]; exact H. Qed.

Lemma vlq_rep_ne : forall s z g, vlq_rep s z g -> g <> [].
Proof. intros s z g (_ & Ht & _). apply vlq_terminated_ne; assumption. Qed.

Lemma vlq_rep_range : forall s z g, vlq_rep s z g -> - two63 < z < two63 \/ - two63 <= z < two63.
Proof.
  intros s z g H. apply vlq_rep_lax in H. destruct H as (_ & _ & _ & -> & _). right. apply as_i64_range.
Qed.

Lemma vlq_rep_encode : forall v, - two63 < v < two63 -> vlq_rep true v (vlq_encode v).
Proof.
  intros v Hv. destruct (vlq_encode_ok v Hv) as (Ht & Hval & Hmag & Hb & _).
  repeat split; try assumption; try (symmetry; assumption).
  - apply vlq_encode_len; assumption.
  - rewrite Hmag. lia.
Qed.

(** The checked build panics on an eleventh byte. *)
Lemma parse_vlq_long_panic : forall p b q, bytes_ok (p ++ b :: q) ->
  Forall (fun b => 128 <= b) p -> (10 <= length p)%nat -> parse_vlq_int Checked (p ++ b :: q) = Panic.
Proof.
  intros p b q Hok Hp Hl. destruct p as [|b0 p]; [cbn in Hl; lia|].
  inversion Hp as [|x y Hb0 Hp']; subst. cbn [app] in *. apply bytes_ok_cons in Hok. destruct Hok as [Hb Hok].
  unfold parse_vlq_int. rewrite land_128 by assumption. rewrite (proj2 (Z.ltb_ge b0 128) Hb0).
  replace (vlq_loop Checked (p ++ b :: q) _ 6) with (@Panic (list Z * Z)); [reflexivity|].
  symmetry. apply vlq_loop_checked_panic; [assumption|lia|].
  exists p, b, q. repeat split; auto. cbn [length] in Hl. lia.
Qed.

Lemma vlq_term_prefix : forall g, vlq_terminated g -> exists p b, g = p ++ [b] /\ Forall (fun b => 128 <= b) p.
Proof.
  induction g as [|b g IH]; intros H; [contradiction|].
  apply vlq_terminated_inv in H. destruct H as [[-> H]|(Hne & Hge & Ht)].
  - exists [], b. auto.
  - destruct (IH Ht) as (p & b' & -> & Hp). exists (b :: p), b'. split; [reflexivity|constructor; auto].
Qed.

(** In a checked build, success means exactly a lax representation. *)
Lemma parse_vlq_int_checked : forall l rest z, bytes_ok l ->
  parse_vlq_int Checked l = Ok (rest, z) <-> exists g, l = g ++ rest /\ vlq_rep false z g.
Proof.
  intros l rest z Hok. split.
  - intros H. destruct (parse_vlq_int_consumes _ _ _ _ Hok H) as (g & -> & Ht). exists g. split; [reflexivity|].
    apply bytes_ok_app in Hok. destruct Hok as [Hg Hr].
    destruct (le_lt_dec (length g) 10) as [Hl|Hl].
    + rewrite parse_vlq_int_mod in H by assumption. repeat split; try assumption.
      * rewrite vlq_value_hd. destruct (Z.odd (hd 0 g)).
        -- unfold neg_i64, ovf_i64 in H. destruct (in_i64 _) eqn:E; [|discriminate]. cbn [obind] in H.
           injection H as <-. symmetry. apply as_i64_opp. apply in_i64_true in E. unfold two63 in *; lia.
        -- injection H as <-. reflexivity.
      * intros E. rewrite vlq_value_hd. pose proof (vlq_magnitude_nonneg g). destruct (Z.odd (hd 0 g)); [|lia].
        unfold neg_i64, ovf_i64 in H. rewrite E in H. discriminate.
    + destruct (vlq_term_prefix g Ht) as (p & b & -> & Hp).
      rewrite <- app_assoc in H. cbn [app] in H. rewrite app_length in Hl. cbn [length] in Hl.
      rewrite parse_vlq_long_panic in H; [discriminate| |assumption|lia].
      apply bytes_ok_app in Hg. destruct Hg as [Hp1 Hb1].
      apply bytes_ok_app; split; [assumption|]. apply bytes_ok_cons; split; [|assumption].
      apply bytes_ok_cons in Hb1; tauto.
  - intros (g & -> & H). apply parse_vlq_int_lax; assumption.
Qed.

(** Both builds agree unless the checked one panics. *)
Lemma vlq_loop_agree : forall l r bits, vlq_loop Checked l r bits <> Panic ->
  vlq_loop Wrapping l r bits = vlq_loop Checked l r bits.
Proof.
  induction l as [|b l IH]; intros r bits H; [reflexivity|].
  cbn [vlq_loop] in *. unfold shl_i64 in *. destruct (bits <? 64); cbn [obind] in *; [|congruence].
  destruct (_ =? 0); [reflexivity|]. apply IH; assumption.
Qed.

Lemma neg_agree : forall z, neg_i64 Checked z <> Panic -> neg_i64 Wrapping z = neg_i64 Checked z.
Proof. intros z H. unfold neg_i64, ovf_i64 in *. destruct (in_i64 _); congruence. Qed.

Lemma parse_vlq_int_agree : forall l, parse_vlq_int Checked l <> Panic ->
  parse_vlq_int Wrapping l = parse_vlq_int Checked l.
Proof.
  intros [|b l] H; [reflexivity|]. unfold parse_vlq_int in *.
  destruct (Z.land b 128 =? 0).
  - cbn [obind snd fst] in *. destruct (negb _); [|reflexivity].
    rewrite neg_agree; [reflexivity|]. intros E; rewrite E in H; apply H; reflexivity.
  - rewrite vlq_loop_agree by (intros E; rewrite E in H; apply H; reflexivity).
    destruct (vlq_loop Checked l _ 6) as [[t r]| |]; try reflexivity. cbn [obind snd fst] in *.
    destruct (negb _); [|reflexivity].
    rewrite neg_agree; [reflexivity|]. intros E; rewrite E in H; apply H; reflexivity.
Qed.

(** Without a run of nine continuation bytes there is no panic in either build. *)
Lemma no_run_suffix : forall n a l, no_run n l -> suffix_of a l -> no_run n a.
Proof.
  intros n a l H [p ->] p' q s E Hq. apply (H (p ++ p') q s); [|assumption]. rewrite E, <- app_assoc. reflexivity.
Qed.

Lemma vlq_run_split : forall l,
  (exists g r, l = g ++ r /\ vlq_terminated g) \/ Forall (fun b => 128 <= b) l.
Proof.
  intros l. destruct (vlq_split l) as [[g r]|] eqn:E.
  - left. exists g, r. apply vlq_split_some; assumption.
  - right. apply vlq_split_none; assumption.
Qed.

Lemma vlq_groups_bound : forall g, vlq_groups g < 128 ^ Z.of_nat (length g).
Proof.
  induction g as [|b g IH]; cbn [vlq_groups length]; [cbn; lia|].
  rewrite Nat2Z.inj_succ, Z.pow_succ_r by lia. pose proof (Z.mod_pos_bound b 128). lia.
Qed.

Lemma vlq_magnitude_bound9 : forall g, (length g <= 9)%nat -> vlq_magnitude g < two63.
Proof.
  intros [|b g] H; cbn [vlq_magnitude]; [reflexivity|].
  pose proof (vlq_groups_bound g). pose proof (Z.mod_pos_bound (b / 2) 64).
  assert (128 ^ Z.of_nat (length g) <= 128 ^ 8) by (apply Z.pow_le_mono_r; cbn [length] in H; lia).
  change (128 ^ 8) with 72057594037927936 in *. unfold two63. lia.
Qed.

Lemma parse_vlq_no_run : forall m l, bytes_ok l -> no_run 9 l -> parse_vlq_int m l <> Panic.
Proof.
  intros m l Hok Hn. destruct (vlq_run_split l) as [(g & r & -> & Ht)|Hall].
  - apply bytes_ok_app in Hok. destruct Hok as [Hg Hr].
    destruct (vlq_term_prefix g Ht) as (p & b & -> & Hp).
    assert (Hl : (length p < 9)%nat) by (apply (Hn [] p ([b] ++ r)); [rewrite <- app_assoc; reflexivity|assumption]).
    assert (Hlen : (length (p ++ [b]) <= 9)%nat) by (rewrite app_length; cbn; lia).
    rewrite parse_vlq_int_ok; [discriminate|assumption|assumption|apply vlq_magnitude_bound9; assumption|right; lia].
  - rewrite parse_vlq_int_truncated; [discriminate|assumption|assumption|right].
    assert (length l < 9)%nat; [|lia]. apply (Hn [] l []); [rewrite app_nil_r; reflexivity|assumption].
Qed.
