(** * Proofs about [parse_vlq_int] *)
From Verif Require Import Base Vlq VlqSpec.

Lemma land_127 : forall b, Z.land b 127 = b mod 128.
Proof. intros b; exact (Z.land_ones b 7 ltac:(lia)). Qed.
Lemma land_63 : forall b, Z.land b 63 = b mod 64.
Proof. intros b; exact (Z.land_ones b 6 ltac:(lia)). Qed.
Lemma land_1 : forall b, Z.land b 1 = b mod 2.
Proof. intros b; exact (Z.land_ones b 1 ltac:(lia)). Qed.
Lemma shiftr_1 : forall b, Z.shiftr b 1 = b / 2.
Proof. intros b; exact (Z.shiftr_div_pow2 b 1 ltac:(lia)). Qed.

Lemma land_128 : forall b, byte_ok b -> (Z.land b 128 =? 0) = (b <? 128).
Proof.
  intros b Hb.
  assert (H : Z.land b 128 = if b <? 128 then 0 else 128).
  { apply Z.bits_inj'; intros n Hn. rewrite Z.land_spec.
    change 128 with (2 ^ 7) at 1. rewrite Z.pow2_bits_eqb by lia.
    destruct (Z.eqb_spec 7 n) as [<-|Hne].
    - rewrite andb_true_r. unfold byte_ok in Hb.
      rewrite Z.testbit_odd, Z.shiftr_div_pow2 by lia. change (2 ^ 7) with 128.
      destruct (Z.ltb_spec b 128).
      + rewrite Z.div_small by lia. reflexivity.
      + replace (b / 128) with 1 by dlia. reflexivity.
    - rewrite andb_false_r. destruct (b <? 128).
      + rewrite Z.bits_0; reflexivity.
      + change 128 with (2 ^ 7). rewrite Z.pow2_bits_eqb by lia.
        symmetry; apply Z.eqb_neq; exact Hne. }
  rewrite H. destruct (b <? 128); reflexivity.
Qed.

Lemma odd_land : forall b, negb (Z.land b 1 =? 0) = Z.odd b.
Proof.
  intros b; rewrite land_1, Zmod_odd. destruct (Z.odd b); reflexivity.
Qed.

Lemma lor_disjoint : forall r a n, 0 <= n -> 0 <= r < 2 ^ n ->
  Z.lor r (a * 2 ^ n) = r + a * 2 ^ n.
Proof.
  intros r a n Hn Hr.
  enough (H : Z.land r (a * 2 ^ n) = 0).
  { rewrite Z.add_nocarry_lxor by exact H. symmetry. apply Z.lxor_lor. exact H. }
  apply Z.bits_inj'; intros i Hi. rewrite Z.land_spec, Z.bits_0.
  destruct (Z.lt_ge_cases i n).
  - rewrite (Z.mul_pow2_bits_low a n i) by lia. apply andb_false_r.
  - replace r with (r mod 2 ^ n) by (apply Z.mod_small; lia).
    rewrite Z.mod_pow2_bits_high by lia. reflexivity.
Qed.

Lemma vlq_groups_nonneg : forall g, 0 <= vlq_groups g.
Proof. induction g as [|b g IH]; cbn [vlq_groups]; [lia|]. pose proof (Z.mod_pos_bound b 128); lia. Qed.

Lemma vlq_terminated_inv : forall b g, vlq_terminated (b :: g) ->
  (g = [] /\ b < 128) \/ (g <> [] /\ 128 <= b /\ vlq_terminated g).
Proof.
  intros b g H; simpl in H; destruct g; [left; auto | right; intuition discriminate].
Qed.

Lemma vlq_loop_ok : forall m g rest r bits,
  bytes_ok g -> vlq_terminated g -> 0 <= bits -> 0 <= r < 2 ^ bits ->
  r + 2 ^ bits * vlq_groups g < two63 ->
  (m = Wrapping \/ bits + 7 * (Z.of_nat (length g) - 1) < 64) ->
  vlq_loop m (g ++ rest) r bits = Ok (rest, r + 2 ^ bits * vlq_groups g).
Proof.
  intros m g; induction g as [|b g IH]; intros rest r bits Hok Ht Hb Hr Hv Hm.
  - simpl in Ht; contradiction.
  - apply bytes_ok_cons in Hok; destruct Hok as [Hbok Hgok].
    cbn [app vlq_loop vlq_groups] in *.
    pose proof (vlq_groups_nonneg g) as Hg.
    pose proof (Z.mod_pos_bound b 128 ltac:(lia)) as Hmb.
    pose proof (Z.pow_pos_nonneg 2 bits ltac:(lia) Hb) as Hp.
    assert (Hsh : shl_i64 m (Z.land b 127) bits = Ok (b mod 128 * 2 ^ bits)).
    { unfold shl_i64. rewrite land_127. destruct (Z.ltb_spec bits 64).
      - rewrite Z.shiftl_mul_pow2 by lia. rewrite as_i64_id; [reflexivity|].
        unfold two63 in *. nia.
      - assert (Hz : b mod 128 = 0).
        { assert (2 ^ 64 <= 2 ^ bits) by (apply Z.pow_le_mono_r; lia).
          change (2 ^ 64) with 18446744073709551616 in *. unfold two63 in *. nia. }
        destruct Hm as [-> | Hm].
        + rewrite Hz. rewrite Z.shiftl_0_l. reflexivity.
        + simpl length in Hm. lia. }
    rewrite Hsh. cbn [obind]. rewrite lor_disjoint by lia.
    rewrite land_128 by assumption.
    apply vlq_terminated_inv in Ht. destruct Ht as [[-> Hlt] | (Hne & Hge & Ht)].
    + rewrite (proj2 (Z.ltb_lt b 128) Hlt). cbn [vlq_groups app]. f_equal. f_equal. lia.
    + rewrite (proj2 (Z.ltb_ge b 128) Hge).
      assert (Hpow : 2 ^ (bits + 7) = 128 * 2 ^ bits) by (rewrite Z.pow_add_r by lia; change (2 ^ 7) with 128; lia).
      rewrite IH; try assumption; try lia.
      * f_equal; f_equal. rewrite Hpow. lia.
      * rewrite Hpow. nia.
      * destruct Hm as [Hm|Hm]; [left; exact Hm | right]. simpl length in Hm. lia.
Qed.

(** Main decoding lemma. *)
Lemma parse_vlq_int_ok : forall m g rest,
  bytes_ok g -> vlq_terminated g -> vlq_magnitude g < two63 ->
  (m = Wrapping \/ (length g <= 10)%nat) ->
  parse_vlq_int m (g ++ rest) = Ok (rest, vlq_value g).
Proof.
  intros m g rest Hok Ht Hmag Hm.
  destruct g as [|b g]; [contradiction|].
  apply bytes_ok_cons in Hok; destruct Hok as [Hbok Hgok].
  unfold parse_vlq_int. cbn [app]. rewrite land_128 by assumption.
  rewrite odd_land, shiftr_1, land_63. cbn [vlq_magnitude] in Hmag.
  pose proof (Z.mod_pos_bound (b / 2) 64 ltac:(lia)) as Hmb.
  pose proof (vlq_groups_nonneg g) as Hg.
  assert (Hr : (if b <? 128 then Ok (g ++ rest, (b / 2) mod 64)
                else vlq_loop m (g ++ rest) ((b / 2) mod 64) 6)
               = Ok (rest, vlq_magnitude (b :: g))).
  { apply vlq_terminated_inv in Ht. destruct Ht as [[-> Hlt] | (Hne & Hge & Ht)].
    - rewrite (proj2 (Z.ltb_lt b 128) Hlt). cbn [vlq_magnitude vlq_groups app].
      f_equal; f_equal; lia.
    - rewrite (proj2 (Z.ltb_ge b 128) Hge).
      rewrite vlq_loop_ok; try assumption; try lia.
      all: try (change (2 ^ 6) with 64; lia).
      all: try reflexivity.
      destruct Hm as [Hm|Hm]; [left; exact Hm | right]. cbn [length] in Hm. lia. }
  rewrite Hr. cbn [obind snd fst]. unfold vlq_value.
  destruct (Z.odd b); [|reflexivity].
  unfold neg_i64, ovf_i64. cbn [vlq_magnitude] in *.
  replace (in_i64 _) with true; [reflexivity|].
  symmetry; apply in_i64_true. unfold two63 in *. lia.
Qed.

(** Every input is either a terminated group followed by a rest, or has no
    terminator at all. *)
Fixpoint vlq_split (l : list Z) : option (list Z * list Z) :=
  match l with
  | [] => None
  | b :: l' => if b <? 128 then Some ([b], l')
               else match vlq_split l' with
                    | Some (g, r) => Some (b :: g, r)
                    | None => None
                    end
  end.

Lemma vlq_split_some : forall l g r, vlq_split l = Some (g, r) ->
  l = g ++ r /\ vlq_terminated g.
Proof.
  induction l as [|b l IH]; intros g r H; cbn in H; [discriminate|].
  destruct (Z.ltb_spec b 128).
  - injection H as <- <-. split; [reflexivity | simpl; lia].
  - destruct (vlq_split l) as [[g' r']|] eqn:E; [|discriminate].
    injection H as <- <-. destruct (IH _ _ eq_refl) as [-> Ht].
    split; [reflexivity|]. destruct g'; [contradiction|]. simpl in *. auto.
Qed.

Lemma vlq_split_none : forall l, vlq_split l = None -> Forall (fun b => 128 <= b) l.
Proof.
  induction l as [|b l IH]; intros H; [constructor|]. cbn in H.
  destruct (Z.ltb_spec b 128); [discriminate|].
  destruct (vlq_split l) as [[g' r']|]; [discriminate|]. constructor; auto.
Qed.

(** What the decoder returns is the suffix after the terminator, whatever the value. *)
Lemma vlq_loop_consumes : forall m l r bits rest v,
  bytes_ok l -> vlq_loop m l r bits = Ok (rest, v) ->
  exists g, l = g ++ rest /\ vlq_terminated g.
Proof.
  intros m; induction l as [|b l IH]; intros r bits rest v Hok H; [discriminate|].
  apply bytes_ok_cons in Hok; destruct Hok as [Hb Hl].
  cbn [vlq_loop] in H. destruct (shl_i64 m (Z.land b 127) bits) as [s| |]; try discriminate.
  cbn [obind] in H. rewrite land_128 in H by assumption.
  destruct (Z.ltb_spec b 128).
  - injection H as <- <-. exists [b]. split; [reflexivity | simpl; lia].
  - destruct (IH _ _ _ _ Hl H) as (g & -> & Ht). exists (b :: g). split; [reflexivity|].
    destruct g; [contradiction|]. simpl in *; auto.
Qed.

Lemma parse_vlq_int_consumes : forall m l rest v,
  bytes_ok l -> parse_vlq_int m l = Ok (rest, v) ->
  exists g, l = g ++ rest /\ vlq_terminated g.
Proof.
  intros m [|b l] rest v Hok H; [discriminate|].
  apply bytes_ok_cons in Hok; destruct Hok as [Hb Hl].
  unfold parse_vlq_int in H. rewrite land_128 in H by assumption.
  assert (HH : forall r, (do r <- r; (if negb (Z.land b 1 =? 0) then do n <- neg_i64 m (snd r); Ok (fst r, n) else Ok r)) = Ok (rest, v) ->
     exists w, r = Ok (rest, w)).
  { intros r Hr. apply obind_ok in Hr. destruct Hr as ([t w] & -> & Hr).
    destruct (negb _).
    - apply obind_ok in Hr. destruct Hr as (n & _ & Hr). injection Hr as <- <-. eauto.
    - injection Hr as <- <-. eauto. }
  apply HH in H. destruct H as [w H]. destruct (Z.ltb_spec b 128).
  - injection H as <- <-. exists [b]. split; [reflexivity | simpl; lia].
  - apply vlq_loop_consumes in H; [|assumption]. destruct H as (g & -> & Ht).
    exists (b :: g). split; [reflexivity|]. destruct g; [contradiction|]. simpl in *; auto.
Qed.

Lemma vlq_terminated_ne : forall g, vlq_terminated g -> g <> [].
Proof. intros [|]; simpl; [tauto | discriminate]. Qed.

Lemma parse_vlq_int_psuffix : forall m l rest v,
  bytes_ok l -> parse_vlq_int m l = Ok (rest, v) -> proper_suffix_of rest l.
Proof.
  intros m l rest v Hok H. apply parse_vlq_int_consumes in H; [|assumption].
  destruct H as (g & -> & Ht). exists g. split; [apply vlq_terminated_ne; assumption | reflexivity].
Qed.

(** The terminated prefix is unique. *)
Lemma vlq_terminated_unique : forall g1 g2 r1 r2,
  vlq_terminated g1 -> vlq_terminated g2 -> g1 ++ r1 = g2 ++ r2 -> g1 = g2 /\ r1 = r2.
Proof.
  induction g1 as [|b g1 IH]; intros g2 r1 r2 H1 H2 H; [contradiction|].
  destruct g2 as [|b2 g2]; [contradiction|]. cbn in H. injection H as <- H.
  apply vlq_terminated_inv in H1. apply vlq_terminated_inv in H2.
  destruct H1 as [[-> H1]|(Hn1 & Hg1 & H1)], H2 as [[-> H2]|(Hn2 & Hg2 & H2)]; try lia.
  - auto.
  - destruct (IH g2 r1 r2 H1 H2 H) as [-> ->]. auto.
Qed.

(** A truncated number (no terminator) is never decoded; in a wrapping build,
    or up to ten bytes, it is an error. *)
Lemma vlq_loop_truncated : forall m l r bits,
  Forall (fun b => 128 <= b) l -> bytes_ok l -> 0 <= bits ->
  (m = Wrapping \/ bits + 7 * (Z.of_nat (length l) - 1) < 64) ->
  vlq_loop m l r bits = Err ENom.
Proof.
  intros m; induction l as [|b l IH]; intros r bits Hf Hok Hb Hm; [reflexivity|].
  apply bytes_ok_cons in Hok; destruct Hok as [Hbo Hl]. inversion Hf; subst.
  cbn [vlq_loop]. cbn [length] in Hm.
  assert (exists s, shl_i64 m (Z.land b 127) bits = Ok s) as [s ->].
  { unfold shl_i64. destruct (Z.ltb_spec bits 64); [eauto|]. destruct Hm as [->|Hm]; [eauto|lia]. }
  cbn [obind]. rewrite land_128 by assumption.
  rewrite (proj2 (Z.ltb_ge b 128)) by assumption.
  apply IH; try assumption; try lia. destruct Hm; [left; assumption | right; lia].
Qed.

Lemma parse_vlq_int_truncated : forall m l,
  Forall (fun b => 128 <= b) l -> bytes_ok l ->
  (m = Wrapping \/ (length l <= 10)%nat) ->
  parse_vlq_int m l = Err ENom.
Proof.
  intros m [|b l] Hf Hok Hm; [reflexivity|].
  apply bytes_ok_cons in Hok; destruct Hok as [Hbo Hl]. inversion Hf; subst.
  unfold parse_vlq_int. rewrite land_128 by assumption.
  rewrite (proj2 (Z.ltb_ge b 128)) by assumption.
  rewrite vlq_loop_truncated; try assumption; try lia; [reflexivity|].
  cbn [length] in Hm. destruct Hm; [left; assumption | right; lia].
Qed.

(** ** Panics *)
Lemma vlq_loop_wrapping_no_panic : forall l r bits, vlq_loop Wrapping l r bits <> Panic.
Proof.
  induction l as [|b l IH]; intros r bits; cbn [vlq_loop]; [discriminate|].
  unfold shl_i64. destruct (bits <? 64); cbn [obind]; destruct (_ =? 0); try discriminate; apply IH.
Qed.

Lemma parse_vlq_int_wrapping_no_panic : forall l, parse_vlq_int Wrapping l <> Panic.
Proof.
  intros [|b l]; unfold parse_vlq_int; [discriminate|].
  destruct (Z.land b 128 =? 0).
  - cbn [obind]. destruct (negb _); [|discriminate]. unfold neg_i64, ovf_i64.
    cbn [snd]. destruct (in_i64 _); discriminate.
  - destruct (vlq_loop Wrapping l _ _) as [r| |] eqn:E.
    + cbn [obind]. destruct (negb _); [|discriminate]. unfold neg_i64, ovf_i64.
      destruct (in_i64 _); discriminate.
    + discriminate.
    + exfalso; revert E; apply vlq_loop_wrapping_no_panic.
Qed.

(** In a checked build the loop panics exactly when it meets an eleventh byte
    (10 continuation bytes, shift amount 69). *)
Lemma vlq_loop_checked_panic : forall l r bits,
  bytes_ok l -> 0 <= bits ->
  (vlq_loop Checked l r bits = Panic <->
   exists p b q, l = p ++ b :: q /\ Forall (fun b => 128 <= b) p /\ 64 <= bits + 7 * Z.of_nat (length p)).
Proof.
  induction l as [|b l IH]; intros r bits Hok Hb; cbn [vlq_loop].
  - split; [discriminate|]. intros (p & b & q & H & _). destruct p; discriminate.
  - apply bytes_ok_cons in Hok; destruct Hok as [Hbo Hl].
    unfold shl_i64. destruct (Z.ltb_spec bits 64) as [Hlt|Hge]; cbn [obind].
    + rewrite land_128 by assumption. destruct (Z.ltb_spec b 128) as [Hb1|Hb1].
      * split; [discriminate|]. intros (p & c & q & H & Hf & Hn). destruct p as [|x p].
        { cbn [length] in Hn. lia. }
        { cbn in H. injection H as <- _. inversion Hf; subst; lia. }
      * rewrite IH by (try assumption; lia). split.
        { intros (p & c & q & -> & Hf & Hn). exists (b :: p), c, q. cbn [length app].
          split; [reflexivity|]. split; [constructor; assumption | lia]. }
        { intros (p & c & q & H & Hf & Hn). destruct p as [|x p].
          { cbn [length] in Hn. lia. }
          { cbn in H. injection H as <- ->. inversion Hf; subst. exists p, c, q.
            split; [reflexivity|]. split; [assumption|]. cbn [length] in Hn. lia. } }
    + split; [|reflexivity]. intros _. exists [], b, l. cbn [length]. repeat split; [constructor | lia].
Qed.

(** ** Round trip *)
Lemma vlq_enc_groups_ok : forall fuel z, 0 <= z < 128 * 128 ^ Z.of_nat fuel ->
  vlq_terminated (vlq_enc_groups fuel z) /\ vlq_groups (vlq_enc_groups fuel z) = z
  /\ bytes_ok (vlq_enc_groups fuel z) /\ (length (vlq_enc_groups fuel z) <= S fuel)%nat.
Proof.
  induction fuel as [|f IH]; intros z Hz.
  - simpl in Hz. cbn [vlq_enc_groups]. repeat split.
    + simpl; lia.
    + cbn [vlq_groups]. rewrite Z.mod_small; lia.
    + constructor; [unfold byte_ok; lia | constructor].
    + simpl; lia.
  - cbn [vlq_enc_groups]. destruct (Z.ltb_spec z 128).
    + repeat split.
      * simpl; lia.
      * cbn [vlq_groups]. rewrite Z.mod_small; lia.
      * constructor; [unfold byte_ok; lia | constructor].
      * simpl; lia.
    + rewrite Nat2Z.inj_succ, Z.pow_succ_r in Hz by lia.
      assert (Hz' : 0 <= z / 128 < 128 * 128 ^ Z.of_nat f).
      { split; [apply Z.div_pos; lia | apply Z.div_lt_upper_bound; lia]. }
      destruct (IH _ Hz') as (Ht & Hg & Hb & Hl).
      pose proof (Z.mod_pos_bound z 128 ltac:(lia)).
      repeat split.
      * destruct (vlq_enc_groups f (z / 128)) eqn:E; [contradiction|]. simpl. simpl in Ht.
        split; [lia | exact Ht].
      * cbn [vlq_groups]. rewrite Hg.
        replace ((z mod 128 + 128) mod 128) with (z mod 128) by dlia. dlia.
      * constructor; [unfold byte_ok; lia | exact Hb].
      * simpl. lia.
Qed.

Lemma vlq_encode_ok : forall v, - two63 < v < two63 ->
  vlq_terminated (vlq_encode v) /\ vlq_value (vlq_encode v) = v
  /\ vlq_magnitude (vlq_encode v) = Z.abs v
  /\ bytes_ok (vlq_encode v) /\ (length (vlq_encode v) <= 11)%nat.
Proof.
  intros v Hv. unfold vlq_encode.
  assert (Hodd : forall x s, Z.odd (2 * x + (if v <? 0 then 1 else 0) + 2 * s) = (v <? 0)).
  { intros x s. destruct (v <? 0).
    - replace (2 * x + 1 + 2 * s) with (2 * (x + s) + 1) by lia.
      rewrite Z.odd_add_mul_2 || (rewrite Z.add_comm, Z.odd_add_mul_2); reflexivity.
    - replace (2 * x + 0 + 2 * s) with (0 + 2 * (x + s)) by lia.
      rewrite Z.odd_add_mul_2; reflexivity. }
  set (s := if v <? 0 then 1 else 0) in *.
  assert (Hs : 0 <= s <= 1) by (subst s; destruct (v <? 0); lia).
  destruct (Z.ltb_spec (Z.abs v) 64) as [Hlt|Hge].
  - assert (Hm : vlq_magnitude [2 * Z.abs v + s] = Z.abs v).
    { cbn [vlq_magnitude vlq_groups].
      replace ((2 * Z.abs v + s) / 2) with (Z.abs v) by dlia. rewrite Z.mod_small by lia. lia. }
    split; [cbn [vlq_terminated]; lia|]. split; [|split; [exact Hm|]].
    + unfold vlq_value. rewrite Hm. specialize (Hodd (Z.abs v) 0).
      rewrite Z.add_0_r in Hodd. rewrite Hodd. destruct (Z.ltb_spec v 0); lia.
    + split; [|simpl; lia]. constructor; [unfold byte_ok; lia | constructor].
  - assert (Hz : 0 <= Z.abs v / 64 < 128 * 128 ^ Z.of_nat 9).
    { split; [apply Z.div_pos; lia | apply Z.div_lt_upper_bound; [lia|]].
      change (128 ^ Z.of_nat 9) with 9223372036854775808. unfold two63 in Hv. lia. }
    destruct (vlq_enc_groups_ok 9 _ Hz) as (Ht & Hg & Hb & Hl).
    pose proof (Z.mod_pos_bound (Z.abs v) 64 ltac:(lia)) as Hmb.
    remember (vlq_enc_groups 9 (Z.abs v / 64)) as gs.
    assert (Hm : vlq_magnitude ((2 * (Z.abs v mod 64) + s + 128) :: gs) = Z.abs v).
    { cbn [vlq_magnitude]. rewrite Hg.
      replace ((2 * (Z.abs v mod 64) + s + 128) / 2) with (Z.abs v mod 64 + 1 * 64) by dlia.
      rewrite Z.mod_add by lia. rewrite Z.mod_mod by lia. dlia. }
    split; [|split; [|split; [exact Hm|]]].
    + destruct gs as [|x gs]; [contradiction|]. cbn [vlq_terminated] in *. split; [lia | exact Ht].
    + unfold vlq_value. rewrite Hm. specialize (Hodd (Z.abs v mod 64) 64).
      change (2 * 64) with 128 in Hodd. rewrite Hodd. destruct (Z.ltb_spec v 0); lia.
    + split; [constructor; [unfold byte_ok; lia | exact Hb] | simpl; lia].
Qed.

(** The length bound of ten bytes, needed in checked builds. *)
Lemma vlq_enc_groups_len : forall fuel z k, 0 <= z < 128 * 128 ^ Z.of_nat k -> (k <= fuel)%nat ->
  (length (vlq_enc_groups fuel z) <= S k)%nat.
Proof.
  induction fuel as [|f IH]; intros z k Hz Hk.
  - cbn. lia.
  - cbn [vlq_enc_groups]. destruct (Z.ltb_spec z 128); [cbn; lia|].
    destruct k as [|k]; [simpl in Hz; lia|].
    rewrite Nat2Z.inj_succ, Z.pow_succ_r in Hz by lia.
    cbn [length]. apply le_n_S. apply IH; [|lia].
    split; [apply Z.div_pos; lia | apply Z.div_lt_upper_bound; lia].
Qed.

Lemma vlq_encode_len : forall v, - two63 < v < two63 -> (length (vlq_encode v) <= 10)%nat.
Proof.
  intros v Hv. unfold vlq_encode. destruct (Z.ltb_spec (Z.abs v) 64); [cbn; lia|].
  cbn [length]. apply le_n_S. apply (vlq_enc_groups_len 9 _ 8); [|lia].
  split; [apply Z.div_pos; lia | apply Z.div_lt_upper_bound; [lia|]].
  change (128 ^ Z.of_nat 8) with 72057594037927936. unfold two63 in Hv. lia.
Qed.

Lemma vlq_round_trip : forall m v rest, - two63 < v < two63 ->
  parse_vlq_int m (vlq_encode v ++ rest) = Ok (rest, v).
Proof.
  intros m v rest Hv. destruct (vlq_encode_ok v Hv) as (Ht & Hval & Hmag & Hb & _).
  rewrite parse_vlq_int_ok; try assumption.
  - rewrite Hval; reflexivity.
  - rewrite Hmag; lia.
  - right; apply vlq_encode_len; assumption.
Qed.

Lemma parse_vlq_int_range : forall m l rest v,
  parse_vlq_int m l = Ok (rest, v) -> bytes_ok l -> - two63 <= v < two63.
Proof.
  intros m [|b l] rest v H Hok; [discriminate|].
  assert (Hl : forall l r bits rest w, 0 <= r < two63 \/ - two63 <= r < two63 -> vlq_loop m l r bits = Ok (rest, w) -> - two63 <= w < two63).
  { clear. induction l as [|b l IH]; intros r bits rest w Hr H; [discriminate|].
    cbn [vlq_loop] in H. destruct (shl_i64 m (Z.land b 127) bits) as [s| |] eqn:E; try discriminate.
    cbn [obind] in H.
    assert (Hs : - two63 <= s < two63).
    { unfold shl_i64 in E. destruct (bits <? 64); [injection E as <-; apply as_i64_range|].
      destruct m; [discriminate|]. injection E as <-; apply as_i64_range. }
    assert (Hlor : - two63 <= Z.lor r s < two63).
    { assert (Hr' : - two63 <= r < two63) by (unfold two63 in *; lia). clear Hr.
      change two63 with (2 ^ 63) in *.
      assert (F : forall x, - 2 ^ 63 <= x < 2 ^ 63 -> Z.shiftr x 63 = -1 \/ Z.shiftr x 63 = 0).
      { intros x Hx. rewrite Z.shiftr_div_pow2 by lia. destruct (Z.lt_ge_cases x 0).
        - left. change (2 ^ 63) with 9223372036854775808 in *. dlia.
        - right. apply Z.div_small. lia. }
      assert (G : forall x, Z.shiftr x 63 = -1 \/ Z.shiftr x 63 = 0 -> - 2 ^ 63 <= x < 2 ^ 63).
      { intros x Hx. rewrite Z.shiftr_div_pow2 in Hx by lia.
        change (2 ^ 63) with 9223372036854775808 in *. dlia. }
      apply G. rewrite Z.shiftr_lor.
      destruct (F r Hr') as [-> | ->], (F s Hs) as [-> | ->]; cbn; auto. }
    destruct (_ =? 0).
    - injection H as <- <-. exact Hlor.
    - apply (IH _ _ _ _ (or_intror Hlor) H). }
  unfold parse_vlq_int in H. apply obind_ok in H. destruct H as ([t w] & Hr & H).
  assert (Hw : - two63 <= w < two63).
  { assert (Hb : 0 <= Z.land (Z.shiftr b 1) 63 < two63).
    { rewrite land_63. pose proof (Z.mod_pos_bound (Z.shiftr b 1) 64 ltac:(lia)). unfold two63; lia. }
    destruct (_ =? 0).
    - injection Hr as <- <-. unfold two63 in *; lia.
    - apply (Hl _ _ _ _ _ (or_introl Hb) Hr). }
  destruct (negb _).
  - apply obind_ok in H. destruct H as (n & Hn & H). injection H as <- <-.
    unfold neg_i64, ovf_i64 in Hn. cbn [snd] in Hn. destruct (in_i64 (- w)) eqn:E.
    + injection Hn as <-. apply in_i64_true in E. exact E.
    + destruct m; [discriminate|]. injection Hn as <-. apply as_i64_range.
  - injection H as <- <-. exact Hw.
Qed.
