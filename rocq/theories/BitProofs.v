(** * Proofs about the bit-packed primitives *)
From Coq Require Import ZifyBool ZifyNat.
From Verif Require Import Base BitSpec BitPacked VlqProofs.
Ltac Zify.zify_post_hook ::= Z.to_euclidean_division_equations.

Definition flat (bs : list Z) : list bool := flat_map byte_bits bs.

Lemma byte_bits_length : forall b, length (byte_bits b) = 8%nat.
Proof. reflexivity. Qed.

Lemma flat_length : forall bs, length (flat bs) = (8 * length bs)%nat.
Proof.
  induction bs as [|b bs IH]; [reflexivity|].
  unfold flat in *. cbn [flat_map]. rewrite app_length, IH, byte_bits_length. cbn [length]. lia.
Qed.

Lemma flat_cons : forall b bs, flat (b :: bs) = byte_bits b ++ flat bs.
Proof. reflexivity. Qed.

Lemma skipn_flat : forall k bs, skipn (8 * k) (flat bs) = flat (skipn k bs).
Proof.
  induction k as [|k IH]; intros bs; [reflexivity|].
  destruct bs as [|b bs]; [rewrite skipn_nil; reflexivity|].
  replace (8 * S k)%nat with (8 + 8 * k)%nat by lia.
  rewrite flat_cons. cbn [skipn]. rewrite <- IH.
  rewrite skipn_app, byte_bits_length.
  rewrite skipn_all2 by (rewrite byte_bits_length; lia).
  cbn [app]. f_equal. lia.
Qed.

Lemma stream_eq : forall c, stream c = skipn (snd c) (flat (fst c)).
Proof. reflexivity. Qed.

Lemma stream_length : forall c, length (stream c) = (8 * length (fst c) - snd c)%nat.
Proof. intros [bs off]; rewrite stream_eq, skipn_length, flat_length; reflexivity. Qed.

Lemma skipn_skipn' : forall A x y (l : list A), skipn x (skipn y l) = skipn (y + x) l.
Proof.
  intros A x y; revert x; induction y as [|y IH]; intros x l; [reflexivity|].
  destruct l as [|a l]; [rewrite !skipn_nil; reflexivity|]. cbn [skipn Nat.add]. apply IH.
Qed.

Lemma stream_advance : forall c n, stream (advance c n) = skipn n (stream c).
Proof.
  intros [bs off] n; unfold advance; rewrite !stream_eq; cbn [fst snd].
  rewrite <- skipn_flat, !skipn_skipn'. f_equal.
  pose proof (Nat.div_mod (off + n) 8). lia.
Qed.

Lemma advance_0 : forall c, (snd c < 8)%nat -> advance c 0 = c.
Proof.
  intros [bs off] H; unfold advance; cbn [fst snd] in *.
  rewrite Nat.add_0_r, Nat.div_small, Nat.mod_small by assumption. reflexivity.
Qed.

Lemma advance_add : forall c a b, advance (advance c a) b = advance c (a + b).
Proof.
  intros [bs off] a b; unfold advance; cbn [fst snd]. rewrite skipn_skipn'. f_equal.
  - f_equal. lia.
  - lia.
Qed.

Lemma advance_snd : forall c n, snd (advance c n) = ((snd c + n) mod 8)%nat.
Proof. intros [bs off] n; reflexivity. Qed.

Lemma advance_ok : forall c n, cursor_ok c -> (n <= length (stream c))%nat -> cursor_ok (advance c n).
Proof.
  intros [bs off] n (Hb & Ho & Hne) Hn. rewrite stream_length in Hn. unfold cursor_ok, advance; cbn [fst snd] in *.
  split; [|split].
  - unfold bytes_ok in *. rewrite Forall_forall in *. intros x Hx. apply Hb.
    rewrite <- (firstn_skipn ((off + n) / 8) bs). apply in_or_app; right; exact Hx.
  - apply Nat.mod_upper_bound; lia.
  - intros Hm Hs.
    assert (Hl : length (skipn ((off + n) / 8) bs) = 0%nat) by (rewrite Hs; reflexivity).
    rewrite skipn_length in Hl.
    destruct (Nat.eq_dec off 0) as [->|H0]; [|specialize (Hne H0)]; [lia|].
    destruct bs; [congruence|]. cbn [length] in *. lia.
Qed.

Lemma advance_suffix : forall c n, suffix_of (fst (advance c n)) (fst c).
Proof.
  intros [bs off] n; exists (firstn ((off + n) / 8) bs); cbn [advance fst].
  symmetry; apply firstn_skipn.
Qed.

(** ** nom's [take] *)
Lemma nom_take_loop_end : forall bs off rem acc,
  (off < 8)%nat -> (off + rem <= 8 * length bs)%nat -> (0 < rem \/ off = 0)%nat ->
  snd (nom_take_loop bs off rem acc) = ((off + rem) mod 8)%nat.
Proof.
  induction bs as [|b bs IH]; intros off rem acc Ho Hr Hd; cbn [nom_take_loop].
  - cbn [length] in Hr. replace (off + rem)%nat with 0%nat by lia. reflexivity.
  - cbn [length] in Hr. destruct (Nat.eqb_spec rem 0).
    + cbn [snd]. subst. rewrite Nat.mod_small by lia. lia.
    + destruct (Nat.ltb_spec rem (8 - off)); cbn [snd].
      * rewrite Nat.mod_small by lia. lia.
      * rewrite IH by lia. lia.
Qed.

Lemma forallb3 : forall A B C (p : A -> B -> C -> bool) la lb lc,
  forallb (fun a => forallb (fun b => forallb (fun c => p a b c) lc) lb) la = true ->
  forall a b c, In a la -> In b lb -> In c lc -> p a b c = true.
Proof.
  intros A B C p la lb lc H a b c Ha Hb Hc.
  rewrite forallb_forall in H. specialize (H a Ha).
  rewrite forallb_forall in H. specialize (H b Hb).
  rewrite forallb_forall in H. exact (H c Hc).
Qed.

(** Finite sweep over all bytes, start offsets and counts. *)
Definition take_check (b o n : nat) : bool :=
  (Nat.ltb 8 (o + n) || Nat.eqb n 0)%bool
  || (fst (nom_take_loop [Z.of_nat b] (8 - o - n) n 0)
      =? lsb_value (firstn n (skipn o (byte_bits (Z.of_nat b)))))%Z.
Lemma sweep_take_true :
  forallb (fun b => forallb (fun o => forallb (fun n => take_check b o n) (seq 0 9)) (seq 0 8)) (seq 0 256) = true.
Proof. vm_compute. reflexivity. Qed.
Lemma take_check_true : forall b o n, (b < 256)%nat -> (o < 8)%nat -> (n < 9)%nat -> take_check b o n = true.
Proof.
  intros b o n Hb Ho Hn. apply (forallb3 _ _ _ take_check _ _ _ sweep_take_true); apply in_seq; lia.
Qed.

Lemma nom_take_loop_byte : forall b o n bs, byte_ok b -> (o + n <= 8)%nat -> (0 < n)%nat -> (o < 8)%nat ->
  fst (nom_take_loop (b :: bs) (8 - o - n) n 0) = lsb_value (firstn n (skipn o (byte_bits b))).
Proof.
  intros b o n bs Hb Hon Hn Ho.
  assert (E : fst (nom_take_loop (b :: bs) (8 - o - n) n 0) = fst (nom_take_loop [b] (8 - o - n) n 0)).
  { cbn [nom_take_loop]. destruct (Nat.eqb_spec n 0); [lia|].
    destruct (Nat.ltb_spec n (8 - (8 - o - n))); [reflexivity|].
    replace (n - (8 - (8 - o - n)))%nat with 0%nat by lia.
    destruct bs; reflexivity. }
  rewrite E. unfold byte_ok in Hb.
  pose proof (take_check_true (Z.to_nat b) o n ltac:(lia) Ho ltac:(lia)) as S.
  unfold take_check in S. rewrite Z2Nat.id in S by lia.
  destruct (Nat.ltb_spec 8 (o + n)); [lia|]. destruct (Nat.eqb_spec n 0); [lia|].
  cbn [orb] in S. apply Z.eqb_eq in S. exact S.
Qed.

Lemma firstn_length_ge : forall A n (l : list A), (n <= length l)%nat -> length (firstn n l) = n.
Proof. intros; apply firstn_length_le; assumption. Qed.

(** Position part of [take]: any count, any valid offset. *)
Lemma nom_take_pos : forall count bs off, (off < 8)%nat -> (count + off <= 8 * length bs)%nat ->
  exists v, nom_take count (bs, off) = Ok (advance (bs, off) count, v).
Proof.
  intros count bs off Ho Hl. unfold nom_take.
  destruct (Nat.eqb_spec count 0) as [->|Hc].
  - exists 0. rewrite advance_0 by assumption. reflexivity.
  - destruct (Nat.ltb_spec (length bs * 8) (count + off)); [lia|].
    destruct (nom_take_loop (firstn (S ((count + off) / 8)) bs) off count 0) as [acc e] eqn:E.
    exists acc. unfold advance; cbn [fst snd]. rewrite (Nat.add_comm off count). repeat f_equal.
    change e with (snd (acc, e)). rewrite <- E. rewrite nom_take_loop_end; [rewrite (Nat.add_comm off count); reflexivity|assumption| |lia].
    rewrite firstn_length. lia.
Qed.

Lemma nom_take_short : forall count bs off, (count <> 0)%nat -> (8 * length bs < count + off)%nat ->
  nom_take count (bs, off) = Err ENom.
Proof.
  intros count bs off Hc Hl. unfold nom_take.
  destruct (Nat.eqb_spec count 0); [lia|].
  destruct (Nat.ltb_spec (length bs * 8) (count + off)); [reflexivity|lia].
Qed.

Lemma nom_take_byte : forall b bs o n, byte_ok b -> (o + n <= 8)%nat -> (o < 8)%nat ->
  exists c, nom_take n (b :: bs, (8 - o - n)%nat) = Ok (c, lsb_value (firstn n (skipn o (byte_bits b)))).
Proof.
  intros b bs o n Hb Hon Ho. unfold nom_take. destruct (Nat.eqb_spec n 0) as [->|Hn].
  - eexists. rewrite firstn_O. reflexivity.
  - destruct (Nat.ltb_spec (length (b :: bs) * 8) (n + (8 - o - n))); [cbn [length] in *; lia|].
    set (k := ((n + (8 - o - n)) / 8)%nat).
    destruct (nom_take_loop (firstn (S k) (b :: bs)) (8 - o - n) n 0) as [acc e] eqn:E.
    exists (skipn k (b :: bs), e).
    assert (Ha : acc = lsb_value (firstn n (skipn o (byte_bits b)))).
    { change acc with (fst (acc, e)). rewrite <- E. cbn [firstn].
      apply nom_take_loop_byte; lia || assumption. }
    rewrite Ha. reflexivity.
Qed.

(** ** little-endian groups *)
Lemma lsb_value_bound : forall l, 0 <= lsb_value l < 2 ^ Z.of_nat (length l).
Proof.
  induction l as [|b l IH]; [cbn; lia|].
  cbn [lsb_value length]. rewrite Nat2Z.inj_succ, Z.pow_succ_r by lia. destruct b; cbn [b2z]; lia.
Qed.

Lemma be_value_fuel_more : forall f1 f2 off bits, (length bits <= f1)%nat -> (length bits <= f2)%nat ->
  (off < 8)%nat -> be_value_fuel f1 off bits = be_value_fuel f2 off bits.
Proof.
  induction f1 as [|f1 IH]; intros f2 off bits H1 H2 Ho.
  - destruct bits; [|cbn in H1; lia]. destruct f2; reflexivity.
  - destruct bits as [|b bits]; [destruct f2; reflexivity|].
    destruct f2 as [|f2]; [cbn in H2; lia|].
    cbn [be_value_fuel]. f_equal. apply IH; rewrite ?skipn_length; cbn [length] in *; lia.
Qed.

Lemma be_value_nil : forall off, be_value off [] = 0.
Proof. reflexivity. Qed.

(** Unfolding lemma: one chunk at a time. *)
Lemma be_value_step : forall off bits, (off < 8)%nat ->
  let c := Nat.min (length bits) (8 - off) in
  be_value off bits =
  lsb_value (firstn c bits) * 2 ^ Z.of_nat (length bits - c) + be_value 0 (skipn c bits).
Proof.
  intros off bits Ho c. destruct bits as [|b bits].
  - subst c. cbn. reflexivity.
  - unfold be_value at 1. cbn [length be_value_fuel]. fold c. f_equal.
    unfold be_value. apply be_value_fuel_more; subst c; rewrite ?skipn_length; cbn [length]; lia.
Qed.

Lemma be_value_one_chunk : forall off bits, (off + length bits <= 8)%nat -> (off < 8)%nat ->
  be_value off bits = lsb_value bits.
Proof.
  intros off bits H Ho. rewrite be_value_step by assumption.
  rewrite Nat.min_l by lia. rewrite firstn_all, skipn_all, Nat.sub_diag, be_value_nil. cbn. lia.
Qed.

(** Peeling any first chunk that ends on a byte boundary or anywhere before. *)
Lemma be_value_bound : forall bits off, (off < 8)%nat -> 0 <= be_value off bits < 2 ^ Z.of_nat (length bits).
Proof.
  intros bits; remember (length bits) as n eqn:En; revert bits En.
  induction n as [n IH] using lt_wf_ind; intros bits -> off Ho.
  rewrite be_value_step by assumption. set (c := Nat.min (length bits) (8 - off)).
  destruct (Nat.eq_dec (length bits) 0) as [E|E].
  - destruct bits; [cbn; lia | discriminate].
  - pose proof (lsb_value_bound (firstn c bits)) as Hl. rewrite firstn_length_ge in Hl by lia.
    assert (Hs : length (skipn c bits) = (length bits - c)%nat) by apply skipn_length.
    pose proof (IH (length bits - c)%nat ltac:(lia) (skipn c bits) ltac:(lia) 0%nat ltac:(lia)) as Hb.
    replace (Z.of_nat (length bits)) with (Z.of_nat c + Z.of_nat (length bits - c)) by lia.
    rewrite Z.pow_add_r by lia.
    set (P := 2 ^ Z.of_nat (length bits - c)) in *. set (Q := 2 ^ Z.of_nat c) in *. nia.
Qed.

Lemma firstn_skipn_comm' : forall A n m (l : list A), firstn n (skipn m l) = skipn m (firstn (m + n) l).
Proof. intros; symmetry; rewrite skipn_firstn_comm. f_equal; lia. Qed.

Lemma lsb_value_shift : forall n v, 0 <= v -> as_u8 (Z.shiftl v n) = (v * 2 ^ n) mod 256 \/ n < 0.
Proof. intros n v Hv. destruct (Z.ltb_spec n 0); [right; lia | left]. rewrite Z.shiftl_mul_pow2 by lia. reflexivity. Qed.

(** ** [rtake_n_bits] *)
Lemma rtake_n_bits_spec : forall c count, cursor_ok c -> (count <= 8)%nat ->
  rtake_n_bits c count =
  if Nat.ltb (length (stream c)) count then Err ENom
  else Ok (be_value (snd c) (firstn count (stream c))).
Proof.
  intros [bs off] count (Hb & Ho & Hne) Hc. rewrite stream_length. cbn [fst snd] in *.
  unfold rtake_n_bits. destruct (Nat.ltb_spec 8 (off + count)) as [Hx|Hx].
  - assert (bs <> []) as Hn by (apply Hne; lia).
    destruct bs as [|b0 bs]; [congruence|]. clear Hne Hn.
    apply bytes_ok_cons in Hb. destruct Hb as [Hb0 Hb].
    destruct (nom_take_byte b0 bs off (8 - off) Hb0 ltac:(lia) ltac:(lia)) as [c0 E0].
    replace (8 - off - (8 - off))%nat with 0%nat in E0 by lia. rewrite E0. cbn [obind].
    destruct (nom_take_pos 8 (b0 :: bs) 0 ltac:(lia) ltac:(cbn [length]; lia)) as [v1 E1].
    rewrite E1. cbn [obind]. unfold advance. cbn [fst snd].
    change (Nat.div (0 + 8) 8) with 1%nat. cbn [skipn].
    set (k := (count - (8 - off))%nat).
    destruct bs as [|b1 bs].
    + rewrite nom_take_short by (cbn [length]; lia). cbn [obind length].
      destruct (Nat.ltb_spec (8 * 1 - off) count); [reflexivity|lia].
    + apply bytes_ok_cons in Hb. destruct Hb as [Hb1 Hb].
      destruct (nom_take_byte b1 bs 0 k Hb1 ltac:(lia) ltac:(lia)) as [c1 E2].
      replace (8 - 0 - k)%nat with (8 - k)%nat in E2 by lia. rewrite E2. cbn [obind length].
      destruct (Nat.ltb_spec (8 * S (S (length bs)) - off) count); [lia|]. f_equal.
      rewrite stream_eq. cbn [fst snd]. rewrite !flat_cons.
      rewrite skipn_app, byte_bits_length.
      replace (off - 8)%nat with 0%nat by lia. rewrite !skipn_O.
      rewrite firstn_app, skipn_length, byte_bits_length. fold k.
      assert (L0 : length (skipn off (byte_bits b0)) = (8 - off)%nat) by apply skipn_length.
      rewrite !firstn_all2 with (l := skipn off (byte_bits b0)) by lia.
      rewrite firstn_app, byte_bits_length. replace (k - 8)%nat with 0%nat by lia. rewrite firstn_O, app_nil_r.
      set (x := skipn off (byte_bits b0)) in *. set (y := firstn k (byte_bits b1)).
      assert (Ly : length y = k) by (apply firstn_length_ge; rewrite byte_bits_length; lia).
      rewrite be_value_step by lia. rewrite app_length, L0, Ly.
      rewrite Nat.min_r by lia. replace (8 - off + k - (8 - off))%nat with k by lia.
      rewrite firstn_app, L0, Nat.sub_diag, firstn_O, app_nil_r.
      rewrite firstn_all2 by lia. rewrite skipn_app, L0, Nat.sub_diag, skipn_O.
      rewrite skipn_all2 by lia. cbn [app].
      rewrite be_value_one_chunk by lia.
      pose proof (lsb_value_bound x) as Bx. rewrite L0 in Bx.
      unfold as_u8. rewrite Z.shiftl_mul_pow2 by lia. rewrite Z.mod_small; [reflexivity|].
      split; [apply Z.mul_nonneg_nonneg; [lia | apply Z.pow_nonneg; lia]|].
      apply Z.lt_le_trans with (2 ^ Z.of_nat (8 - off) * 2 ^ Z.of_nat k).
      * apply Z.mul_lt_mono_pos_r; [apply Z.pow_pos_nonneg; lia | lia].
      * rewrite <- Z.pow_add_r by lia. change 256 with (2 ^ 8). apply Z.pow_le_mono_r; lia.
  - destruct (Nat.eq_dec count 0) as [->|Hc0].
    { unfold nom_take. cbn [Nat.eqb obind Nat.ltb Nat.leb]. rewrite firstn_O, be_value_nil. reflexivity. }
    destruct bs as [|b bs].
    { rewrite nom_take_short by (cbn [length]; lia). cbn [obind length].
      destruct (Nat.ltb_spec (8 * 0 - off) count); [reflexivity|lia]. }
    apply bytes_ok_cons in Hb. destruct Hb as [Hb0 Hb].
    destruct (nom_take_byte b bs off count Hb0 ltac:(lia) ltac:(lia)) as [c0 E0].
    rewrite E0. cbn [obind length].
    destruct (Nat.ltb_spec (8 * S (length bs) - off) count); [lia|]. f_equal.
    rewrite stream_eq. cbn [fst snd]. rewrite flat_cons, skipn_app, byte_bits_length.
    replace (off - 8)%nat with 0%nat by lia. rewrite skipn_O, firstn_app, skipn_length, byte_bits_length.
    replace (count - (8 - off))%nat with 0%nat by lia. rewrite firstn_O, app_nil_r.
    symmetry. apply be_value_one_chunk; [|lia].
    rewrite firstn_length, skipn_length, byte_bits_length. lia.
Qed.

Lemma nom_take_spec : forall c count, cursor_ok c ->
  (Nat.ltb (length (stream c)) count = true -> nom_take count c = Err ENom) /\
  (Nat.ltb (length (stream c)) count = false -> exists v, nom_take count c = Ok (advance c count, v)).
Proof.
  intros [bs off] count (Hb & Ho & Hne). rewrite stream_length. cbn [fst snd] in *. split; intros H.
  - apply Nat.ltb_lt in H. apply nom_take_short; lia.
  - apply Nat.ltb_ge in H. destruct (Nat.eq_dec count 0) as [->|Hc].
    + exists 0. unfold nom_take. cbn [Nat.eqb]. rewrite advance_0 by assumption. reflexivity.
    + apply nom_take_pos; [assumption|].
      destruct (Nat.eq_dec off 0); [lia|]. lia.
Qed.

(** ** two's complement and bitwise or *)
Lemma as_i64_bits_low : forall z i, 0 <= i < 64 -> Z.testbit (as_i64 z) i = Z.testbit z i.
Proof.
  intros z i Hi. destruct (as_i64_mod z) as [k ->].
  rewrite <- (Z.mod_pow2_bits_low (z + k * two64) 64 i) by lia.
  rewrite <- (Z.mod_pow2_bits_low z 64 i) by lia.
  f_equal. change two64 with (2 ^ 64). apply Z.mod_add. lia.
Qed.

Lemma i64_bits_high : forall v i, - two63 <= v < two63 -> 63 <= i -> Z.testbit v i = (v <? 0).
Proof.
  intros v i Hv Hi.
  assert (Hp : two63 <= 2 ^ i) by (change two63 with (2 ^ 63); apply Z.pow_le_mono_r; lia).
  rewrite Z.testbit_odd, Z.shiftr_div_pow2 by lia.
  destruct (Z.ltb_spec v 0).
  - replace (v / 2 ^ i) with (-1); [reflexivity|].
    apply Z.div_unique with (v + 2 ^ i); [left; lia | lia].
  - rewrite Z.div_small by lia. reflexivity.
Qed.

Lemma as_i64_lor : forall x y, Z.lor (as_i64 x) (as_i64 y) = as_i64 (Z.lor x y).
Proof.
  intros x y. apply Z.bits_inj'. intros i Hi. rewrite Z.lor_spec.
  destruct (Z.ltb_spec i 64).
  - rewrite !as_i64_bits_low by lia. rewrite Z.lor_spec. reflexivity.
  - rewrite !(i64_bits_high (as_i64 _) i) by (try apply as_i64_range; lia).
    rewrite <- !(i64_bits_high (as_i64 _) 63) by (try apply as_i64_range; lia).
    rewrite !as_i64_bits_low by lia. rewrite Z.lor_spec. reflexivity.
Qed.

Lemma be_value_app_aligned : forall off bits c, (off < 8)%nat -> c = (8 - off)%nat -> (c <= length bits)%nat ->
  be_value off bits =
  be_value off (firstn c bits) * 2 ^ Z.of_nat (length bits - c) + be_value 0 (skipn c bits).
Proof.
  intros off bits c Ho -> Hc. rewrite be_value_step by assumption. rewrite Nat.min_r by lia.
  rewrite (be_value_one_chunk off (firstn (8 - off) bits)); [reflexivity | rewrite firstn_length; lia | assumption].
Qed.

(** ** [take_n_bits_into_i64] *)
Lemma take_n_bits_loop_spec : forall f c rem H, cursor_ok c -> (rem < f)%nat ->
  0 <= H ->
  take_n_bits_loop f c rem (as_i64 (H * 2 ^ Z.of_nat rem)) =
  if Nat.ltb (length (stream c)) rem then Err ENom
  else Ok (advance c rem, as_i64 (H * 2 ^ Z.of_nat rem + be_value (snd c) (firstn rem (stream c)))).
Proof.
  induction f as [|f IH]; intros c rem H Hc Hf HH; [lia|].
  cbn [take_n_bits_loop].
  set (count := if Nat.ltb 8 rem then if Nat.eqb (snd c) 0 then 8%nat else (8 - snd c)%nat else rem).
  assert (Ho : (snd c < 8)%nat) by apply Hc.
  assert (Hcount : (count <= 8)%nat /\ (count <= rem)%nat /\
                   (count = rem \/ (count = 8 - snd c /\ 0 < count < rem)%nat)).
  { subst count. destruct (Nat.ltb_spec 8 rem); [destruct (Nat.eqb_spec (snd c) 0)|]; lia. }
  clearbody count. destruct Hcount as (H8 & Hr & Hcase).
  rewrite rtake_n_bits_spec by assumption.
  destruct (nom_take_spec c count Hc) as [Nshort Nok].
  destruct (Nat.ltb_spec (length (stream c)) count) as [Hs|Hs].
  { cbn [obind]. destruct (Nat.ltb_spec (length (stream c)) rem); [reflexivity|lia]. }
  cbn [obind]. destruct (Nok ltac:(destruct (Nat.ltb_spec (length (stream c)) count); [lia|reflexivity])) as [v Ev].
  rewrite Ev. cbn [obind].
  set (b := be_value (snd c) (firstn count (stream c))).
  pose proof (be_value_bound (firstn count (stream c)) (snd c) Ho) as Hb. fold b in Hb.
  rewrite firstn_length_ge in Hb by lia.
  rewrite as_i64_lor, Z.shiftl_mul_pow2 by lia.
  assert (EP : 2 ^ Z.of_nat rem = 2 ^ Z.of_nat count * 2 ^ Z.of_nat (rem - count)).
  { rewrite <- Z.pow_add_r by lia. f_equal. lia. }
  assert (EL : Z.lor (H * 2 ^ Z.of_nat rem) (b * 2 ^ Z.of_nat (rem - count)) =
               (H * 2 ^ Z.of_nat count + b) * 2 ^ Z.of_nat (rem - count)).
  { rewrite Z.lor_comm, lor_disjoint; [rewrite EP; ring | lia |].
    rewrite EP. split; [apply Z.mul_nonneg_nonneg; [lia|apply Z.pow_nonneg; lia]|].
    apply Z.mul_lt_mono_pos_r; [apply Z.pow_pos_nonneg; lia | lia]. }
  rewrite EL.
  destruct (Nat.eqb_spec (rem - count) 0) as [E|E].
  - assert (count = rem) by lia. subst count.
    destruct (Nat.ltb_spec (length (stream c)) rem); [lia|].
    rewrite Nat.sub_diag. cbn [Z.of_nat]. rewrite Z.pow_0_r, Z.mul_1_r. reflexivity.
  - destruct Hcase as [->|[Hal Hlt]]; [lia|].
    rewrite IH; [|apply advance_ok; [assumption|lia] | lia |].
    2:{ apply Z.add_nonneg_nonneg; [|lia]. apply Z.mul_nonneg_nonneg; [lia|apply Z.pow_nonneg; lia]. }
    rewrite stream_advance, skipn_length, advance_add, advance_snd.
    replace (count + (rem - count))%nat with rem by lia.
    destruct (Nat.ltb_spec (length (stream c)) rem);
      destruct (Nat.ltb_spec (length (stream c) - count) (rem - count)); try lia; [reflexivity|].
    do 2 f_equal. f_equal.
    replace ((snd c + count) mod 8)%nat with 0%nat.
    2:{ replace (snd c + count)%nat with 8%nat by lia. reflexivity. }
    rewrite (be_value_app_aligned (snd c) (firstn rem (stream c)) count); [|assumption|lia|rewrite firstn_length; lia].
    rewrite firstn_length_ge by lia. rewrite firstn_firstn, Nat.min_l by lia. fold b.
    rewrite firstn_skipn_comm'. replace (count + (rem - count))%nat with rem by lia.
    rewrite EP. ring.
Qed.

Lemma take_n_bits_spec : forall c n, cursor_ok c -> (n <= 64)%nat ->
  take_n_bits_into_i64 c n =
  if Nat.ltb (length (stream c)) n then Err ENom
  else Ok (advance c n, as_i64 (be_value (snd c) (firstn n (stream c)))).
Proof.
  intros c n Hc Hn. unfold take_n_bits_into_i64.
  destruct (Nat.ltb_spec 64 n); [lia|].
  change 0 with (as_i64 (0 * 2 ^ Z.of_nat n)) at 1. rewrite take_n_bits_loop_spec by (assumption || lia).
  rewrite Z.mul_0_l, Z.add_0_l. reflexivity.
Qed.

(** ** [take_bit_array] *)
Lemma be_bytes_fuel_more : forall f1 f2 off bits, (length bits <= f1)%nat -> (length bits <= f2)%nat ->
  be_bytes_fuel f1 off bits = be_bytes_fuel f2 off bits.
Proof.
  induction f1 as [|f1 IH]; intros f2 off bits H1 H2.
  - destruct bits; [|cbn in H1; lia]. destruct f2; reflexivity.
  - destruct bits as [|b bits]; [destruct f2; reflexivity|].
    destruct f2 as [|f2]; [cbn in H2; lia|].
    cbn [be_bytes_fuel]. f_equal. apply IH; rewrite ?skipn_length; cbn [length] in *; lia.
Qed.

Lemma be_bytes_step : forall off bits, bits <> [] ->
  be_bytes off bits = be_value off (firstn 8 bits) :: be_bytes off (skipn 8 bits).
Proof.
  intros off [|b bits] H; [congruence|]. unfold be_bytes at 1. cbn [length be_bytes_fuel]. f_equal.
  unfold be_bytes. apply be_bytes_fuel_more; rewrite ?skipn_length; cbn [length]; lia.
Qed.

Lemma be_bytes_length : forall bits off, length (be_bytes off bits) = ((length bits + 7) / 8)%nat.
Proof.
  intros bits; remember (length bits) as n eqn:En; revert bits En.
  induction n as [n IH] using lt_wf_ind; intros bits -> off.
  destruct bits as [|b bits]; [reflexivity|].
  rewrite be_bytes_step by discriminate. set (l := b :: bits) in *. cbn [length].
  assert (Hl : (0 < length l)%nat) by (subst l; cbn; lia).
  rewrite (IH (length (skipn 8 l))); [rewrite skipn_length; lia | rewrite skipn_length; lia | reflexivity].
Qed.

Lemma be_bytes_ok : forall bits off, (off < 8)%nat -> bytes_ok (be_bytes off bits).
Proof.
  intros bits; remember (length bits) as n eqn:En; revert bits En.
  induction n as [n IH] using lt_wf_ind; intros bits -> off Ho.
  destruct bits as [|b bits]; [constructor|].
  rewrite be_bytes_step by discriminate. set (l := b :: bits) in *.
  assert (Hl : (0 < length l)%nat) by (subst l; cbn; lia).
  apply bytes_ok_cons. split.
  - pose proof (be_value_bound (firstn 8 l) off Ho) as B. unfold byte_ok.
    assert (2 ^ Z.of_nat (length (firstn 8 l)) <= 2 ^ 8).
    { apply Z.pow_le_mono_r; rewrite ?firstn_length; lia. }
    change (2 ^ 8) with 256 in *. lia.
  - apply (IH (length (skipn 8 l))); [rewrite skipn_length; lia | reflexivity | assumption].
Qed.

Lemma take_bit_array_loop_spec : forall f c (n : Z), cursor_ok c -> 0 < n ->
  (length (stream c) < 8 * f)%nat ->
  take_bit_array_loop f c n =
  if Z.of_nat (length (stream c)) <? n then Err ENom
  else Ok (advance c (Z.to_nat n), be_bytes (snd c) (firstn (Z.to_nat n) (stream c))).
Proof.
  induction f as [|f IH]; intros c n Hc Hn Hf; [lia|].
  cbn [take_bit_array_loop].
  set (count := Z.to_nat (if 8 <? n then 8 else n)).
  assert (Ho : (snd c < 8)%nat) by apply Hc.
  assert (Hcount : (0 < count <= 8)%nat /\ Z.of_nat count <= n /\
                   (Z.of_nat count = n \/ (count = 8%nat /\ 8 < n))).
  { subst count. destruct (Z.ltb_spec 8 n); lia. }
  clearbody count. destruct Hcount as (H8 & Hr & Hcase).
  rewrite rtake_n_bits_spec by (assumption || lia).
  destruct (nom_take_spec c count Hc) as [Nshort Nok].
  destruct (Nat.ltb_spec (length (stream c)) count) as [Hs|Hs].
  { cbn [obind]. destruct (Z.ltb_spec (Z.of_nat (length (stream c))) n); [reflexivity|lia]. }
  cbn [obind]. destruct (Nok ltac:(destruct (Nat.ltb_spec (length (stream c)) count); [lia|reflexivity])) as [v Ev].
  rewrite Ev. cbn [obind].
  assert (Hne : forall k, (0 < k)%nat -> firstn k (stream c) <> []).
  { intros k Hk E. assert (E' : length (firstn k (stream c)) = 0%nat) by (rewrite E; reflexivity).
    rewrite firstn_length in E'. lia. }
  destruct (Z.eqb_spec (n - Z.of_nat count) 0) as [E|E].
  - destruct (Z.ltb_spec (Z.of_nat (length (stream c))) n); [lia|].
    replace (Z.to_nat n) with count by lia.
    rewrite be_bytes_step by (apply Hne; lia).
    rewrite firstn_firstn, Nat.min_r by lia.
    rewrite (skipn_all2 (firstn count (stream c))) by (rewrite firstn_length; lia). reflexivity.
  - destruct Hcase as [?|[-> H9]]; [lia|].
    rewrite IH; [|apply advance_ok; [assumption|lia] | lia | rewrite stream_advance, skipn_length; lia].
    rewrite stream_advance, skipn_length, advance_add, advance_snd.
    destruct (Z.ltb_spec (Z.of_nat (length (stream c))) n);
      destruct (Z.ltb_spec (Z.of_nat (length (stream c) - 8)) (n - Z.of_nat 8)); try lia; [reflexivity|].
    cbn [obind]. replace (8 + Z.to_nat (n - Z.of_nat 8))%nat with (Z.to_nat n) by lia.
    do 2 f_equal. rewrite be_bytes_step with (bits := firstn (Z.to_nat n) (stream c)) by (apply Hne; lia).
    rewrite firstn_firstn, Nat.min_l by lia.
    replace ((snd c + 8) mod 8)%nat with (snd c).
    2:{ lia. }
    rewrite firstn_skipn_comm'.
    replace (8 + Z.to_nat (n - Z.of_nat 8))%nat with (Z.to_nat n) by lia. reflexivity.
Qed.

Lemma take_bit_array_spec : forall c n, cursor_ok c -> 0 < n ->
  take_bit_array c n =
  if Z.of_nat (length (stream c)) <? n then Err ENom
  else Ok (advance c (Z.to_nat n), be_bytes (snd c) (firstn (Z.to_nat n) (stream c))).
Proof.
  intros c n Hc Hn. unfold take_bit_array. apply take_bit_array_loop_spec; [assumption|assumption|].
  rewrite stream_length. lia.
Qed.

Lemma take_bit_array_0 : forall c, cursor_ok c -> take_bit_array c 0 = Ok (c, [0]).
Proof.
  intros c Hc. unfold take_bit_array. cbn [take_bit_array_loop]. change (Z.to_nat (if 8 <? 0 then 8 else 0)) with 0%nat.
  rewrite rtake_n_bits_spec by (assumption || lia). cbn [Nat.ltb Nat.leb obind].
  destruct c as [bs off]. unfold nom_take. cbn [Nat.eqb obind]. reflexivity.
Qed.

(** ** the other primitives *)
Lemma byte_align_spec : forall c, cursor_ok c ->
  byte_align c = Ok (advance c ((8 - snd c) mod 8)).
Proof.
  intros c Hc. unfold byte_align. destruct (Nat.eqb_spec (snd c) 0) as [E|E].
  - rewrite E. change (Nat.modulo (8 - 0) 8) with 0%nat. rewrite advance_0 by lia. reflexivity.
  - destruct (nom_take_spec c (8 - snd c) Hc) as [_ Nok].
    destruct Hc as (_ & Ho & Hne). specialize (Hne E).
    destruct Nok as [v ->].
    { rewrite stream_length. destruct (fst c) eqn:Ef; [congruence|]. cbn [length].
      destruct (Nat.ltb_spec (8 * S (length l) - snd c) (8 - snd c)); [lia|reflexivity]. }
    cbn [obind]. rewrite Nat.mod_small by lia. reflexivity.
Qed.

Lemma take_unaligned_byte_spec : forall c, cursor_ok c ->
  take_unaligned_byte c =
  if Nat.ltb (length (stream c)) 8 then Err ENom
  else Ok (advance c 8, be_value (snd c) (firstn 8 (stream c))).
Proof.
  intros c Hc. unfold take_unaligned_byte. rewrite take_bit_array_spec by (assumption || lia).
  change (Z.to_nat 8) with 8%nat.
  destruct (Nat.ltb_spec (length (stream c)) 8); destruct (Z.ltb_spec (Z.of_nat (length (stream c))) 8); try lia; [reflexivity|].
  cbn [obind]. rewrite be_bytes_step.
  - rewrite firstn_firstn. reflexivity.
  - intros E. assert (E' : length (firstn 8 (stream c)) = 0%nat) by (rewrite E; reflexivity).
    rewrite firstn_length in E'. lia.
Qed.

Lemma take_fourcc_spec : forall c, cursor_ok c ->
  take_fourcc c =
  if Nat.ltb (length (stream c)) 32 then Err ENom
  else Ok (advance c 32, be_bytes (snd c) (firstn 32 (stream c))).
Proof.
  intros c Hc. unfold take_fourcc. change (4 * 8) with 32. rewrite take_bit_array_spec by (assumption || lia).
  change (Z.to_nat 32) with 32%nat.
  destruct (Nat.ltb_spec (length (stream c)) 32); destruct (Z.ltb_spec (Z.of_nat (length (stream c))) 32); try lia; reflexivity.
Qed.

Lemma parse_bool_spec : forall c, cursor_ok c ->
  parse_bool c = match stream c with [] => Err ENom | b :: _ => Ok (advance c 1, b) end.
Proof.
  intros c Hc. unfold parse_bool. rewrite rtake_n_bits_spec by (assumption || lia).
  destruct (nom_take_spec c 1 Hc) as [_ Nok].
  destruct (stream c) as [|b s] eqn:E; [reflexivity|].
  cbn [length Nat.ltb Nat.leb] in *. destruct (Nok eq_refl) as [v ->]. cbn [obind firstn].
  rewrite be_value_one_chunk by (cbn [length]; destruct Hc as (_ & ? & _); lia).
  destruct b; reflexivity.
Qed.

(** ** encoders *)
Lemma lsb_bits_length : forall n v, length (lsb_bits n v) = n.
Proof. induction n as [|n IH]; intros v; cbn [lsb_bits length]; [reflexivity|rewrite IH; reflexivity]. Qed.

Lemma lsb_bits_value : forall n v, lsb_value (lsb_bits n v) = v mod 2 ^ Z.of_nat n.
Proof.
  induction n as [|n IH]; intros v; cbn [lsb_bits lsb_value].
  - change (2 ^ Z.of_nat 0) with 1. rewrite Z.mod_1_r. reflexivity.
  - rewrite IH, Nat2Z.inj_succ, Z.pow_succ_r by lia.
    assert (0 < 2 ^ Z.of_nat n) by (apply Z.pow_pos_nonneg; lia).
    rewrite Z.rem_mul_r by lia. rewrite Zmod_odd. destruct (Z.odd v); reflexivity.
Qed.

Lemma be_bits_fuel_more : forall f1 f2 off n v, (n <= f1)%nat -> (n <= f2)%nat -> (off < 8)%nat ->
  be_bits_fuel f1 off n v = be_bits_fuel f2 off n v.
Proof.
  induction f1 as [|f1 IH]; intros f2 off n v H1 H2 Ho.
  - replace n with 0%nat by lia. destruct f2; reflexivity.
  - destruct n as [|n]; [destruct f2; reflexivity|].
    destruct f2 as [|f2]; [lia|]. cbn [be_bits_fuel]. f_equal. apply IH; lia.
Qed.

Lemma be_bits_step : forall off n v, (off < 8)%nat ->
  let c := Nat.min n (8 - off) in
  be_bits off n v = lsb_bits c (v / 2 ^ Z.of_nat (n - c)) ++ be_bits 0 (n - c) v.
Proof.
  intros off n v Ho c. destruct n as [|n]; [reflexivity|].
  unfold be_bits at 1. cbn [be_bits_fuel]. fold c. f_equal. unfold be_bits.
  apply be_bits_fuel_more; lia.
Qed.

Lemma be_bits_length : forall n off v, (off < 8)%nat -> length (be_bits off n v) = n.
Proof.
  induction n as [n IH] using lt_wf_ind; intros off v Ho.
  destruct (Nat.eq_dec n 0) as [->|Hn]; [reflexivity|].
  rewrite be_bits_step by assumption. rewrite app_length, lsb_bits_length, IH; lia.
Qed.

Lemma be_bits_value : forall n off v, (off < 8)%nat -> be_value off (be_bits off n v) = v mod 2 ^ Z.of_nat n.
Proof.
  induction n as [n IH] using lt_wf_ind; intros off v Ho.
  destruct (Nat.eq_dec n 0) as [->|Hn].
  { change (2 ^ Z.of_nat 0) with 1. rewrite Z.mod_1_r. reflexivity. }
  rewrite be_value_step by assumption. rewrite be_bits_length by assumption.
  set (c := Nat.min n (8 - off)). rewrite be_bits_step by assumption. fold c.
  rewrite firstn_app, skipn_app, lsb_bits_length, Nat.sub_diag.
  rewrite firstn_O, app_nil_r, skipn_O.
  rewrite firstn_all2 by (rewrite lsb_bits_length; lia).
  rewrite skipn_all2 by (rewrite lsb_bits_length; lia). cbn [app].
  rewrite lsb_bits_value, IH by lia.
  replace (Z.of_nat n) with (Z.of_nat (n - c) + Z.of_nat c) by lia.
  rewrite Z.pow_add_r by lia.
  rewrite Z.rem_mul_r by (apply Z.pow_nonzero || apply Z.pow_pos_nonneg; lia).
  replace (Z.of_nat (n - c) + Z.of_nat c - Z.of_nat c) with (Z.of_nat (n - c)) by lia. ring.
Qed.
