From Verif Require Import Base Tags.

Lemma unit_tag_index_eq : forall t, unit_tag_index t = (t / 2 ^ 18) mod 2 ^ 14.
Proof.
  intros t. unfold unit_tag_index. change 0x3fff with (Z.ones 14). rewrite Z.land_ones, Z.shiftr_div_pow2 by lia.
  apply Z.mod_small. pose proof (Z.mod_pos_bound (t / 2 ^ 18) (2 ^ 14)). unfold two32. lia.
Qed.
Lemma unit_tag_recycle_eq : forall t, unit_tag_recycle t = t mod 2 ^ 18.
Proof.
  intros t. unfold unit_tag_recycle. change 0x3ffff with (Z.ones 18). rewrite Z.land_ones by lia.
  apply Z.mod_small. pose proof (Z.mod_pos_bound t (2 ^ 18)). unfold two32. lia.
Qed.
Lemma unit_tag_eq : forall i r, unit_tag i r = i * 2 ^ 18 + r.
Proof. intros i r. unfold unit_tag. rewrite Z.shiftl_mul_pow2 by lia. reflexivity. Qed.

Lemma tag_split : forall i r, 0 <= i < 2 ^ 14 -> 0 <= r < 2 ^ 18 ->
  unit_tag_index (unit_tag i r) = i /\ unit_tag_recycle (unit_tag i r) = r /\ 0 <= unit_tag i r < two32.
Proof.
  intros i r Hi Hr. rewrite unit_tag_index_eq, unit_tag_recycle_eq, unit_tag_eq.
  change (2 ^ 14) with 16384 in *. change (2 ^ 18) with 262144 in *. unfold two32. repeat split; dlia.
Qed.
Lemma tag_join : forall t, 0 <= t < two32 ->
  unit_tag (unit_tag_index t) (unit_tag_recycle t) = t /\
  0 <= unit_tag_index t < 2 ^ 14 /\ 0 <= unit_tag_recycle t < 2 ^ 18.
Proof.
  intros t Ht. rewrite unit_tag_index_eq, unit_tag_recycle_eq, unit_tag_eq.
  change (2 ^ 14) with 16384 in *. change (2 ^ 18) with 262144 in *. unfold two32 in *. repeat split; dlia.
Qed.
Lemma tag_inj : forall i r i' r', 0 <= i < 2 ^ 14 -> 0 <= r < 2 ^ 18 -> 0 <= i' < 2 ^ 14 -> 0 <= r' < 2 ^ 18 ->
  unit_tag i r = unit_tag i' r' -> i = i' /\ r = r'.
Proof.
  intros i r i' r' Hi Hr Hi' Hr' E.
  destruct (tag_split i r Hi Hr) as (A & B & _). destruct (tag_split i' r' Hi' Hr') as (A' & B' & _).
  rewrite E in A, B. split; congruence.
Qed.

(** ** Positions *)
(** Sum of the first elements of triples 0..k. *)
Definition deltas_upto (items : list Z) (k : nat) : Z :=
  fold_right Z.add 0 (map (fun j => nth (3 * j) items 0) (seq 0 (S k))).

Lemma deltas_upto_S : forall d x y items k, deltas_upto (d :: x :: y :: items) (S k) = d + deltas_upto items k.
Proof.
  intros. unfold deltas_upto. cbn [seq map fold_right]. rewrite <- seq_shift, map_map. cbn [seq map fold_right].
  f_equal. f_equal.
  - rewrite <- seq_shift, map_map, map_map. f_equal. apply map_ext. intros j.
    replace (3 * S (S j))%nat with (S (S (S (3 * S j))))%nat by lia. reflexivity.
Qed.

Lemma as_i32_mod : forall z, exists k, as_i32 z = z + k * two32.
Proof.
  intros z. unfold as_i32. exists (- ((z + 2147483648) / two32)). rewrite Z.mod_eq by (unfold two32; lia). lia.
Qed.
Lemma as_i32_id : forall z, - 2147483648 <= z < 2147483648 -> as_i32 z = z.
Proof. intros z Hz. unfold as_i32, two32. rewrite Z.mod_small; lia. Qed.
Lemma in_i32_true : forall z, in_i32 z = true <-> - 2147483648 <= z < 2147483648.
Proof. intros z. unfold in_i32. rewrite andb_true_iff, Z.leb_le, Z.ltb_lt. tauto. Qed.
Lemma ovf_i32_ok : forall m z r, ovf_i32 m z = Ok r -> r = as_i32 z /\ (m = Checked -> r = z).
Proof.
  intros m z r. unfold ovf_i32. destruct (in_i32 z) eqn:E.
  - apply in_i32_true in E. intros [= <-]. rewrite as_i32_id by lia. auto.
  - destruct m; [discriminate|]. intros [= <-]. split; [auto|discriminate].
Qed.
Lemma as_u32_cong : forall a b k, a = b + k * two32 -> as_u32 a = as_u32 b.
Proof. intros a b k ->. unfold as_u32. rewrite Z.mod_add by (unfold two32; lia). reflexivity. Qed.

Lemma positions_loop_value : forall m n items u r, (length items <= n)%nat -> positions_loop m u items = Ok r ->
  length r = (length items / 3)%nat /\
  forall k, (k < length items / 3)%nat -> nth_error r k =
    Some (mkpos (as_u32 (u + deltas_upto items k)) (as_i32 (4 * nth (3 * k + 1) items 0)) (as_i32 (4 * nth (3 * k + 2) items 0))).
Proof.
  induction n as [|n IH]; intros items u r Hn.
  { destruct items; [|cbn in Hn; lia]. cbn. intros [= <-]. split; [reflexivity|intros; lia]. }
  destruct items as [|d [|x [|y rest]]];
    try (cbn; intros [= <-]; split; [reflexivity|intros k Hk; exfalso; cbn in Hk; lia]).
  cbn [positions_loop]. intros Hp. apply obind_ok in Hp as (u' & Hu & Hp). apply obind_ok in Hp as (x' & Hx & Hp).
  apply obind_ok in Hp as (y' & Hy & Hp). apply obind_ok in Hp as (res & Hres & Hp). injection Hp as <-.
  apply ovf_i32_ok in Hu as [Hu _]. apply ovf_i32_ok in Hx as [Hx _]. apply ovf_i32_ok in Hy as [Hy _].
  apply IH in Hres; [|cbn in Hn; lia]. destruct Hres as [HL HN].
  assert (E3 : (length (d :: x :: y :: rest) / 3 = S (length rest / 3))%nat).
  { cbn [length]. replace (S (S (S (length rest)))) with (1 * 3 + length rest)%nat by lia.
    rewrite Nat.div_add_l by lia. lia. }
  rewrite E3. split; [cbn [length]; lia|].
  intros [|k] Hk.
  - cbn [nth_error]. f_equal. subst. unfold deltas_upto. cbn [seq map fold_right nth Nat.mul Nat.add]. f_equal.
    + destruct (as_i32_mod (u + d)) as [q Eq]. apply (as_u32_cong _ _ q). lia.
    + f_equal. lia.
    + f_equal. lia.
  - cbn [nth_error]. rewrite HN by lia. f_equal. rewrite deltas_upto_S. f_equal.
    + subst u'. destruct (as_i32_mod (u + d)) as [q Eq]. apply (as_u32_cong _ _ q). lia.
    + replace (3 * S k + 1)%nat with (S (S (S (3 * k + 1))))%nat by lia. reflexivity.
    + replace (3 * S k + 2)%nat with (S (S (S (3 * k + 2))))%nat by lia. reflexivity.
Qed.

Lemma positions_value : forall m f items r, to_unit_positions_vec m f items = Ok r ->
  length r = (length items / 3)%nat /\
  forall k, (k < length items / 3)%nat -> nth_error r k =
    Some (mkpos (as_u32 (f + deltas_upto items k)) (as_i32 (4 * nth (3 * k + 1) items 0)) (as_i32 (4 * nth (3 * k + 2) items 0))).
Proof.
  intros m f items r Hp. unfold to_unit_positions_vec in Hp. apply positions_loop_value with (n := length items) in Hp; [|lia].
  destruct Hp as [HL HN]. split; [exact HL|]. intros k Hk. rewrite HN by exact Hk. do 2 f_equal.
  destruct (as_i32_mod f) as [q Eq]. apply (as_u32_cong _ _ q). lia.
Qed.

Lemma positions_wrapping : forall f items, exists r, to_unit_positions_vec Wrapping f items = Ok r.
Proof.
  intros f items. unfold to_unit_positions_vec. generalize (as_i32 f). clear f.
  assert (Ho : forall z, exists r, ovf_i32 Wrapping z = Ok r).
  { intros z. unfold ovf_i32. destruct (in_i32 z); eauto. }
  enough (Hg : forall n items u, (length items <= n)%nat -> exists r, positions_loop Wrapping u items = Ok r) by (intros; eapply Hg; reflexivity).
  induction n as [|n IH]; intros l u Hn.
  { destruct l; [cbn; eauto|cbn in Hn; lia]. }
  destruct l as [|d [|x [|y rest]]]; cbn [positions_loop]; eauto.
  destruct (Ho (u + d)) as [u' ->]. destruct (Ho (x * 4)) as [x' ->]. destruct (Ho (y * 4)) as [y' ->]. cbn [obind].
  destruct (IH rest u' ltac:(cbn in Hn; lia)) as [r ->]. cbn. eauto.
Qed.

(** No overflow: every running index and every coordinate is an [i32]. *)
Lemma positions_no_overflow : forall m f items, - 2147483648 <= f < 2147483648 ->
  (forall k, (k < length items / 3)%nat -> - 2147483648 <= f + deltas_upto items k < 2147483648 /\
     - 536870912 <= nth (3 * k + 1) items 0 < 536870912 /\ - 536870912 <= nth (3 * k + 2) items 0 < 536870912) ->
  exists r, to_unit_positions_vec m f items = Ok r.
Proof.
  intros m f items Hf Hk. unfold to_unit_positions_vec. rewrite as_i32_id by exact Hf.
  assert (Ho : forall z, - 2147483648 <= z < 2147483648 -> ovf_i32 m z = Ok z).
  { intros z Hz. unfold ovf_i32. apply in_i32_true in Hz. rewrite Hz. reflexivity. }
  enough (Hg : forall n items u, (length items <= n)%nat ->
    (forall k, (k < length items / 3)%nat -> - 2147483648 <= u + deltas_upto items k < 2147483648 /\
     - 536870912 <= nth (3 * k + 1) items 0 < 536870912 /\ - 536870912 <= nth (3 * k + 2) items 0 < 536870912) ->
    exists r, positions_loop m u items = Ok r) by (apply (Hg (length items)); auto).
  clear Hf Hk items f.
  induction n as [|n IH]; intros l u Hn Hk.
  { destruct l; [cbn; eauto|cbn in Hn; lia]. }
  destruct l as [|d [|x [|y rest]]]; cbn [positions_loop]; eauto.
  assert (E3 : (length (d :: x :: y :: rest) / 3 = S (length rest / 3))%nat).
  { cbn [length]. replace (S (S (S (length rest)))) with (1 * 3 + length rest)%nat by lia.
    rewrite Nat.div_add_l by lia. lia. }
  rewrite E3 in Hk. destruct (Hk 0%nat ltac:(lia)) as (H1 & H2 & H3).
  unfold deltas_upto in H1. cbn [seq map fold_right nth Nat.mul Nat.add] in H1, H2, H3.
  rewrite !Ho by lia. cbn [obind].
  destruct (IH rest (u + d)) as [r ->]; [cbn in Hn; lia| |cbn; eauto].
  intros k Hk'. specialize (Hk (S k) ltac:(lia)). rewrite deltas_upto_S in Hk.
  replace (3 * S k + 1)%nat with (S (S (S (3 * k + 1))))%nat in Hk by lia.
  replace (3 * S k + 2)%nat with (S (S (S (3 * k + 2))))%nat in Hk by lia.
  cbn [nth] in Hk. destruct Hk as (A & B & C). split; [lia|split; assumption].
Qed.

Lemma positions_exact : forall m f items, 0 <= f < 2147483648 ->
  (forall k, (k < length items / 3)%nat -> 0 <= f + deltas_upto items k < 2147483648 /\
     - 536870912 <= nth (3 * k + 1) items 0 < 536870912 /\ - 536870912 <= nth (3 * k + 2) items 0 < 536870912) ->
  exists r, to_unit_positions_vec m f items = Ok r /\ length r = (length items / 3)%nat /\
    forall k, (k < length items / 3)%nat -> nth_error r k =
      Some (mkpos (f + deltas_upto items k) (4 * nth (3 * k + 1) items 0) (4 * nth (3 * k + 2) items 0)).
Proof.
  intros m f items Hf Hk. destruct (positions_no_overflow m f items) as [r Hr]; [lia| |].
  { intros k Hk'. destruct (Hk k Hk') as (A & B & C). split; [lia|auto]. }
  exists r. split; [exact Hr|]. apply positions_value in Hr as [HL HN]. split; [exact HL|].
  intros k Hk'. rewrite (HN k Hk'). destruct (Hk k Hk') as (A & B & C).
  rewrite !as_i32_id by lia. unfold as_u32. rewrite Z.mod_small by (unfold two32; lia). reflexivity.
Qed.

Lemma positions_checked_overflow : to_unit_positions_vec Checked 1 [1; 536870912; 0] = Panic /\
  to_unit_positions_vec Wrapping 1 [1; 536870912; 0] = Ok [mkpos 2 (-2147483648) 0].
Proof. split; reflexivity. Qed.
