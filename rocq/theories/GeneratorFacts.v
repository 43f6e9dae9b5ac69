(** * The code the generator writes: proofs *)
From Coq Require Import FinFun.
From Verif Require Import Base BitSpec BitPacked BitProofs Types Versioned BitInterp BitFormat BitTotal BitExact BitEncode BitFacts Generator GeneratorSpec.
#[local] Open Scope string_scope.
#[local] Open Scope Z_scope.
#[local] Open Scope list_scope.

Section ntype_ind.
  Variable P : ntype -> Prop.
  Hypothesis HInt : forall b, P (NInt b).
  Hypothesis HInum : forall b, P (NInum b).
  Hypothesis HBitArray : forall b, P (NBitArray b).
  Hypothesis HBlob : forall b, P (NBlob b).
  Hypothesis HString : forall b, P (NString b).
  Hypothesis HAscii : forall b, P (NAscii b).
  Hypothesis HArray : forall d b t, P t -> P (NArray d b t).
  Hypothesis HBool : P NBool.
  Hypothesis HFourcc : P NFourcc.
  Hypothesis HNull : P NNull.
  Hypothesis HOpt : forall t, P t -> P (NOpt t).
  Hypothesis HUser : forall t, P t -> P (NUser t).
  Hypothesis HEnum : forall l, P (NEnum l).
  Hypothesis HEvents : forall l, Forall (fun x => match snd x with Some t => P t | None => True end) l -> P (NEvents l).
  Hypothesis HChoice : forall l, Forall (fun x => P (snd x)) l -> P (NChoice l).
  Hypothesis HStruct : forall l, Forall (fun x => P (snd x)) l -> P (NStruct l).

  Fixpoint ntype_ind' (t : ntype) : P t :=
    match t with
    | NInt b => HInt b
    | NInum b => HInum b
    | NBitArray b => HBitArray b
    | NBlob b => HBlob b
    | NString b => HString b
    | NAscii b => HAscii b
    | NArray d b t => HArray d b t (ntype_ind' t)
    | NBool => HBool
    | NFourcc => HFourcc
    | NNull => HNull
    | NOpt t => HOpt t (ntype_ind' t)
    | NUser t => HUser t (ntype_ind' t)
    | NEnum l => HEnum l
    | NEvents l => HEvents l ((fix go (l : list (Z * string * option ntype)) : Forall (fun x => match snd x with Some t => P t | None => True end) l :=
        match l with
        | [] => Forall_nil _
        | (n, o) :: l' => @Forall_cons _ (fun x => match snd x with Some t => P t | None => True end) (n, o) l'
            (match o with Some t => ntype_ind' t | None => Logic.I end) (go l')
        end) l)
    | NChoice l => HChoice l ((fix go (l : list (Z * string * ntype)) : Forall (fun x => P (snd x)) l :=
        match l with [] => Forall_nil _ | (_, t) as x :: l' => Forall_cons x (ntype_ind' t) (go l') end) l)
    | NStruct l => HStruct l ((fix go (l : list (string * ntype)) : Forall (fun x => P (snd x)) l :=
        match l with [] => Forall_nil _ | (_, t) as x :: l' => Forall_cons x (ntype_ind' t) (go l') end) l)
    end.
End ntype_ind.

(** ** widths *)
Lemma width_0 : forall hi, 0 <= hi -> width 0 hi = floor_log2_1 hi.
Proof.
  intros hi H. unfold width, floor_log2_1. destruct (Z.leb_spec hi 0) as [L|L].
  - replace hi with 0 by lia. reflexivity.
  - f_equal. rewrite Z.sub_0_r.
    rewrite Z.log2_up_eqn by lia. replace (Z.pred (hi + 1)) with hi by lia. lia.
Qed.

Lemma is_pow2_true : forall z, is_pow2 z = true <-> exists n, 0 <= n /\ z = 2 ^ n.
Proof.
  intros z. unfold is_pow2. rewrite andb_true_iff, Z.ltb_lt, Z.eqb_eq. split.
  - intros [H1 H2]. exists (Z.log2 z). split; [apply Z.log2_nonneg|assumption].
  - intros (n & Hn & ->). split; [apply Z.pow_pos_nonneg; lia|]. rewrite Z.log2_pow2 by assumption. reflexivity.
Qed.

(** One more does not make a number longer, unless it reaches a power of two. *)
Lemma log2_succ : forall z, 0 < z -> (floor_log2_1 (z + 1) = floor_log2_1 z <-> is_pow2 (z + 1) = false).
Proof.
  intros z H. unfold floor_log2_1. destruct (Z.leb_spec (z + 1) 0); [lia|]. destruct (Z.leb_spec z 0); [lia|].
  pose proof (Z.log2_nonneg z) as N. pose proof (Z.log2_spec z H) as [S1 S2].
  assert (C : z + 1 < 2 ^ Z.succ (Z.log2 z) \/ z + 1 = 2 ^ Z.succ (Z.log2 z)) by lia.
  destruct C as [C|C].
  - assert (E : Z.log2 (z + 1) = Z.log2 z) by (apply Z.log2_unique; lia). rewrite E. split; [|reflexivity].
    intros _. destruct (is_pow2 (z + 1)) eqn:Q; [|reflexivity]. exfalso. apply is_pow2_true in Q as (n & Hn & Q).
    assert (E2 : Z.log2 (z + 1) = n) by (rewrite Q; apply Z.log2_pow2; assumption).
    assert (En : n = Z.log2 z) by congruence. rewrite En in Q. lia.
  - assert (E : Z.log2 (z + 1) = Z.succ (Z.log2 z)) by (rewrite C; apply Z.log2_pow2; lia). rewrite E. split.
    + intros F. apply Z2Nat.inj in F; lia.
    + intros F. exfalso. assert (is_pow2 (z + 1) = true); [|congruence]. apply is_pow2_true. exists (Z.succ (Z.log2 z)). split; [lia|exact C].
Qed.

Lemma width_le : forall hi n, 0 <= hi -> hi < 2 ^ Z.of_nat n -> (width 0 hi <= n)%nat.
Proof. intros hi n H L. apply width_least; lia. Qed.

Lemma width_32 : forall hi, 0 <= hi -> hi < 2 ^ 32 -> Nat.leb (width 0 hi) 32 = true.
Proof. intros hi H L. apply Nat.leb_le. apply width_le; [assumption|exact L]. Qed.

Lemma in_i64_0 : in_i64 0 = true.
Proof. reflexivity. Qed.

Lemma plain_int_ok : forall b, plain_int b = true -> exists n, gen_int b = Ok (KInt (lowest b) n) /\
  n = width (lowest b) (highest b) /\ Nat.leb n 64 && in_i64 (lowest b) = true.
Proof.
  intros b H. unfold plain_int in H. apply andb_true_iff in H as [H1 H]. apply andb_true_iff in H1 as [He Hi].
  apply negb_true_iff in He. unfold gen_int, lowest. rewrite He, Hi. destruct (b_expr b) as [|n|] eqn:Ex; [| |discriminate].
  - cbn [obind]. apply andb_true_iff in H as [H Hu]. apply andb_true_iff in H as [Hz Hh].
    apply Z.eqb_eq in Hz. apply Z.leb_le in Hh. apply Z.ltb_lt in Hu. rewrite Hz. cbn [Z.ltb Z.compare].
    exists (width 0 (highest b)). repeat split.
    + do 2 f_equal. rewrite width_0 by assumption. unfold max_value_to_bit_size, highest. rewrite Hi. reflexivity.
    + rewrite in_i64_0, andb_true_r. apply Nat.leb_le. apply width_le; [assumption|].
      assert (2 ^ 48 <= 2 ^ Z.of_nat 64) by (apply Z.pow_le_mono_r; lia). lia.
  - cbn [obind]. apply andb_true_iff in H as [H Hd]. apply andb_true_iff in H as [Hx Hm].
    apply negb_true_iff in Hx. apply Z.eqb_eq in Hm. unfold highest. rewrite Hx, Hm.
    assert (P0 : 0 < 2 ^ Z.of_nat n) by (apply Z.pow_pos_nonneg; lia).
    apply orb_true_iff in Hd as [Hd|Hd]; apply andb_true_iff in Hd as [Hd Hn]; apply Z.eqb_eq in Hd.
    + rewrite Hd. cbn [Z.ltb Z.compare]. exists n. repeat split.
      * unfold width. replace (2 ^ Z.of_nat n - 1 - 0 + 1) with (2 ^ Z.of_nat n) by lia. rewrite Z.log2_up_pow2 by lia. lia.
      * rewrite Hn. reflexivity.
    + rewrite Hd. destruct (Z.ltb_spec (- 2 ^ Z.of_nat n) 0); [|lia]. exists (S n). repeat split.
      * unfold width. replace (2 ^ Z.of_nat n - 1 - - 2 ^ Z.of_nat n + 1) with (2 ^ Z.of_nat (S n)).
        { rewrite Z.log2_up_pow2 by lia. lia. }
        { rewrite Nat2Z.inj_succ, Z.pow_succ_r by lia. lia. }
      * apply Nat.leb_le in Hn. apply andb_true_iff. split; [apply Nat.leb_le; lia|].
        apply in_i64_true. unfold two63. assert (2 ^ Z.of_nat n <= 2 ^ 63) by (apply Z.pow_le_mono_r; lia). lia.
Qed.

Lemma plain_length_ok : forall b, plain_length b = true ->
  b_exact b = false /\ b_min b = 0 /\ b_min_incl b = true /\ 0 <= highest b < 2 ^ 20 - 1.
Proof.
  intros b H. unfold plain_length in H. repeat (apply andb_true_iff in H as [H ?]).
  apply negb_true_iff in H. apply Z.eqb_eq in H3. apply Z.leb_le in H1. apply Z.ltb_lt in H0. auto.
Qed.

Lemma max_plus_highest : forall b, max_plus b = highest b + 1.
Proof. intros b. unfold max_plus, highest. destruct (b_max_incl b); lia. Qed.

Lemma odd_length_ok : forall b, odd_length b = true -> array_bits b = width 0 (highest b) /\ 0 < highest b.
Proof.
  intros b H. unfold odd_length in H. apply andb_true_iff in H as [H Hp]. apply negb_true_iff in Hp.
  apply plain_length_ok in H as (_ & _ & _ & Hh).
  assert (Hpos : 0 < highest b). { destruct (Z.eq_dec (highest b) 0) as [E|]; [rewrite E in Hp; discriminate|lia]. }
  split; [|assumption]. unfold array_bits. rewrite max_plus_highest, width_0 by lia. apply log2_succ; assumption.
Qed.

Lemma width_4 : forall hi, 0 < hi -> width 0 (4 * hi) = (floor_log2_1 hi + 2)%nat.
Proof.
  intros hi H. rewrite width_0 by lia. unfold floor_log2_1. destruct (Z.leb_spec (4 * hi) 0); [lia|]. destruct (Z.leb_spec hi 0); [lia|].
  replace (4 * hi) with (hi * 2 ^ 2) by lia. rewrite Z.log2_mul_pow2 by lia. pose proof (Z.log2_nonneg hi). lia.
Qed.

Lemma max_tag_ge : forall l z, In z l -> z <= max_tag l.
Proof. induction l as [|a l IH]; intros z H; [destruct H|]. destruct H as [->|H]; cbn [max_tag fold_right]; [lia|]. specialize (IH z H). unfold max_tag in IH. lia. Qed.

Lemma max_tag_lt : forall l n, 0 < n -> (forall z, In z l -> z < n) -> max_tag l < n.
Proof. induction l as [|a l IH]; intros n Hn H; cbn [max_tag fold_right]; [assumption|]. specialize (IH n Hn (fun z Hz => H z (or_intror Hz))).
  unfold max_tag in IH. pose proof (H a (or_introl eq_refl)). lia. Qed.

Lemma numbered_ok : forall l, numbered l = true ->
  max_tag l = Z.of_nat (length l) - 1 /\ NoDup l /\ 1 <= Z.of_nat (length l) <= 2 ^ 20.
Proof.
  intros l H. unfold numbered in H. apply andb_true_iff in H as [H He]. apply andb_true_iff in H as [H Hb].
  apply andb_true_iff in H as [Hn Hu]. apply negb_true_iff in Hn. apply Nat.eqb_neq in Hn. apply Z.leb_le in Hu.
  rewrite forallb_forall in Hb, He.
  assert (Hin : forall i, (i < length l)%nat -> In (Z.of_nat i) l).
  { intros i Hi. specialize (He i). rewrite in_seq in He. specialize (He ltac:(lia)). apply existsb_exists in He as (z & Hz & E).
    apply Z.eqb_eq in E. subst z. assumption. }
  split; [|split; [|lia]].
  - assert (max_tag l < Z.of_nat (length l)).
    { apply max_tag_lt; [lia|]. intros z Hz. specialize (Hb z Hz). cbv beta in Hb. apply andb_true_iff in Hb as [_ Hb]. apply Z.ltb_lt in Hb. exact Hb. }
    assert (Q : (length l - 1 < length l)%nat) by lia. pose proof (max_tag_ge l _ (Hin _ Q)) as G. lia.
  - apply (@NoDup_incl_NoDup Z (map Z.of_nat (seq 0 (length l)))).
    + apply FinFun.Injective_map_NoDup; [intros x y E; lia|apply seq_NoDup].
    + rewrite map_length, seq_length. lia.
    + intros z Hz. apply in_map_iff in Hz as (i & <- & Hi). apply in_seq in Hi. apply Hin. lia.
Qed.

Lemma nodup_z_ok : forall l, NoDup l -> nodup_z l = true.
Proof.
  induction 1 as [|x l Hx Hl IH]; [reflexivity|]. cbn [nodup_z]. rewrite IH, andb_true_r. apply negb_true_iff.
  destruct (existsb (Z.eqb x) l) eqn:E; [|reflexivity]. apply existsb_exists in E as (y & Hy & Q). apply Z.eqb_eq in Q. subst y. contradiction.
Qed.

(** The width of a tag. *)
Lemma numbered_width : forall l, numbered l = true -> width 0 (max_tag l) = ceil_log2 (length l) /\
  Nat.leb (width 0 (max_tag l)) 32 = true /\ nodup_z l = true.
Proof.
  intros l H. apply numbered_ok in H as (E & Hd & Hn). split; [|split].
  - unfold width, ceil_log2. do 2 f_equal. lia.
  - apply width_32; [lia|]. lia.
  - apply nodup_z_ok. assumption.
Qed.

(** ** decoders *)
Lemma bparse_n_ext : forall n p q, (forall c, p c = q c) -> forall c, bparse_n n p c = bparse_n n q c.
Proof.
  induction n as [|n IH]; intros p q E c; cbn [bparse_n]; [reflexivity|]. rewrite E. destruct (q c) as [[c' v]| |]; cbn [obind]; try reflexivity.
  rewrite (IH p q E). reflexivity.
Qed.

Lemma fields_ext : forall fs gs, Forall2 (fun x y => fst x = fst y /\ forall c, snd x c = snd y c) fs gs ->
  forall c, bparse_fields fs c = bparse_fields gs c.
Proof.
  induction 1 as [|[n p] [n' q] fs gs [E1 E2] HF IH]; intros c; cbn [bparse_fields]; [reflexivity|]. cbn [fst snd] in *. subst n'.
  rewrite E2. destruct (q c) as [[c' v]| |]; cbn [obind]; try reflexivity. rewrite IH. reflexivity.
Qed.

Lemma variants_ext : forall (fs gs : list (Z * string * (cursor -> outcome (cursor * val)))),
  Forall2 (fun x y => fst x = fst y /\ forall c, snd x c = snd y c) fs gs ->
  forall tag, match find_variant fs tag, find_variant gs tag with
    | Some (s, p), Some (s', q) => s = s' /\ forall c, p c = q c
    | None, None => True
    | _, _ => False
    end.
Proof.
  induction 1 as [|[[t n] p] [[t' n'] q] fs gs [E1 E2] HF IH]; intros tag; cbn [find_variant]; [exact Logic.I|]. cbn [fst snd] in *.
  injection E1 as -> ->. destruct (t' =? tag); [auto|apply IH].
Qed.

(** The two readings agree. *)
Definition agrees (p : position) (t : ntype) : Prop :=
  plain p t = true -> exists k, gen p t = Ok k /\ (forall m c, run m k c = bparse m (layout t) c) /\ wf_bty (layout t) = true.

Ltac leaf := intros _; eexists; split; [reflexivity|]; split; [intros; reflexivity|reflexivity].

Lemma gen_array : forall p d b t n, (forall q, agrees q t) -> (p = Decl \/ p = Field) ->
  plain p (NArray d b t) = true ->
  (p = Decl -> n = array_bits b) -> (p = Field -> n = field_array_bits b) ->
  n = width 0 (highest b) -> Nat.leb n 32 = true ->
  exists k, gen p (NArray d b t) = Ok k /\ (forall m c, run m k c = bparse m (layout (NArray d b t)) c) /\ wf_bty (layout (NArray d b t)) = true.
Proof.
  intros p d b t n IH Hp Hpl E1 E2 En Hn.
  assert (Hu : exists t', t = NUser t' /\ plain Decl t = true /\ gen p (NArray d b t) = do k <- gen Decl t; Ok (KArray n k)).
  { destruct Hp as [-> | ->]; cbn [plain] in Hpl; (destruct t as [| | | | | | | | | | |t'| | | |]; try discriminate); exists t';
      (split; [reflexivity|]); cbn [plain gen]; apply andb_true_iff in Hpl as [Ha Hb]; (split; [exact Hb|]);
      [rewrite E1 by reflexivity|rewrite E2 by reflexivity]; reflexivity. }
  destruct Hu as (t' & Et & Hd & Eg). destruct (IH Decl Hd) as (k & Ek & Er & Ew). exists (KArray n k).
  split; [rewrite Eg, Ek; reflexivity|]. cbn [layout wf_bty]. rewrite <- En. split.
  - intros m c. cbn [run bparse]. destruct (take_n_bits_into_i64 c n) as [[c' len]| |]; cbn [obind]; try reflexivity.
    rewrite (bparse_n_ext _ (run m k) (bparse m (layout t)) (Er m)). reflexivity.
  - rewrite Hn, Ew. reflexivity.
Qed.

Lemma field_bits : forall b, plain_length b = true -> b_max_incl b || negb (is_pow2 (b_max b)) = true ->
  field_array_bits b = width 0 (highest b).
Proof.
  intros b H Hp. apply plain_length_ok in H as (_ & _ & _ & Hh). unfold field_array_bits. rewrite width_0 by lia.
  unfold highest in *. destruct (b_max_incl b); [reflexivity|]. cbn [orb] in Hp. apply negb_true_iff in Hp.
  destruct (Z.eq_dec (b_max b - 1) 0) as [E|].
  - replace (b_max b) with 1 in Hp by lia. discriminate.
  - replace (b_max b) with (b_max b - 1 + 1) in Hp |- * at 1 by lia. apply log2_succ; [lia|assumption].
Qed.

Lemma variant_code : forall (vs : list (Z * string * ntype)) p, Forall (fun x => forall q, agrees q (snd x)) vs ->
  forallb (fun x => plain p (snd x)) vs = true ->
  exists ks, (fix go (l : list (Z * string * ntype)) : outcome (list (Z * string * code)) :=
      match l with [] => Ok [] | (n, t') :: l' => do k <- gen p t'; do ks <- go l'; Ok ((n, k) :: ks) end) vs = Ok ks /\
    (forall m, Forall2 (fun x y => fst x = fst y /\ forall c, snd x c = snd y c)
      (map (fun x => (fst x, run m (snd x))) ks) (map (fun x => (fst x, bparse m (snd x))) (map (fun x => (fst x, layout (snd x))) vs))) /\
    forallb (fun x => wf_bty (snd x)) (map (fun x => (fst x, layout (snd x))) vs) = true.
Proof.
  intros vs p. induction 1 as [|[n t] vs Ht HF IH]; intros Hp.
  - exists []. split; [reflexivity|]. split; [intros; constructor|reflexivity].
  - cbn [forallb snd] in Hp. apply andb_true_iff in Hp as [H1 H2]. destruct (IH H2) as (ks & -> & E2 & E3).
    destruct (Ht p H1) as (k & Ek & Er & Ew). cbn [snd] in Ek. rewrite Ek. cbn [obind]. exists ((n, k) :: ks). split; [reflexivity|]. split.
    + intros m. cbn [map fst snd]. constructor; [split; [reflexivity|apply Er]|apply E2].
    + cbn [map forallb fst snd]. cbn [snd] in Ew. rewrite Ew, E3. reflexivity.
Qed.

Lemma event_code : forall (vs : list (Z * string * option ntype)), Forall (fun x => match snd x with Some t => forall q, agrees q t | None => True end) vs ->
  forallb (fun x => match snd x with Some t' => plain Decl t' | None => true end) vs = true ->
  exists ks, (fix go (l : list (Z * string * option ntype)) : outcome (list (Z * string * code)) :=
      match l with [] => Ok [] | (n, o) :: l' =>
        do k <- match o with Some t' => gen Decl t' | None => Ok KUnit end; do ks <- go l'; Ok ((n, k) :: ks) end) vs = Ok ks /\
    (forall m, Forall2 (fun x y => fst x = fst y /\ forall c, snd x c = snd y c)
      (map (fun x => (fst x, run m (snd x))) ks)
      (map (fun x => (fst x, bparse m (snd x))) (map (fun x => (fst x, match snd x with Some t' => layout t' | None => BUnit end)) vs))) /\
    forallb (fun x => wf_bty (snd x)) (map (fun x => (fst x, match snd x with Some t' => layout t' | None => BUnit end)) vs) = true.
Proof.
  intros vs. induction 1 as [|[n o] vs Ht HF IH]; intros Hp.
  - exists []. split; [reflexivity|]. split; [intros; constructor|reflexivity].
  - cbn [forallb snd] in Hp. apply andb_true_iff in Hp as [H1 H2]. destruct (IH H2) as (ks & -> & E2 & E3). destruct o as [t|].
    + destruct (Ht Decl H1) as (k & Ek & Er & Ew). rewrite Ek. cbn [obind]. exists ((n, k) :: ks). split; [reflexivity|]. split.
      * intros m. cbn [map fst snd]. constructor; [split; [reflexivity|apply Er]|apply E2].
      * cbn [map forallb fst snd]. rewrite Ew, E3. reflexivity.
    + cbn [obind]. exists ((n, KUnit) :: ks). split; [reflexivity|]. split.
      * intros m. cbn [map fst snd]. constructor; [split; reflexivity|apply E2].
      * cbn [map forallb fst snd]. rewrite E3. reflexivity.
Qed.

Lemma field_code : forall (fs : list (string * ntype)), Forall (fun x => forall q, agrees q (snd x)) fs ->
  forallb (fun x => match snd x with
    | NChoice _ => if String.eqb (fst x) "m_eventData" then plain Decl (snd x) else plain Field (snd x)
    | _ => plain Field (snd x) end) fs = true ->
  exists ks, (fix go (l : list (string * ntype)) : outcome (list (string * code)) :=
      match l with [] => Ok [] | (n, t') :: l' =>
        do k <- match t' with NChoice _ => if String.eqb n "m_eventData" then gen Decl t' else gen Field t' | _ => gen Field t' end;
        do ks <- go l'; Ok ((n, k) :: ks) end) fs = Ok ks /\
    (forall m, Forall2 (fun x y => fst x = fst y /\ forall c, snd x c = snd y c)
      (map (fun x => (fst x, run m (snd x))) ks) (map (fun x => (fst x, bparse m (snd x))) (map (fun x => (fst x, layout (snd x))) fs))) /\
    forallb (fun x => wf_bty (snd x)) (map (fun x => (fst x, layout (snd x))) fs) = true.
Proof.
  intros fs. induction 1 as [|[n t] fs Ht HF IH]; intros Hp.
  - exists []. split; [reflexivity|]. split; [intros; constructor|reflexivity].
  - cbn [forallb snd] in Hp. apply andb_true_iff in Hp as [H1 H2]. destruct (IH H2) as (ks & -> & E2 & E3).
    assert (Hk : exists k, match t with NChoice _ => if String.eqb n "m_eventData" then gen Decl t else gen Field t | _ => gen Field t end = Ok k /\
      (forall m c, run m k c = bparse m (layout t) c) /\ wf_bty (layout t) = true).
    { cbn [fst snd] in H1, Ht. destruct t; try exact (Ht Field H1). destruct (String.eqb n "m_eventData"); [exact (Ht Decl H1)|exact (Ht Field H1)]. }
    destruct Hk as (k & Ek & Er & Ew). rewrite Ek. cbn [obind]. exists ((n, k) :: ks). split; [reflexivity|]. split.
    + intros m. cbn [map fst snd]. constructor; [split; [reflexivity|apply Er]|apply E2].
    + cbn [map forallb fst snd]. cbn [snd] in Ew. rewrite Ew, E3. reflexivity.
Qed.

Lemma choice_agrees : forall m n ks vs c,
  Forall2 (fun x y => fst x = fst y /\ forall c, snd x c = snd y c)
    (map (fun x => (fst x, run m (snd x))) ks) (map (fun x => (fst x, bparse m (snd x))) vs) ->
  run m (KChoice n ks) c = bparse m (BChoice n vs) c.
Proof.
  intros m n ks vs c H. cbn [run bparse]. destruct (parse_packed_int m c 0 n) as [[c' tag]| |]; cbn [obind]; try reflexivity.
  pose proof (variants_ext _ _ H tag) as E.
  destruct (find_variant (map (fun x => (fst x, run m (snd x))) ks) tag) as [[s p]|];
    destruct (find_variant (map (fun x => (fst x, bparse m (snd x))) vs) tag) as [[s' q]|]; try contradiction; [|reflexivity].
  destruct E as [-> E]. rewrite E. reflexivity.
Qed.

Lemma opt_agrees : forall m t k c, (forall c, run m k c = bparse m (layout t) c) -> run m (KOpt k) c = bparse m (BOpt (layout t)) c.
Proof. intros m t k c E. cbn [run bparse]. destruct (parse_bool c) as [[c' [|]]| |]; cbn [obind]; try reflexivity. rewrite E. reflexivity. Qed.

Lemma gen_agrees : forall t p, agrees p t.
Proof.
  induction t as [b|b|b|b|b|b|dy b t IH| | | |t IH|t IH|l|l IH|l IH|l IH] using ntype_ind'; intros p H.
  - (* int *) destruct p; [| |discriminate].
    + destruct (plain_int_ok b H) as (n & E & -> & W). exists (KInt (lowest b) (width (lowest b) (highest b))). split; [exact E|].
      split; [intros; reflexivity|exact W].
    + cbn [plain] in H. repeat (apply andb_true_iff in H as [H ?]). rename H3 into Hi. apply Z.eqb_eq in H2. apply Z.leb_le in H1. apply Z.ltb_lt in H0.
      exists (KInt 0 (width 0 (highest b))). assert (L : lowest b = 0) by (unfold lowest; rewrite Hi; assumption). split; [|split].
      * cbn [gen]. rewrite H2. do 2 f_equal. rewrite width_0 by assumption. unfold max_value_to_bit_size, highest. rewrite Hi. reflexivity.
      * intros m c. cbn [layout]. rewrite L. reflexivity.
      * cbn [layout wf_bty]. rewrite L, in_i64_0, andb_true_r. apply Nat.leb_le. apply width_le; [assumption|].
        assert (2 ^ 48 <= 2 ^ Z.of_nat 64) by (apply Z.pow_le_mono_r; lia). lia.
  - (* named integer *) destruct p; [|discriminate|discriminate].
    destruct (plain_int_ok b H) as (n & E & -> & W). exists (KInt (lowest b) (width (lowest b) (highest b))). split; [exact E|].
    split; [intros; reflexivity|exact W].
  - (* bit array *) destruct p; try discriminate. cbn [plain] in H. apply plain_length_ok in H as (He & Hm & Hi & Hh).
    exists (KBitArray (width 0 (highest b))). split; [|split].
    + cbn [gen]. unfold gen_bit_array. rewrite He, Hm. cbn [Z.eqb negb]. do 2 f_equal. rewrite width_0 by lia.
      unfold max_value_to_bit_size, highest. rewrite Hi. reflexivity.
    + reflexivity.
    + cbn [layout wf_bty]. apply width_32; [lia|]. lia.
  - destruct p; discriminate.
  - (* string *) destruct p; try discriminate. cbn [plain] in H. destruct (odd_length_ok b H) as [E Hp].
    unfold odd_length in H. apply andb_true_iff in H as [H _]. apply plain_length_ok in H as (He & Hm & Hi & Hh).
    exists (KString (width 0 (4 * highest b))). split; [|split].
    + cbn [gen]. unfold gen_string. rewrite He, Hm. cbn [Z.eqb negb]. do 2 f_equal. rewrite width_4 by assumption.
      fold (array_bits b). rewrite E, width_0 by lia. reflexivity.
    + reflexivity.
    + cbn [layout wf_bty]. apply width_32; [lia|]. lia.
  - destruct p; discriminate.
  - (* array *) destruct p; [| |discriminate].
    + assert (Ho : odd_length b = true). { cbn [plain] in H. destruct t; try discriminate. apply andb_true_iff in H as [H _]. exact H. }
      destruct (odd_length_ok b Ho) as [E Hp]. pose proof Ho as Hl. unfold odd_length in Hl. apply andb_true_iff in Hl as [Hl _].
      apply plain_length_ok in Hl as (_ & _ & _ & Hh).
      apply (gen_array Decl dy b t (width 0 (highest b))); auto; [discriminate|]. apply width_32; lia.
    + assert (Ho : plain_length b && (b_max_incl b || negb (is_pow2 (b_max b))) = true).
      { cbn [plain] in H. destruct t; try discriminate. apply andb_true_iff in H as [H _]. exact H. }
      apply andb_true_iff in Ho as [Hl Ho]. pose proof (field_bits b Hl Ho) as E. apply plain_length_ok in Hl as (_ & _ & _ & Hh).
      apply (gen_array Field dy b t (width 0 (highest b))); auto; [discriminate|]. apply width_32; lia.
  - destruct p; [discriminate| |]; eexists; split; try reflexivity; split; reflexivity.
  - destruct p; [discriminate| |]; eexists; split; try reflexivity; split; reflexivity.
  - destruct p; [discriminate| |]; eexists; split; try reflexivity; split; reflexivity.
  - (* option *)
    assert (Hleaf : p = Field /\ (t = NBool \/ t = NFourcc \/ t = NNull) \/ (p <> Decl /\ exists t', t = NUser t' /\ plain Decl t = true /\ gen p (NOpt t) = do k <- gen Decl t; Ok (KOpt k))).
    { destruct p; [discriminate| |]; cbn [plain] in H; (destruct t as [| | | | | | | | | | |t'| | | |]; try discriminate); auto;
        right; (split; [discriminate|]); exists t'; cbn [plain gen]; auto. }
    destruct Hleaf as [(-> & [->|[->| ->]])|(_ & t' & Et & Hd & Eg)].
    + eexists; split; [reflexivity|]; split; [intros m c; apply (opt_agrees m NBool); reflexivity|reflexivity].
    + eexists; split; [reflexivity|]; split; [intros m c; apply (opt_agrees m NFourcc); reflexivity|reflexivity].
    + eexists; split; [reflexivity|]; split; [intros m c; apply (opt_agrees m NNull); reflexivity|reflexivity].
    + destruct (IH Decl Hd) as (k & Ek & Er & Ew). exists (KOpt k). split; [rewrite Eg, Ek; reflexivity|]. split.
      * intros m c. apply opt_agrees. apply Er.
      * exact Ew.
  - (* a name *) assert (Hd : plain Decl t = true) by (destruct p; exact H). destruct (IH Decl Hd) as (k & Ek & Er & Ew).
    exists k. split; [destruct p; exact Ek|]. split; [exact Er|exact Ew].
  - (* enum *) destruct p; try discriminate. cbn [plain] in H. destruct (numbered_width _ H) as (E & W & N). rewrite map_length in E.
    eexists. split; [reflexivity|]. cbn [layout wf_bty]. rewrite E in *. split; [reflexivity|]. rewrite W, N. reflexivity.
  - (* events *) destruct p; try discriminate. cbn [plain] in H. apply andb_true_iff in H as [Hn H].
    destruct (numbered_width _ Hn) as (E & W & N). rewrite map_length in E.
    destruct (event_code l IH H) as (ks & Ek & Er & Ew). exists (KChoice (ceil_log2 (length l)) ks). split; [|split].
    + cbn [gen]. rewrite Ek. reflexivity.
    + intros m c. cbn [layout]. rewrite E. apply choice_agrees. apply Er.
    + cbn [layout wf_bty]. rewrite W. cbn [andb]. rewrite Ew, andb_true_r. rewrite map_map. exact N.
  - (* choice *) destruct p; try discriminate. cbn [plain] in H. apply andb_true_iff in H as [Hn H].
    destruct (numbered_width _ Hn) as (E & W & N). rewrite map_length in E.
    destruct (variant_code l Variant IH H) as (ks & Ek & Er & Ew). exists (KChoice (ceil_log2 (length l)) ks). split; [|split].
    + cbn [gen]. rewrite Ek. reflexivity.
    + intros m c. cbn [layout]. rewrite E. apply choice_agrees. apply Er.
    + cbn [layout wf_bty]. rewrite W. cbn [andb]. rewrite Ew, andb_true_r. rewrite map_map. exact N.
  - (* struct *) destruct p; try discriminate. cbn [plain] in H.
    destruct (field_code l IH H) as (ks & Ek & Er & Ew). exists (KStruct ks). split; [|split].
    + cbn [gen]. rewrite Ek. reflexivity.
    + intros m c. cbn [layout run bparse]. rewrite (fields_ext _ _ (Er m)). reflexivity.
    + cbn [layout wf_bty]. exact Ew.
Qed.

(** C110. *)
Lemma generated_reads : forall t, plain Decl t = true -> exists k, gen Decl t = Ok k /\ reads k (layout t).
Proof.
  intros t H. destruct (gen_agrees t Decl H) as (k & Ek & Er & Ew). exists k. split; [exact Ek|].
  intros m c v bits rest Hq Hc He Es. rewrite Er. apply (blizzard_round_trip m (layout t) c v bits rest); assumption.
Qed.

(** ** The width matters *)

(** A position with just the bits of a number before the end. *)
Lemma exact_cursor : forall w z, exists c, cursor_ok c /\ stream c = be_bits (snd c) w z.
Proof.
  intros w z. set (p := ((8 - w mod 8) mod 8)%nat).
  assert (Hp : (p < 8)%nat) by (apply Nat.mod_upper_bound; lia).
  assert (Hw : exists n, (p + w = 8 * n)%nat).
  { exists ((p + w) / 8)%nat. unfold p. pose proof (Nat.div_mod w 8 ltac:(lia)). pose proof (Nat.mod_upper_bound w 8 ltac:(lia)).
    destruct (Nat.eq_dec (w mod 8) 0) as [E|E].
    - rewrite E. cbn [Nat.sub]. change (8 mod 8)%nat with 0%nat. cbn [Nat.add]. lia.
    - rewrite (Nat.mod_small (8 - w mod 8) 8) by lia.
      assert (Q : (8 - w mod 8 + w = 8 * (w / 8 + 1))%nat) by lia. rewrite Q. rewrite (Nat.mul_comm 8), Nat.div_mul by lia. lia. }
  destruct Hw as (n & Hn).
  assert (L : length (repeat false p ++ be_bits p w z) = (8 * n)%nat) by (rewrite app_length, repeat_length, be_bits_length; assumption).
  destruct (flat_be_bytes n _ L) as [F B]. exists (be_bytes 0 (repeat false p ++ be_bits p w z), p). split.
  - split; [exact B|]. split; [exact Hp|]. cbn [fst snd]. intros Hp0 E. rewrite E in F. cbn [flat_map] in F.
    destruct p; [congruence|]. discriminate.
  - unfold stream. cbn [fst snd]. rewrite F. rewrite skipn_app, repeat_length, Nat.sub_diag. rewrite skipn_all2 by (rewrite repeat_length; lia). reflexivity.
Qed.

Lemma advance_differs : forall c n k, (k < n)%nat -> length (stream c) = n -> advance c k <> advance c n.
Proof.
  intros c n k Hk Hl E. assert (Q : stream (advance c k) = stream (advance c n)) by (rewrite E; reflexivity).
  destruct (advance_bits c k ltac:(lia)) as [Q1 _]. destruct (advance_bits c n ltac:(lia)) as [Q2 _].
  rewrite Q1, Q2 in Q. apply (f_equal (@length bool)) in Q. rewrite !skipn_length in Q. lia.
Qed.

Lemma small_be : forall (off w : nat) z, (off < 8)%nat -> 0 <= z < 2 ^ Z.of_nat w -> be_value off (be_bits off w z) = z.
Proof. intros off w z Ho Hz. rewrite be_bits_value by assumption. apply Z.mod_small. assumption. Qed.

(** A reader of numbers: [n] bits, biased by [o]. *)
Lemma packed_cases : forall m c o n, cursor_ok c -> (n <= 32)%nat -> - 2 ^ 62 <= o <= 2 ^ 62 ->
  parse_packed_int m c o n = if Nat.ltb (length (stream c)) n then Err ENom else Ok (advance c n, o + be_value (snd c) (firstn n (stream c))).
Proof.
  intros m c o n Hc Hn Ho. destruct (Nat.ltb_spec (length (stream c)) n) as [L|L].
  - unfold parse_packed_int. rewrite take_n_bits_spec by (assumption || lia).
    destruct (Nat.ltb_spec (length (stream c)) n); [reflexivity|lia].
  - assert (B : 2 ^ Z.of_nat n <= 2 ^ 32) by (apply Z.pow_le_mono_r; lia).
    apply packed_int_value; try assumption; unfold two63; lia.
Qed.

Lemma take_more : forall c n, cursor_ok c -> (length (stream c) < n)%nat -> forall r, take_n_bits_into_i64 c n <> Ok r.
Proof. intros c n Hc Hn. apply take_n_fails; auto. Qed.

Lemma int_reads_iff : forall o n lo w, (w <= 32)%nat -> - 2 ^ 61 <= lo <= 2 ^ 61 -> - 2 ^ 61 <= o <= 2 ^ 61 ->
  (reads (KInt o n) (BInt lo w) <-> o = lo /\ n = w).
Proof.
  intros o n lo w Hw Hlo Ho. split.
  - intros H. destruct (exact_cursor w 0) as (c & Hc & Es).
    assert (Hoff : (snd c < 8)%nat) by (destruct Hc as (_ & ? & _); assumption).
    assert (Hl : length (stream c) = w) by (rewrite Es; apply be_bits_length; assumption).
    assert (P0 : 0 < 2 ^ Z.of_nat w) by (apply Z.pow_pos_nonneg; lia).
    assert (E : benc blizzard (BInt lo w) (snd c) (VInt lo) (stream c)).
    { pose proof (be_int blizzard lo w (snd c) (stream c) Hl ltac:(discriminate)) as B.
      rewrite Es, small_be, Z.add_0_r, as_i64_id in B by (try assumption; unfold two63; lia). rewrite Es. exact B. }
    specialize (H Wrapping c (VInt lo) (stream c) [] eq_refl Hc E (eq_sym (app_nil_r _))). rewrite Hl in H. cbn [run] in H.
    destruct (lt_eq_lt_dec n w) as [[L|L]|L].
    + rewrite packed_cases in H by (try assumption; lia). destruct (Nat.ltb_spec (length (stream c)) n); [lia|]. cbn [obind] in H.
      exfalso. apply (advance_differs c w n L Hl). congruence.
    + subst n. rewrite packed_cases in H by (try assumption; lia). destruct (Nat.ltb_spec (length (stream c)) w); [lia|]. cbn [obind] in H.
      rewrite firstn_all2 in H by lia. rewrite Es, small_be in H by (try assumption; lia).
      assert (o + 0 = lo) by congruence. split; [lia|reflexivity].
    + exfalso. unfold parse_packed_int in H. pose proof (take_more c n Hc ltac:(lia)) as F.
      destruct (take_n_bits_into_i64 c n) as [r| |]; [apply (F r); reflexivity|discriminate|discriminate].
  - intros [-> ->] m c v bits rest Hq Hc He Es. change (run m (KInt lo w) c) with (bparse m (BInt lo w) c).
    apply (blizzard_round_trip m (BInt lo w) c v bits rest); try assumption. cbn [wf_bty]. apply andb_true_iff.
    split; [apply Nat.leb_le; lia|]. apply in_i64_true. unfold two63. lia.
Qed.

(** C113. *)
Lemma int_decl_iff : forall b o n, gen Decl (NInt b) = Ok (KInt o n) -> lowest b <= highest b -> highest b - lowest b < 2 ^ 32 ->
  - 2 ^ 60 <= b_min b <= 2 ^ 60 ->
  (reads (KInt o n) (layout (NInt b)) <-> b_min_incl b = true /\ n = width (lowest b) (highest b)).
Proof.
  intros b o n H Hle Hr Hm.
  assert (o = b_min b).
  { cbn [gen] in H. unfold gen_int in H. destruct (b_exact b); [discriminate|]. destruct (b_expr b) as [|p|]; cbn [obind] in H; congruence. }
  subst o. cbn [layout].
  assert (W : (width (lowest b) (highest b) <= 32)%nat) by (apply width_least; assumption).
  rewrite int_reads_iff; [| exact W | unfold lowest; destruct (b_min_incl b); lia | lia].
  unfold lowest. destruct (b_min_incl b); split; intros [A B]; (split; [|exact B]); try reflexivity; try lia; discriminate.
Qed.

Lemma array_too_wide : forall n k w t, (w < n)%nat -> ~ reads (KArray n k) (BArray w t).
Proof.
  intros n k w t Hn H. destruct (exact_cursor w 0) as (c & Hc & Es).
  assert (Hoff : (snd c < 8)%nat) by (destruct Hc as (_ & ? & _); assumption).
  assert (Hl : length (stream c) = w) by (rewrite Es; apply be_bits_length; assumption).
  assert (P0 : 0 < 2 ^ Z.of_nat w) by (apply Z.pow_pos_nonneg; lia).
  assert (E : benc blizzard (BArray w t) (snd c) (VList []) (stream c)).
  { rewrite <- (app_nil_r (stream c)). apply be_array; [exact Hl| |apply bel_nil]. rewrite Es, small_be by (try assumption; lia). reflexivity. }
  specialize (H Wrapping c (VList []) (stream c) [] eq_refl Hc E (eq_sym (app_nil_r _))). cbn [run] in H.
  pose proof (take_more c n Hc ltac:(lia)) as F.
  destruct (take_n_bits_into_i64 c n) as [r| |]; [apply (F r); reflexivity|discriminate|discriminate].
Qed.

(** C111. *)
Lemma array_decl_iff : forall d b t k, plain_length b = true -> plain Decl t = true -> gen Decl (NArray d b (NUser t)) = Ok k ->
  (reads k (layout (NArray d b (NUser t))) <-> is_pow2 (highest b + 1) = false).
Proof.
  intros d b t k Hb Ht Ek. split.
  - intros H. destruct (is_pow2 (highest b + 1)) eqn:Q; [|reflexivity]. exfalso.
    apply plain_length_ok in Hb as (_ & _ & _ & Hh). cbn [gen] in Ek. destruct (gen Decl t) as [k0| |]; cbn [obind] in Ek; try discriminate.
    injection Ek as <-. cbn [layout] in H. revert H. apply array_too_wide. unfold array_bits. rewrite max_plus_highest, width_0 by lia.
    destruct (Z.eq_dec (highest b) 0) as [E|E]; [rewrite E; cbn; lia|].
    assert (floor_log2_1 (highest b + 1) <> floor_log2_1 (highest b)).
    { intros F. apply log2_succ in F; [congruence|lia]. }
    assert (floor_log2_1 (highest b) <= floor_log2_1 (highest b + 1))%nat; [|lia].
    unfold floor_log2_1. destruct (Z.leb_spec (highest b) 0); [lia|]. destruct (Z.leb_spec (highest b + 1) 0); [lia|].
    apply Z2Nat.inj_le; [pose proof (Z.log2_nonneg (highest b)); lia|pose proof (Z.log2_nonneg (highest b + 1)); lia|].
    assert (Z.log2 (highest b) <= Z.log2 (highest b + 1)) by (apply Z.log2_le_mono; lia). lia.
  - intros Q. assert (Hp : plain Decl (NArray d b (NUser t)) = true).
    { cbn [plain]. unfold odd_length. rewrite Hb, Q, Ht. reflexivity. }
    destruct (generated_reads _ Hp) as (k' & Ek' & Hr). assert (k' = k) by congruence. subst k'. exact Hr.
Qed.

(** C112. *)
Lemma max_tag_in : forall l, l <> [] -> (forall z, In z l -> 0 <= z) -> In (max_tag l) l.
Proof.
  induction l as [|a l IH]; intros Hn H; [congruence|]. destruct l as [|a' l].
  - left. cbn. pose proof (H a (or_introl eq_refl)). lia.
  - assert (I1 : In (max_tag (a' :: l)) (a' :: l)). { apply IH; [discriminate|]. intros z Hz. apply H. right. assumption. }
    change (max_tag (a :: a' :: l)) with (Z.max a (max_tag (a' :: l))).
    destruct (Z.max_spec a (max_tag (a' :: l))) as [[_ ->]|[_ ->]]; [right; assumption|left; reflexivity].
Qed.

Lemma max_tag_nonneg : forall l, 0 <= max_tag l.
Proof. induction l as [|a l IH]; cbn [max_tag fold_right]; [lia|]. unfold max_tag in IH. lia. Qed.

Lemma distinct_tags : forall l, NoDup l -> (forall z, In z l -> 0 <= z) -> Z.of_nat (length l) <= max_tag l + 1.
Proof.
  intros l Hd H. assert (L : (length l <= length (map Z.of_nat (seq 0 (Z.to_nat (max_tag l + 1)))))%nat).
  { apply NoDup_incl_length; [assumption|]. intros z Hz. apply in_map_iff. exists (Z.to_nat z). pose proof (H z Hz). pose proof (max_tag_ge l z Hz).
    split; [lia|]. apply in_seq. lia. }
  rewrite map_length, seq_length in L. pose proof (max_tag_nonneg l). lia.
Qed.

Lemma enum_decl_iff : forall vs k, gen Decl (NEnum vs) = Ok k -> vs <> [] -> NoDup (map fst vs) -> (Z.of_nat (length vs) <= 2 ^ 20) ->
  (forall z s, In (z, s) vs -> 0 <= z < 2 ^ 32) ->
  (reads k (layout (NEnum vs)) <-> forall z s, In (z, s) vs -> z < 2 ^ Z.log2_up (Z.of_nat (length vs))).
Proof.
  intros vs k Ek Hn Hd _ Hr. cbn [gen] in Ek. injection Ek as <-. cbn [layout].
  set (M := max_tag (map fst vs)). set (w := width 0 M). set (n := ceil_log2 (length vs)).
  assert (Hin : forall z, In z (map fst vs) -> 0 <= z < 2 ^ 32). { intros z Hz. apply in_map_iff in Hz as ([z' s] & <- & Hz). apply (Hr z' s Hz). }
  assert (HM : In M (map fst vs)). { apply max_tag_in; [destruct vs; [congruence|discriminate]|]. intros z Hz. apply Hin. assumption. }
  assert (HM' : 0 <= M < 2 ^ 32) by (apply Hin; assumption).
  destruct (width_least 0 M ltac:(lia)) as [Wl Wm]. fold w in Wl, Wm. rewrite Z.sub_0_r in Wl, Wm.
  assert (Hw32 : (w <= 32)%nat) by (apply Wm; exact (proj2 HM')).
  assert (Hnw : (n <= w)%nat).
  { assert (D : Z.of_nat (length vs) <= M + 1).
    { rewrite <- (map_length fst vs). apply distinct_tags; [assumption|]. intros z Hz. apply Hin. assumption. }
    unfold n, w, ceil_log2, width. apply Z2Nat.inj_le; [apply Z.log2_up_nonneg|apply Z.log2_up_nonneg|]. apply Z.log2_up_le_mono. lia. }
  assert (Hpow : 2 ^ Z.log2_up (Z.of_nat (length vs)) = 2 ^ Z.of_nat n).
  { unfold n, ceil_log2. rewrite Z2Nat.id by apply Z.log2_up_nonneg. reflexivity. }
  rewrite Hpow.
  assert (Hall : (forall z s, In (z, s) vs -> z < 2 ^ Z.of_nat n) <-> n = w).
  { split.
    - intros H. apply in_map_iff in HM as ([z s] & Ez & Hz). cbn [fst] in Ez. pose proof (H z s Hz) as L. rewrite Ez in L. specialize (Wm n L). lia.
    - intros -> z s Hz. assert (In z (map fst vs)) by (apply in_map_iff; exists (z, s); auto). pose proof (max_tag_ge _ z H) as G. fold M in G. lia. }
  rewrite Hall. split.
  - intros H. destruct (Nat.eq_dec n w) as [|Ne]; [assumption|]. exfalso.
    apply in_map_iff in HM as ([z s] & Ez & Hz). cbn [fst] in Ez.
    destruct (exact_cursor w M) as (c & Hc & Es).
    assert (Hoff : (snd c < 8)%nat) by (destruct Hc as (_ & ? & _); assumption).
    assert (Hl : length (stream c) = w) by (rewrite Es; apply be_bits_length; assumption).
    assert (E : benc blizzard (BEnum w vs) (snd c) (VEnum s) (stream c)).
    { apply be_enum; [exact Hl|]. rewrite Es, small_be by (try assumption; lia). rewrite <- Ez. exact Hz. }
    specialize (H Wrapping c (VEnum s) (stream c) [] eq_refl Hc E (eq_sym (app_nil_r _))). rewrite Hl in H. cbn [run] in H.
    rewrite packed_cases in H by (try assumption; lia). destruct (Nat.ltb_spec (length (stream c)) n); [lia|]. cbn [obind] in H.
    destruct (find_enum vs _); [|discriminate]. apply (advance_differs c w n ltac:(lia) Hl). congruence.
  - intros E m c v bits rest Hq Hc He Es. rewrite E. change (run m (KEnum w vs) c) with (bparse m (BEnum w vs) c).
    apply (blizzard_round_trip m (BEnum w vs) c v bits rest); try assumption. cbn [wf_bty]. apply andb_true_iff.
    split; [apply Nat.leb_le; lia|apply nodup_z_ok; assumption].
Qed.
Lemma int_literal_iff : forall b, b_exact b = false -> b_min_incl b = true -> b_expr b = Lit -> 0 < highest b -> lowest b <= highest b -> highest b - lowest b < 2 ^ 32 -> - 2 ^ 60 <= b_min b <= 2 ^ 60 ->
  exists k, gen Decl (NInt b) = Ok k /\ (reads k (layout (NInt b)) <-> Z.of_nat (width (lowest b) (highest b)) = Z.log2 (highest b) + (if b_min b <? 0 then 2 else 1)).
Proof.
  intros b Hx Hi He Hh Hl Hw Hm. set (n := if b_min b <? 0 then Datatypes.S (floor_log2_1 (highest b)) else floor_log2_1 (highest b)).
  assert (G : gen Decl (NInt b) = Ok (KInt (b_min b) n)).
  { cbn [gen]. unfold gen_int. rewrite Hx, He. cbn [obind]. unfold max_value_to_bit_size. rewrite Hi. unfold n, highest. destruct (b_max_incl b); reflexivity. }
  exists (KInt (b_min b) n). split; [exact G|]. rewrite (int_decl_iff b _ _ G Hl Hw Hm). pose proof (Z.log2_nonneg (highest b)).
  assert (N : Z.of_nat n = Z.log2 (highest b) + (if b_min b <? 0 then 2 else 1)).
  { unfold n, floor_log2_1. destruct (Z.leb_spec (highest b) 0); [lia|]. destruct (b_min b <? 0); lia. }
  split; [intros [_ E]; rewrite <- E; exact N|]. intros E. split; [exact Hi|]. apply Nat2Z.inj. congruence.
Qed.
