(** * A reference encoder for the bit-packed format

    One particular writer of Blizzard's format (padding bits are 0, a
    [BBitInt] is written with as few bits as possible).  [None] means the
    value is not of the type or does not fit. *)
From Verif Require Import Base BitSpec BitPacked BitProofs Types Versioned BitInterp BitFormat VersionedSpec VersionedProofs BitExact BitTotal VersionedEncode.
#[local] Open Scope list_scope.

Definition benc_num (off n : nat) (z : Z) : option (list bool) :=
  if (0 <=? z) && (z <? 2 ^ Z.of_nat n) then Some (be_bits off n z) else None.

Definition padding (off : nat) : list bool := repeat false ((8 - off) mod 8).

Fixpoint benc_seq (e : nat -> val -> option (list bool)) (off : nat) (vs : list val) : option (list bool) :=
  match vs with
  | [] => Some []
  | v :: vs' => opt_bind (e off v) (fun l => opt_bind (benc_seq e (after off l) vs') (fun l' => Some (l ++ l')))
  end.

Fixpoint benc_struct (fs : list (string * (nat -> val -> option (list bool)))) (off : nat) (vs : list (string * val)) : option (list bool) :=
  match fs, vs with
  | [], [] => Some []
  | (n, e) :: fs', (n', v) :: vs' =>
      if String.eqb n n' then
        opt_bind (e off v) (fun l => opt_bind (benc_struct fs' (after off l) vs') (fun l' => Some (l ++ l')))
      else None
  | _, _ => None
  end.

Fixpoint bencode (t : bty) (off : nat) (v : val) {struct t} : option (list bool) :=
  match t, v with
  | BInt o n, VInt z =>
      let raw := (z - o) mod 2 ^ Z.of_nat n in
      if as_i64 (o + raw) =? z then Some (be_bits off n raw) else None
  | BBool, VBool b => Some [b]
  | BByte, VInt z => benc_num off 8 z
  | BFourcc, VBytes l =>
      if forallb in_u8 l && Nat.eqb (length l) 4 then Some (flat_map (be_bits off 8) l) else None
  | BNull, VNull | BUnit, VNull => Some []
  | BOpt _, VOpt None | BOptReread _, VOpt None => Some [false]
  | BOpt t', VOpt (Some v') | BOptReread t', VOpt (Some v') =>
      opt_bind (bencode t' (after off [true]) v') (fun l => Some (true :: l))
  | BArray n t', VList vs =>
      opt_bind (benc_num off n (Z.of_nat (length vs))) (fun ln =>
      opt_bind (benc_seq (bencode t') (after off ln) vs) (fun l => Some (ln ++ l)))
  | BBlob n, VBytes l =>
      if forallb in_u8 l then
        opt_bind (benc_num off n (Z.of_nat (length l))) (fun ln =>
          Some (ln ++ padding (after off ln) ++ flat_map byte_bits l))
      else None
  | BFixedBlob k, VBytes l =>
      if forallb in_u8 l && (Z.of_nat (length l) =? k) then Some (padding off ++ flat_map byte_bits l) else None
  | BBitInt n, VInt z =>
      if in_i64 z then
        let k := if z <? 0 then 64 else if z =? 0 then 0 else Z.log2 z + 1 in
        opt_bind (benc_num off n k) (fun ln => Some (ln ++ be_bits (after off ln) (Z.to_nat k) (z mod 2 ^ 64)))
      else None
  | BBitArray n, VBytes l =>
      if forallb in_u8 l then
        opt_bind (benc_num off n (8 * Z.of_nat (length l))) (fun ln =>
          Some (ln ++ flat_map (be_bits (after off ln) 8) l))
      else None
  | BEnum n l, VEnum s => opt_bind (find_ename l s) (benc_num off n)
  | BChoice n l, VChoice s v' =>
      opt_bind (find_name (map (fun x => (fst x, bencode (snd x))) l) s) (fun ze =>
      opt_bind (benc_num off n (fst ze)) (fun ln => opt_bind (snd ze (after off ln) v') (fun b => Some (ln ++ b))))
  | BStruct fs, VStruct vs => benc_struct (map (fun x => (fst x, bencode (snd x))) fs) off vs
  | _, _ => None
  end.
#[local] Arguments opt_bind : simpl never.

Lemma benc_num_ok : forall off n z l, (off < 8)%nat -> benc_num off n z = Some l -> length l = n /\ be_value off l = z.
Proof.
  intros off n z l Ho H. unfold benc_num in H. destruct ((0 <=? z) && (z <? 2 ^ Z.of_nat n)) eqn:E; [|discriminate].
  injection H as <-. apply andb_true_iff in E as [E1 E2]. apply Z.leb_le in E1. apply Z.ltb_lt in E2.
  rewrite be_bits_length, be_bits_value by assumption. rewrite Z.mod_small by lia. auto.
Qed.

Lemma after_lt : forall off l, (after off l < 8)%nat.
Proof. intros. apply Nat.mod_upper_bound. lia. Qed.

Lemma forallb_u8 : forall l, forallb in_u8 l = true -> bytes_ok l.
Proof.
  intros l H. rewrite forallb_forall in H. apply Forall_forall. intros x Hx. specialize (H x Hx).
  unfold in_u8 in H. apply andb_true_iff in H as [H1 H2]. apply Z.leb_le in H1. apply Z.ltb_lt in H2. split; assumption.
Qed.

Lemma be_bytes_groups : forall off l, (off < 8)%nat -> bytes_ok l ->
  length (flat_map (be_bits off 8) l) = (8 * length l)%nat /\ be_bytes off (flat_map (be_bits off 8) l) = l.
Proof.
  intros off l Ho; induction l as [|b l IH]; intros H; [split; reflexivity|]. inversion H as [|x y Hb Hl]; subst.
  destruct (IH Hl) as [I1 I2]. cbn [flat_map]. pose proof (be_bits_length 8 off b Ho) as L. split.
  - rewrite app_length, I1, L. cbn [length]. lia.
  - rewrite be_bytes_step by (intros E; apply (f_equal (@length bool)) in E; rewrite app_length, L in E; cbn [length] in E; lia).
    rewrite firstn_app, skipn_app, L, Nat.sub_diag, firstn_O, skipn_O, app_nil_r.
    rewrite firstn_all2 by lia. rewrite skipn_all2 by lia. cbn [app]. rewrite I2.
    rewrite be_bits_value by assumption. unfold byte_ok in Hb. change (2 ^ Z.of_nat 8) with 256. rewrite Z.mod_small by lia. reflexivity.
Qed.

Lemma padding_ok : forall off, is_pad off (padding off).
Proof. intros. unfold is_pad, padding. apply repeat_length. Qed.

Lemma bencode_benc : forall t, wf_bty t = true -> forall off v l, (off < 8)%nat -> bencode t off v = Some l -> benc blizzard t off v l.
Proof.
  induction t using bty_ind'; intros Hwf off v bl Ho Hr; destruct v; try discriminate; cbn [bencode wf_bty] in *.
  - destruct (Z.eqb_spec (as_i64 (o + (z - o) mod 2 ^ Z.of_nat n)) z) as [E|]; [|discriminate]. injection Hr as <-.
    assert (P : 0 < 2 ^ Z.of_nat n) by (apply Z.pow_pos_nonneg; lia).
    pose proof (be_int blizzard o n off (be_bits off n ((z - o) mod 2 ^ Z.of_nat n)) (be_bits_length _ _ _ Ho) ltac:(discriminate)) as B.
    rewrite be_bits_value in B by assumption. rewrite Z.mod_mod in B by lia. rewrite E in B. exact B.
  - injection Hr as <-. constructor.
  - apply benc_num_ok in Hr as [L <-]; [|assumption]. constructor; assumption.
  - destruct (forallb in_u8 l && Nat.eqb (length l) 4) eqn:E; [|discriminate]. injection Hr as <-.
    apply andb_true_iff in E as [E1 E2]. apply Nat.eqb_eq in E2. apply forallb_u8 in E1.
    destruct (be_bytes_groups off l Ho E1) as [G1 G2]. rewrite <- G2 at 1. constructor. rewrite G1, E2. reflexivity.
  - injection Hr as <-. constructor.
  - injection Hr as <-. constructor.
  - destruct o as [v|]; [|injection Hr as <-; constructor]. inv_ob. injection Hr as <-. apply be_some. apply IHt; auto using after_lt.
  - destruct o as [v|]; [|injection Hr as <-; constructor]. inv_ob. injection Hr as <-. apply andb_true_iff in Hwf as [Hwf _].
    apply be_rsome; [reflexivity|]. apply IHt; auto using after_lt.
  - apply andb_true_iff in Hwf as [_ Hwf]. inv_ob. injection Hr as <-.
    match goal with E : benc_num _ _ _ = Some _ |- _ => apply benc_num_ok in E as [L V]; [|assumption] end.
    apply be_array; auto.
    match goal with E : benc_seq _ _ _ = Some ?r |- _ => revert E; generalize r; pose proof (after_lt off x) as Ha; revert Ha; generalize (after off x) end.
    clear - IHt Hwf. induction l as [|v vs IH]; intros o Ho r E; cbn [benc_seq] in E.
    + injection E as <-. constructor.
    + inv_ob. injection E as <-. constructor; auto using after_lt.
  - destruct (forallb in_u8 l) eqn:E; [|discriminate]. apply forallb_u8 in E. inv_ob. injection Hr as <-.
    match goal with E : benc_num _ _ _ = Some _ |- _ => apply benc_num_ok in E as [L V]; [|assumption] end.
    replace (VBytes l) with (blob_value blizzard l) by (destruct l; reflexivity).
    apply be_blob; auto using padding_ok.
  - destruct (forallb in_u8 l && (Z.of_nat (length l) =? n)) eqn:E; [|discriminate]. injection Hr as <-.
    apply andb_true_iff in E as [E1 E2]. apply Z.eqb_eq in E2. apply forallb_u8 in E1.
    replace (VBytes l) with (blob_value blizzard l) by (destruct l; reflexivity).
    apply be_fixed; auto using padding_ok.
  - destruct (in_i64 z) eqn:E; [|discriminate]. inv_ob. injection Hr as <-.
    match goal with E : benc_num _ _ _ = Some _ |- _ => apply benc_num_ok in E as [L V]; [|assumption] end.
    apply in_i64_true in E. set (k := if z <? 0 then 64 else if z =? 0 then 0 else Z.log2 z + 1) in *.
    assert (K : 0 <= k <= 64 /\ as_i64 (z mod 2 ^ 64 mod 2 ^ k) = z).
    { unfold k. destruct (Z.ltb_spec z 0).
      - split; [lia|]. rewrite Z.mod_mod by lia. unfold as_i64, two63, two64 in *. dlia.
      - destruct (Z.eqb_spec z 0) as [->|]; [split; [lia|reflexivity]|].
        pose proof (Z.log2_spec z ltac:(lia)) as Hlog. pose proof (Z.log2_nonneg z) as Hlog0.
        assert (Hl : Z.log2 z < 63) by (apply Z.log2_lt_pow2; [lia|change (2 ^ 63) with two63; lia]).
        split; [lia|]. rewrite (Z.mod_small z (2 ^ 64)) by (unfold two63 in *; lia).
        rewrite Z.mod_small by (rewrite <- Z.add_1_r in Hlog; lia). apply as_i64_id. lia. }
    destruct K as [K1 K2].
    pose proof (be_bitint blizzard n off x (be_bits (after off x) (Z.to_nat k) (z mod 2 ^ 64)) L) as B.
    rewrite be_bits_length, be_bits_value in B by apply after_lt. rewrite Z2Nat.id in B by lia. rewrite K2 in B. apply B; [assumption|lia].
  - destruct (forallb in_u8 l) eqn:E; [|discriminate]. apply forallb_u8 in E. inv_ob. injection Hr as <-.
    match goal with E : benc_num _ _ _ = Some _ |- _ => apply benc_num_ok in E as [L V]; [|assumption] end.
    destruct (be_bytes_groups (after off x) l (after_lt _ _) E) as [G1 G2].
    replace (VBytes l) with (blob_value blizzard (be_bytes (after off x) (flat_map (be_bits (after off x) 8) l)))
      by (rewrite G2; destruct l; reflexivity).
    apply be_bitarray; [assumption|rewrite V, G1; lia].
  - inv_ob. match goal with E : find_ename _ _ = Some _ |- _ => apply find_ename_in in E end.
    apply benc_num_ok in Hr as [L V]; [|assumption]. apply be_enum; [assumption|]. rewrite V. assumption.
  - apply andb_true_iff in Hwf as [_ Hall]. inv_ob. injection Hr as <-. destruct x as [z e]. cbn [fst snd] in *.
    match goal with E : find_name _ _ = Some _ |- _ => apply find_name_in in E as (t & Hin & ->) end.
    match goal with E : benc_num _ _ _ = Some _ |- _ => apply benc_num_ok in E as [L V]; [|assumption] end.
    rewrite Forall_forall in H. rewrite forallb_forall in Hall.
    apply (be_choice blizzard n l off x0 s t v x1); [assumption|rewrite V; assumption|].
    apply (H _ Hin); auto using after_lt.
  - constructor. revert off l0 bl Ho Hr Hwf. induction H as [|[n t] fs Ht Hfs IH]; intros off vs bl Ho Hr Hwf; cbn [map benc_struct fst snd] in Hr.
    + destruct vs; [|discriminate]. injection Hr as <-. constructor.
    + destruct vs as [|[n' v] vs]; [discriminate|]. destruct (String.eqb_spec n n') as [<-|]; [|discriminate].
      inv_ob. injection Hr as <-. cbn [forallb snd] in *. apply andb_true_iff in Hwf as [W1 W2].
      constructor; [apply Ht|apply IH]; auto using after_lt.
Qed.

Lemma bencode_round_trip : forall m t c v bits rest, wf_bty t = true -> quirk_free m t v = true -> cursor_ok c ->
  bencode t (snd c) v = Some bits -> stream c = bits ++ rest -> bparse m t c = Ok (advance c (length bits), v).
Proof.
  intros m t c v bits rest Hwf Hq Hc E Es. apply (blizzard_round_trip m t c v bits rest); auto.
  apply bencode_benc; auto. destruct Hc as (_ & ? & _); assumption.
Qed.

(** Bits grouped into bytes, the last one padded with zeros; used by the examples. *)
Fixpoint pack_fuel (fuel : nat) (bits : list bool) : list Z :=
  match fuel, bits with
  | O, _ | _, [] => []
  | S f, _ => lsb_value (firstn 8 bits) :: pack_fuel f (skipn 8 bits)
  end.
Definition pack_bits (bits : list bool) : list Z := pack_fuel (length bits) bits.
