(** * The bit-packed decoders accept exactly the encodings (BitFormat) *)
From Verif Require Import Base BitSpec BitPacked BitProofs Types Versioned BitInterp BitFormat VersionedSpec VersionedProofs.

Definition pre (l s : list bool) : Prop := exists r, s = l ++ r.

Lemma pre_firstn : forall n s, (n <= length s)%nat -> pre (firstn n s) s.
Proof. intros n s H. exists (skipn n s). symmetry. apply firstn_skipn. Qed.

Lemma step_facts : forall c l r, cursor_ok c -> stream c = l ++ r ->
  cursor_ok (advance c (length l)) /\ stream (advance c (length l)) = r /\ snd (advance c (length l)) = after (snd c) l.
Proof.
  intros c l r Hc E. split; [|split].
  - apply advance_ok; [assumption|]. rewrite E, app_length. lia.
  - rewrite stream_advance, E, skipn_app, skipn_all, Nat.sub_diag. reflexivity.
  - apply advance_snd.
Qed.

Lemma pre_app : forall c l1 l2, cursor_ok c -> pre l1 (stream c) ->
  pre l2 (stream (advance c (length l1))) -> pre (l1 ++ l2) (stream c).
Proof.
  intros c l1 l2 Hc [r E] [r2 E2]. destruct (step_facts c l1 r Hc E) as (_ & E1 & _).
  exists r2. rewrite E, <- app_assoc. f_equal. rewrite <- E1. exact E2.
Qed.

Lemma adv_app : forall c (l1 l2 : list bool), advance (advance c (length l1)) (length l2) = advance c (length (l1 ++ l2)).
Proof. intros. rewrite advance_add, app_length. reflexivity. Qed.

Lemma pre_ltb : forall c l n, pre l (stream c) -> length l = n -> Nat.ltb (length (stream c)) n = false /\ firstn n (stream c) = l.
Proof.
  intros c l n [r E] <-. split.
  - apply Nat.ltb_ge. rewrite E, app_length. lia.
  - rewrite E, firstn_app, Nat.sub_diag, firstn_all, firstn_O. apply app_nil_r.
Qed.

(** ** integers *)
Lemma take_n_ok : forall c n c' z, cursor_ok c -> (n <= 64)%nat -> take_n_bits_into_i64 c n = Ok (c', z) ->
  exists l, length l = n /\ pre l (stream c) /\ c' = advance c (length l) /\ z = as_i64 (be_value (snd c) l).
Proof.
  intros c n c' z Hc Hn H. rewrite take_n_bits_spec in H by assumption.
  destruct (Nat.ltb_spec (length (stream c)) n) as [|Hl]; [discriminate|]. injection H as <- <-.
  exists (firstn n (stream c)). rewrite firstn_length_le by assumption.
  repeat split; auto using pre_firstn.
Qed.

Lemma take_n_complete : forall c l, cursor_ok c -> (length l <= 64)%nat -> pre l (stream c) ->
  take_n_bits_into_i64 c (length l) = Ok (advance c (length l), as_i64 (be_value (snd c) l)).
Proof.
  intros c l Hc Hn Hp. rewrite take_n_bits_spec by assumption.
  destruct (pre_ltb c l _ Hp eq_refl) as [-> ->]. reflexivity.
Qed.

Lemma len_small : forall c l, cursor_ok c -> (length l <= 32)%nat -> 0 <= be_value (snd c) l < 2 ^ 32.
Proof.
  intros c l (_ & Ho & _) Hl. pose proof (be_value_bound l (snd c) Ho) as B.
  assert (2 ^ Z.of_nat (length l) <= 2 ^ 32) by (apply Z.pow_le_mono_r; lia). lia.
Qed.

Lemma small_as : forall z, 0 <= z < 2 ^ 32 -> as_i64 z = z /\ as_u64 z = z.
Proof.
  intros z Hz. split.
  - apply as_i64_id. unfold two63. lia.
  - unfold as_u64. apply Z.mod_small. unfold two64. lia.
Qed.

Lemma take_len_ok : forall c n c' z, cursor_ok c -> (n <= 32)%nat -> take_n_bits_into_i64 c n = Ok (c', z) ->
  exists l, length l = n /\ pre l (stream c) /\ c' = advance c (length l) /\ z = be_value (snd c) l /\ as_u64 z = z /\ 0 <= z < 2 ^ 32.
Proof.
  intros c n c' z Hc Hn H. apply take_n_ok in H; [|assumption|lia]. destruct H as (l & Hl & Hp & -> & ->).
  exists l. pose proof (len_small c l Hc ltac:(lia)) as B. destruct (small_as _ B) as [-> ->]. auto 10.
Qed.

Lemma packed_len_ok : forall m c n c' z, cursor_ok c -> (n <= 32)%nat -> parse_packed_int m c 0 n = Ok (c', z) ->
  exists l, length l = n /\ pre l (stream c) /\ c' = advance c (length l) /\ z = be_value (snd c) l /\ as_u64 z = z /\ 0 <= z < 2 ^ 32.
Proof.
  intros m c n c' z Hc Hn H. unfold parse_packed_int in H.
  apply obind_ok in H as ([c1 z1] & H1 & H). apply obind_ok in H as (z2 & H2 & H). injection H as <- <-.
  apply take_len_ok in H1 as (l & Hl & Hp & -> & -> & Hu & Hb); try assumption.
  unfold add_i64, ovf_i64 in H2. rewrite Z.add_0_l in H2.
  assert (Hi : in_i64 (be_value (snd c) l) = true) by (apply in_i64_true; unfold two63; lia).
  rewrite Hi in H2. injection H2 as <-. exists l. auto 10.
Qed.

Lemma take_len_complete : forall c l, cursor_ok c -> (length l <= 32)%nat -> pre l (stream c) ->
  take_n_bits_into_i64 c (length l) = Ok (advance c (length l), be_value (snd c) l) /\ as_u64 (be_value (snd c) l) = be_value (snd c) l.
Proof.
  intros c l Hc Hn Hp. rewrite take_n_complete by (assumption || lia).
  destruct (small_as _ (len_small c l Hc Hn)) as [-> ->]. auto.
Qed.

Lemma packed_len_complete : forall m c l, cursor_ok c -> (length l <= 32)%nat -> pre l (stream c) ->
  parse_packed_int m c 0 (length l) = Ok (advance c (length l), be_value (snd c) l).
Proof.
  intros m c l Hc Hn Hp. unfold parse_packed_int. destruct (take_len_complete c l Hc Hn Hp) as [-> _]. cbn [obind].
  unfold add_i64, ovf_i64. rewrite Z.add_0_l.
  pose proof (len_small c l Hc Hn). replace (in_i64 (be_value (snd c) l)) with true; [reflexivity|].
  symmetry. apply in_i64_true. unfold two63. lia.
Qed.

(** ** bytes *)
Lemma byte_bits_lsb : forall b, byte_ok b -> lsb_value (byte_bits b) = b.
Proof.
  intros b Hb. assert (H : forall x, In x (seq 0 256) -> lsb_value (byte_bits (Z.of_nat x)) = Z.of_nat x).
  { assert (E : forallb (fun x => lsb_value (byte_bits (Z.of_nat x)) =? Z.of_nat x) (seq 0 256) = true) by (vm_compute; reflexivity).
    rewrite forallb_forall in E. intros x Hx. apply Z.eqb_eq. apply E. assumption. }
  specialize (H (Z.to_nat b)). rewrite Z2Nat.id in H by (destruct Hb; lia). apply H. apply in_seq. unfold byte_ok in Hb. lia.
Qed.

Lemma lsb_byte_bits : forall l, length l = 8%nat -> byte_bits (lsb_value l) = l /\ byte_ok (lsb_value l).
Proof.
  intros l H. do 8 (destruct l as [|? l]; [discriminate|]). destruct l; [|discriminate].
  split; [|pose proof (lsb_value_bound [b; b0; b1; b2; b3; b4; b5; b6]) as B; cbn [length] in B; exact B].
  destruct b, b0, b1, b2, b3, b4, b5, b6; reflexivity.
Qed.

Lemma be_bytes_flat : forall l, bytes_ok l -> be_bytes 0 (flat_map byte_bits l) = l.
Proof.
  induction l as [|b l IH]; intros H; [reflexivity|]. inversion H; subst.
  cbn [flat_map]. rewrite be_bytes_step by (rewrite <- (firstn_skipn 8 (_ ++ _)); discriminate).
  rewrite firstn_app, skipn_app, byte_bits_length, Nat.sub_diag, firstn_O, skipn_O, app_nil_r.
  rewrite firstn_all2 by (rewrite byte_bits_length; lia). rewrite skipn_all2 by (rewrite byte_bits_length; lia).
  rewrite be_value_one_chunk by (rewrite ?byte_bits_length; lia). rewrite byte_bits_lsb by assumption.
  cbn [app]. rewrite IH by assumption. reflexivity.
Qed.

Lemma flat_be_bytes : forall n l, length l = (8 * n)%nat -> flat_map byte_bits (be_bytes 0 l) = l /\ bytes_ok (be_bytes 0 l).
Proof.
  induction n as [|n IH]; intros l H.
  - destruct l; [|discriminate]. split; [reflexivity|constructor].
  - assert (H8 : length (firstn 8 l) = 8%nat) by (rewrite firstn_length_le; lia).
    rewrite be_bytes_step by (intros ->; discriminate).
    rewrite be_value_one_chunk by lia. destruct (lsb_byte_bits _ H8) as [E1 E2].
    destruct (IH (skipn 8 l)) as [I1 I2]; [rewrite skipn_length; lia|].
    split; [|constructor; assumption]. cbn [flat_map]. rewrite E1, I1. apply firstn_skipn.
Qed.

Lemma align_room : forall c, cursor_ok c -> ((8 - snd c) mod 8 <= length (stream c))%nat.
Proof.
  intros [bs off] (Hb & Ho & Hne). rewrite stream_length. cbn [fst snd] in *.
  destruct (Nat.eq_dec off 0) as [->|H0]; [cbn; lia|]. rewrite Nat.mod_small by lia.
  destruct bs; [exfalso; apply Hne; auto|]. cbn [length]. lia.
Qed.

Lemma aligned_after_pad : forall off pad, (off < 8)%nat -> is_pad off pad -> after off pad = 0%nat.
Proof.
  intros off pad Ho Hp. unfold after. rewrite Hp. destruct (Nat.eq_dec off 0) as [->|H]; [reflexivity|].
  rewrite (Nat.mod_small (8 - off)) by lia. replace (off + (8 - off))%nat with (1 * 8)%nat by lia. apply Nat.mod_mul. lia.
Qed.

Lemma align_sound : forall c c', cursor_ok c -> byte_align c = Ok c' ->
  exists pad, is_pad (snd c) pad /\ pre pad (stream c) /\ c' = advance c (length pad) /\ snd c' = 0%nat.
Proof.
  intros c c' Hc H. rewrite byte_align_spec in H by assumption. injection H as <-.
  pose proof (align_room c Hc) as R. set (k := ((8 - snd c) mod 8)%nat) in *.
  exists (firstn k (stream c)). assert (L : length (firstn k (stream c)) = k) by (apply firstn_length_le; assumption).
  rewrite L. repeat split; auto using pre_firstn.
  rewrite advance_snd. assert (P : is_pad (snd c) (firstn k (stream c))) by (unfold is_pad; rewrite L; reflexivity).
  apply aligned_after_pad in P; [|destruct Hc as (_ & ? & _); assumption]. unfold after in P. rewrite L in P. exact P.
Qed.

Lemma align_complete : forall c pad, cursor_ok c -> is_pad (snd c) pad -> byte_align c = Ok (advance c (length pad)).
Proof. intros c pad Hc Hp. rewrite byte_align_spec by assumption. rewrite Hp. reflexivity. Qed.

(** An array of [n] bits. *)
Definition arr_value (l : list Z) : list Z := match l with [] => [0] | _ => l end.

Lemma take_array_ok : forall c n c' l, cursor_ok c -> 0 <= n -> take_bit_array c n = Ok (c', l) ->
  exists b, Z.of_nat (length b) = n /\ pre b (stream c) /\ c' = advance c (length b) /\ l = arr_value (be_bytes (snd c) b).
Proof.
  intros c n c' l Hc Hn H. destruct (Z.eq_dec n 0) as [->|H0].
  - rewrite take_bit_array_0 in H by assumption. injection H as <- <-. exists []. repeat split.
    + exists (stream c). reflexivity.
    + symmetry. apply advance_0. destruct Hc as (_ & ? & _); assumption.
  - rewrite take_bit_array_spec in H by (assumption || lia).
    destruct (Z.ltb_spec (Z.of_nat (length (stream c))) n) as [|Hl]; [discriminate|]. injection H as <- <-.
    exists (firstn (Z.to_nat n) (stream c)). rewrite firstn_length_le by lia. rewrite Z2Nat.id by lia.
    repeat split; [apply pre_firstn; lia|].
    destruct (be_bytes (snd c) _) eqn:E; [|reflexivity]. exfalso.
    apply (f_equal (@length Z)) in E. rewrite be_bytes_length, firstn_length_le in E by lia. cbn [length] in E.
    pose proof (Nat.div_mod (Z.to_nat n + 7) 8). lia.
Qed.

Lemma take_array_complete : forall c b, cursor_ok c -> pre b (stream c) ->
  take_bit_array c (Z.of_nat (length b)) = Ok (advance c (length b), arr_value (be_bytes (snd c) b)).
Proof.
  intros c b Hc Hp. destruct b as [|x b'] eqn:Eb.
  - cbn [length]. change (Z.of_nat 0) with 0. rewrite take_bit_array_0 by assumption.
    rewrite advance_0 by (destruct Hc as (_ & ? & _); assumption). reflexivity.
  - rewrite <- Eb in *. rewrite take_bit_array_spec by (assumption || (subst b; cbn [length]; lia)).
    destruct (pre_ltb c b _ Hp eq_refl) as [E1 E2]. apply Nat.ltb_ge in E1.
    destruct (Z.ltb_spec (Z.of_nat (length (stream c))) (Z.of_nat (length b))); [lia|].
    rewrite Nat2Z.id, E2. rewrite be_bytes_step by (subst b; discriminate). reflexivity.
Qed.

Lemma arr_blob : forall m l, VBytes (arr_value l) = blob_value (crate m) l.
Proof. intros m [|x l]; reflexivity. Qed.

Lemma flat_len : forall l : list Z, length (flat_map byte_bits l) = (8 * length l)%nat.
Proof. intros. apply flat_length. Qed.

Lemma as_i64_add : forall o z, as_i64 (o + as_i64 z) = as_i64 (o + z).
Proof.
  intros o z. destruct (as_i64_mod z) as [k ->]. unfold as_i64.
  replace (o + (z + k * two64) + two63) with (o + z + two63 + k * two64) by ring.
  rewrite Z.mod_add by (unfold two64; lia). reflexivity.
Qed.

Lemma packed_int_ok : forall m c o n c' z, cursor_ok c -> (n <= 64)%nat -> parse_packed_int m c o n = Ok (c', z) ->
  exists l, length l = n /\ pre l (stream c) /\ c' = advance c (length l) /\ z = as_i64 (o + be_value (snd c) l)
  /\ (m = Checked -> in_i64 (o + as_i64 (be_value (snd c) l)) = true).
Proof.
  intros m c o n c' z Hc Hn H. unfold parse_packed_int in H.
  apply obind_ok in H as ([c1 z1] & H1 & H). apply obind_ok in H as (z2 & H2 & H). injection H as <- <-.
  apply take_n_ok in H1 as (l & Hl & Hp & -> & ->); try assumption.
  exists l. unfold add_i64, ovf_i64 in H2.
  destruct (in_i64 (o + as_i64 (be_value (snd c) l))) eqn:E.
  - injection H2 as <-. repeat split; auto. rewrite <- as_i64_add. symmetry. apply as_i64_id. apply in_i64_true. assumption.
  - destruct m; [discriminate|]. injection H2 as <-. repeat split; auto; [apply as_i64_add|discriminate].
Qed.

Lemma packed_int_complete : forall m c o l, cursor_ok c -> (length l <= 64)%nat -> pre l (stream c) ->
  (m = Checked -> in_i64 (o + as_i64 (be_value (snd c) l)) = true) ->
  parse_packed_int m c o (length l) = Ok (advance c (length l), as_i64 (o + be_value (snd c) l)).
Proof.
  intros m c o l Hc Hn Hp Hin. unfold parse_packed_int. rewrite take_n_complete by assumption. cbn [obind].
  unfold add_i64, ovf_i64. destruct (in_i64 (o + as_i64 (be_value (snd c) l))) eqn:E.
  - cbn [obind]. do 2 f_equal. rewrite <- as_i64_add. symmetry. apply as_i64_id. apply in_i64_true. assumption.
  - destruct m; [discriminate Hin; reflexivity|]. cbn [obind]. rewrite as_i64_add. reflexivity.
Qed.

Definition psound (m : build) (p : bparser val) (t : bty) : Prop :=
  forall c c' v, cursor_ok c -> p c = Ok (c', v) ->
  exists l, pre l (stream c) /\ c' = advance c (length l) /\ benc (crate m) t (snd c) v l.

Definition pcomplete (m : build) (p : bparser val) (t : bty) : Prop :=
  forall c v l, cursor_ok c -> pre l (stream c) -> benc (crate m) t (snd c) v l -> p c = Ok (advance c (length l), v).

Lemma pre_cursor : forall c l, cursor_ok c -> pre l (stream c) ->
  cursor_ok (advance c (length l)) /\ snd (advance c (length l)) = after (snd c) l.
Proof. intros c l Hc [r E]. destruct (step_facts c l r Hc E) as (A & _ & B). auto. Qed.

Lemma pre_split : forall c l1 l2, cursor_ok c -> pre (l1 ++ l2) (stream c) ->
  pre l1 (stream c) /\ pre l2 (stream (advance c (length l1))).
Proof.
  intros c l1 l2 Hc [r E]. rewrite <- app_assoc in E. split; [exists (l2 ++ r); exact E|].
  destruct (step_facts c l1 _ Hc E) as (_ & -> & _). exists r. reflexivity.
Qed.

Lemma bparse_n_sound : forall m p t, psound m p t -> forall n c c' vs, cursor_ok c -> bparse_n n p c = Ok (c', vs) ->
  length vs = n /\ exists l, pre l (stream c) /\ c' = advance c (length l) /\ benc_list (crate m) t (snd c) vs l.
Proof.
  intros m p t Hp; induction n as [|n IH]; intros c c' vs Hc H; cbn [bparse_n] in H.
  - injection H as <- <-. split; [reflexivity|]. exists []. repeat split; [exists (stream c); reflexivity| |constructor].
    symmetry. apply advance_0. destruct Hc as (_ & ? & _); assumption.
  - apply obind_ok in H as ([c1 v] & H1 & H). apply obind_ok in H as ([c2 vs'] & H2 & H). injection H as <- <-.
    apply Hp in H1 as (l1 & P1 & -> & B1); [|assumption].
    destruct (pre_cursor c l1 Hc P1) as [Hc1 S1]. apply IH in H2 as (L & l2 & P2 & -> & B2); [|assumption].
    split; [cbn; lia|]. exists (l1 ++ l2). split; [|split].
    + apply pre_app; assumption.
    + apply adv_app.
    + rewrite S1 in B2. constructor; assumption.
Qed.

Lemma bparse_n_complete : forall m p t, pcomplete m p t -> forall vs c l, cursor_ok c -> pre l (stream c) ->
  benc_list (crate m) t (snd c) vs l -> bparse_n (length vs) p c = Ok (advance c (length l), vs).
Proof.
  intros m p t Hp; induction vs as [|v vs IH]; intros c l Hc P B; inversion B; subst; cbn [bparse_n length].
  - rewrite advance_0 by (destruct Hc as (_ & ? & _); assumption). reflexivity.
  - apply pre_split in P as [P1 P2]; [|assumption]. destruct (pre_cursor c l1 Hc P1) as [Hc1 S1].
    rewrite (Hp c v l1) by assumption. cbn [obind].
    rewrite (IH (advance c (length l1)) l2) by (try rewrite S1; assumption). cbn [obind]. rewrite adv_app. reflexivity.
Qed.

Lemma bparse_fields_sound : forall m fs, Forall (fun x => psound m (bparse m (snd x)) (snd x)) fs ->
  forall c c' vs, cursor_ok c -> bparse_fields (map (fun x => (fst x, bparse m (snd x))) fs) c = Ok (c', vs) ->
  exists l, pre l (stream c) /\ c' = advance c (length l) /\ benc_fields (crate m) fs (snd c) vs l.
Proof.
  intros m; induction fs as [|[n t] fs IH]; intros Hf c c' vs Hc H; cbn [bparse_fields map fst snd] in H.
  - injection H as <- <-. exists []. repeat split; [exists (stream c); reflexivity| |constructor].
    symmetry. apply advance_0. destruct Hc as (_ & ? & _); assumption.
  - inversion Hf as [|x y Ht Hfs]; subst. cbn [snd] in Ht.
    apply obind_ok in H as ([c1 v] & H1 & H). apply obind_ok in H as ([c2 vs'] & H2 & H). injection H as <- <-.
    apply Ht in H1 as (l1 & P1 & -> & B1); [|assumption].
    destruct (pre_cursor c l1 Hc P1) as [Hc1 S1]. apply (IH Hfs) in H2 as (l2 & P2 & -> & B2); [|assumption].
    exists (l1 ++ l2). split; [|split].
    + apply pre_app; assumption.
    + apply adv_app.
    + rewrite S1 in B2. constructor; assumption.
Qed.

Lemma bparse_fields_complete : forall m fs, Forall (fun x => pcomplete m (bparse m (snd x)) (snd x)) fs ->
  forall c vs l, cursor_ok c -> pre l (stream c) -> benc_fields (crate m) fs (snd c) vs l ->
  bparse_fields (map (fun x => (fst x, bparse m (snd x))) fs) c = Ok (advance c (length l), vs).
Proof.
  intros m; induction fs as [|[n t] fs IH]; intros Hf c vs l Hc P B; inversion B; subst; cbn [bparse_fields map fst snd].
  - rewrite advance_0 by (destruct Hc as (_ & ? & _); assumption). reflexivity.
  - inversion Hf as [|x y Ht Hfs]; subst. cbn [snd] in Ht.
    apply pre_split in P as [P1 P2]; [|assumption]. destruct (pre_cursor c l1 Hc P1) as [Hc1 S1].
    rewrite (Ht c v l1) by assumption. cbn [obind].
    rewrite (IH Hfs (advance c (length l1)) _ l2) by (first [eassumption|rewrite S1; eassumption]). cbn [obind]. rewrite adv_app. reflexivity.
Qed.

Lemma nodup_z_nodupb : forall l, nodup_z l = nodupb l.
Proof. induction l as [|x l IH]; cbn; [reflexivity|rewrite IH; reflexivity]. Qed.

Lemma pre_nil : forall s, pre [] s.
Proof. intros s. exists s. reflexivity. Qed.

Lemma adv0 : forall c, cursor_ok c -> c = advance c (length (@nil bool)).
Proof. intros c (_ & H & _). symmetry. apply advance_0. assumption. Qed.

Lemma parse_bool_ok : forall c c' b, cursor_ok c -> parse_bool c = Ok (c', b) ->
  pre [b] (stream c) /\ c' = advance c (length [b]).
Proof.
  intros c c' b Hc H. rewrite parse_bool_spec in H by assumption. destruct (stream c) as [|x s] eqn:E; [discriminate|].
  injection H as <- <-. split; [exists s; reflexivity|reflexivity].
Qed.

Lemma parse_bool_complete : forall c b l, cursor_ok c -> pre (b :: l) (stream c) -> parse_bool c = Ok (advance c 1, b).
Proof. intros c b l Hc [r E]. rewrite parse_bool_spec, E by assumption. reflexivity. Qed.

Lemma bparse_sound : forall m t, wf_bty t = true -> psound m (bparse m t) t.
Proof.
  intros m; induction t using bty_ind'; intros Hwf c c' v Hc Hr; cbn [bparse wf_bty] in *.
  - apply andb_true_iff in Hwf as [Hn _]. apply Nat.leb_le in Hn.
    apply obind_ok in Hr as ([c1 z] & H1 & Hr). injection Hr as <- <-.
    apply packed_int_ok in H1 as (l & Hl & P & -> & -> & Hin); try assumption.
    exists l. repeat split; auto. apply be_int; [assumption|]. destruct m; [intros _; auto|discriminate].
  - apply obind_ok in Hr as ([c1 b] & H1 & Hr). injection Hr as <- <-.
    apply parse_bool_ok in H1 as [P ->]; [|assumption]. exists [b]. repeat split; auto. constructor.
  - apply obind_ok in Hr as ([c1 z] & H1 & Hr). injection Hr as <- <-.
    rewrite take_unaligned_byte_spec in H1 by assumption.
    destruct (Nat.ltb_spec (length (stream c)) 8) as [|Hl]; [discriminate|]. injection H1 as <- <-.
    exists (firstn 8 (stream c)). rewrite firstn_length_le by assumption.
    repeat split; [apply pre_firstn; assumption|]. constructor. apply firstn_length_le; assumption.
  - apply obind_ok in Hr as ([c1 z] & H1 & Hr). injection Hr as <- <-.
    rewrite take_fourcc_spec in H1 by assumption.
    destruct (Nat.ltb_spec (length (stream c)) 32) as [|Hl]; [discriminate|]. injection H1 as <- <-.
    exists (firstn 32 (stream c)). rewrite firstn_length_le by assumption.
    repeat split; [apply pre_firstn; assumption|]. constructor. apply firstn_length_le; assumption.
  - cbn in Hr. injection Hr as <- <-. exists []. repeat split; [apply pre_nil|apply adv0; assumption|constructor].
  - injection Hr as <- <-. exists []. repeat split; [apply pre_nil|apply adv0; assumption|constructor].
  - apply obind_ok in Hr as ([c1 b] & H1 & Hr). apply parse_bool_ok in H1 as [P ->]; [|assumption].
    destruct (pre_cursor _ _ Hc P) as [Hc1 S1]. destruct b.
    + apply obind_ok in Hr as ([c2 v2] & H2 & Hr). injection Hr as <- <-.
      apply IHt in H2 as (l & P2 & -> & B); try assumption.
      exists ([true] ++ l). split; [apply pre_app; assumption|]. split; [apply adv_app|].
      cbn [app]. rewrite S1 in B. apply be_some; assumption.
    + injection Hr as <- <-. exists [false]. repeat split; auto. constructor.
  - apply andb_true_iff in Hwf as [Hwf Hne].
    apply obind_ok in Hr as ([c1 b] & H1 & Hr). apply parse_bool_ok in H1 as [P ->]; [|assumption].
    destruct b.
    + apply obind_ok in Hr as ([c2 v2] & H2 & Hr). injection Hr as <- <-.
      apply IHt in H2 as (l & P2 & -> & B); try assumption.
      exists l. repeat split; auto. destruct P as [r Er]. destruct P2 as [r2 Er2].
      assert (Hl : exists b s, l = b :: s).
      { destruct l as [|b s]; [|eauto]. exfalso. destruct t; try discriminate.
        - destruct bits; [discriminate|]. inversion B; subst. discriminate.
        - destruct lenbits; [discriminate|]. inversion B; subst.
          match goal with Hr : _ ++ _ = [] |- _ => apply app_eq_nil in Hr as [-> _] end. discriminate. }
      destruct Hl as (b & s & ->). rewrite Er2 in Er. injection Er as -> _.
      exact (be_rsome_reread (crate m) t (snd c) v2 (true :: s) true s eq_refl eq_refl B eq_refl).
    + injection Hr as <- <-. exists [false]. repeat split; auto. constructor.
  - apply andb_true_iff in Hwf as [Hn Hwf]. apply Nat.leb_le in Hn.
    apply obind_ok in Hr as ([c1 z] & H1 & Hr). apply obind_ok in Hr as ([c2 vs] & H2 & Hr). injection Hr as <- <-.
    apply take_len_ok in H1 as (ln & Hl & P & -> & -> & Hu & Hb); try assumption. rewrite Hu in H2.
    destruct (pre_cursor _ _ Hc P) as [Hc1 S1].
    apply (bparse_n_sound m _ t (IHt Hwf)) in H2 as (L & l & P2 & -> & B); [|assumption].
    exists (ln ++ l). split; [apply pre_app; assumption|]. split; [apply adv_app|].
    rewrite S1 in B. apply be_array; auto. rewrite L. rewrite Z2Nat.id; lia.
  - apply Nat.leb_le in Hwf.
    apply obind_ok in Hr as ([c1 z] & H1 & Hr). apply obind_ok in Hr as (c2 & H2 & Hr). apply obind_ok in Hr as ([c3 l] & H3 & Hr).
    injection Hr as <- <-.
    apply packed_len_ok in H1 as (ln & Hl & P & -> & -> & Hu & Hb); try assumption. rewrite Hu in H3.
    destruct (pre_cursor _ _ Hc P) as [Hc1 S1].
    apply align_sound in H2 as (pad & Hpad & P2 & -> & S2); [|assumption].
    destruct (pre_cursor _ _ Hc1 P2) as [Hc2 _]. rewrite S1 in Hpad.
    apply take_array_ok in H3 as (b & Lb & P3 & -> & ->); [|assumption|lia]. rewrite S2.
    destruct (flat_be_bytes (length b / 8) b) as [F1 F2].
    { pose proof (Nat.div_mod (length b) 8). assert (Hm : Z.of_nat (length b) mod 8 = 0) by (rewrite Lb; apply Z.mod_mul; lia).
      rewrite <- (Nat2Z.inj_mod _ 8) in Hm. lia. }
    exists (ln ++ pad ++ b). split; [repeat (apply pre_app; try assumption)|]. split; [rewrite !adv_app; reflexivity|].
    rewrite (arr_blob m). rewrite <- F1 at 2. apply be_blob; auto.
    rewrite be_bytes_length. change 7%nat with (Z.to_nat 7). rewrite Nat2Z.inj_div.
    rewrite Nat2Z.inj_add, Lb. change (Z.of_nat (Z.to_nat 7)) with 7. change (Z.of_nat 8) with 8. dlia.
  - apply Z.ltb_lt in Hwf.
    apply obind_ok in Hr as (c2 & H2 & Hr). apply obind_ok in Hr as ([c3 l] & H3 & Hr).
    injection Hr as <- <-.
    apply align_sound in H2 as (pad & Hpad & P2 & -> & S2); [|assumption].
    destruct (pre_cursor _ _ Hc P2) as [Hc2 _].
    apply take_array_ok in H3 as (b & Lb & P3 & -> & ->); [|assumption|lia]. rewrite S2.
    destruct (flat_be_bytes (length b / 8) b) as [F1 F2].
    { pose proof (Nat.div_mod (length b) 8). assert (Hm : Z.of_nat (length b) mod 8 = 0) by (rewrite Lb; apply Z.mod_mul; lia).
      rewrite <- (Nat2Z.inj_mod _ 8) in Hm. lia. }
    exists (pad ++ b). split; [apply pre_app; assumption|]. split; [apply adv_app|].
    rewrite (arr_blob m). rewrite <- F1 at 2. apply be_fixed; auto.
    rewrite be_bytes_length. change 7%nat with (Z.to_nat 7). rewrite Nat2Z.inj_div.
    rewrite Nat2Z.inj_add, Lb. change (Z.of_nat (Z.to_nat 7)) with 7. change (Z.of_nat 8) with 8. dlia.
  - apply Nat.leb_le in Hwf.
    apply obind_ok in Hr as ([c1 z] & H1 & Hr). apply obind_ok in Hr as ([c2 y] & H2 & Hr). injection Hr as <- <-.
    apply take_len_ok in H1 as (ln & Hl & P & -> & -> & Hu & Hb); try assumption. rewrite Hu in H2.
    destruct (pre_cursor _ _ Hc P) as [Hc1 S1].
    destruct (Nat.ltb_spec 64 (Z.to_nat (be_value (snd c) ln))) as [Hgt|Hle].
    { unfold take_n_bits_into_i64 in H2. apply Nat.ltb_lt in Hgt. rewrite Hgt in H2. discriminate. }
    apply take_n_ok in H2 as (l & Ll & P2 & -> & ->); try assumption. rewrite S1.
    exists (ln ++ l). split; [apply pre_app; assumption|]. split; [apply adv_app|].
    apply be_bitint; auto; [rewrite Ll, Z2Nat.id; lia|lia].
  - apply Nat.leb_le in Hwf.
    apply obind_ok in Hr as ([c1 z] & H1 & Hr). apply obind_ok in Hr as ([c2 y] & H2 & Hr). injection Hr as <- <-.
    apply take_len_ok in H1 as (ln & Hl & P & -> & -> & Hu & Hb); try assumption. rewrite Hu in H2.
    destruct (pre_cursor _ _ Hc P) as [Hc1 S1].
    apply take_array_ok in H2 as (b & Lb & P3 & -> & ->); [|assumption|lia]. rewrite S1.
    exists (ln ++ b). split; [apply pre_app; assumption|]. split; [apply adv_app|].
    rewrite (arr_blob m). apply be_bitarray; auto.
  - apply andb_true_iff in Hwf as [Hn Hnd]. apply Nat.leb_le in Hn.
    apply obind_ok in Hr as ([c1 z] & H1 & Hr).
    apply packed_len_ok in H1 as (ln & Hl & P & -> & -> & Hu & Hb); try assumption.
    destruct (find_enum l (be_value (snd c) ln)) as [s|] eqn:E; [|discriminate]. injection Hr as <- <-.
    apply find_enum_in in E. exists ln. repeat split; auto. apply be_enum; assumption.
  - apply andb_true_iff in Hwf as [Hwf Hall]. apply andb_true_iff in Hwf as [Hn Hnd]. apply Nat.leb_le in Hn.
    apply obind_ok in Hr as ([c1 z] & H1 & Hr).
    apply packed_len_ok in H1 as (ln & Hl & P & -> & -> & Hu & Hb); try assumption.
    destruct (pre_cursor _ _ Hc P) as [Hc1 S1].
    rewrite find_variant_map in Hr. destruct (find_variant l (be_value (snd c) ln)) as [[s t]|] eqn:E; [|discriminate].
    apply find_variant_in in E. apply obind_ok in Hr as ([c2 v2] & H2 & Hr). injection Hr as <- <-.
    match goal with HF : Forall _ l |- _ => rewrite Forall_forall in HF; specialize (HF _ E) end.
    rewrite forallb_forall in Hall. specialize (Hall _ E). cbn [snd] in *.
    match goal with HF : wf_bty t = true -> _ |- _ => apply (HF Hall) in H2 as (l2 & P2 & -> & B); [|assumption] end.
    exists (ln ++ l2). split; [apply pre_app; assumption|]. split; [apply adv_app|].
    rewrite S1 in B. eapply be_choice; eauto.
  - apply obind_ok in Hr as ([c1 vs] & H1 & Hr). injection Hr as <- <-.
    apply bparse_fields_sound in H1 as (l2 & P & -> & B); [| |assumption].
    + exists l2. repeat split; auto. constructor; assumption.
    + rewrite forallb_forall in Hwf. match goal with HF : Forall _ l |- _ => rewrite Forall_forall in HF; rewrite Forall_forall end.
      intros x Hx. auto.
Qed.

Lemma bparse_complete : forall m t, wf_bty t = true -> pcomplete m (bparse m t) t.
Proof.
  intros m; induction t using bty_ind'; intros Hwf c v0 bl Hc P B; inversion B; subst; cbn [bparse wf_bty] in *.
  - apply andb_true_iff in Hwf as [Hn _]. apply Nat.leb_le in Hn.
    rewrite packed_int_complete; auto. destruct m; [auto|discriminate].
  - rewrite (parse_bool_complete c b []) by assumption. reflexivity.
  - rewrite take_unaligned_byte_spec by assumption. match goal with E : length bl = _ |- _ => destruct (pre_ltb c bl _ P E) as [-> ->]; rewrite E end. reflexivity.
  - rewrite take_fourcc_spec by assumption. match goal with E : length bl = _ |- _ => destruct (pre_ltb c bl _ P E) as [-> ->]; rewrite E end. reflexivity.
  - cbn. rewrite advance_0 by (destruct Hc as (_ & ? & _); assumption). reflexivity.
  - cbn [length]. rewrite advance_0 by (destruct Hc as (_ & ? & _); assumption). reflexivity.
  - rewrite (parse_bool_complete c false []) by assumption. reflexivity.
  - rewrite (parse_bool_complete c true l) by assumption. cbn [obind].
    apply (pre_split c [true] l Hc) in P as [P1 P2]. destruct (pre_cursor _ _ Hc P1) as [Hc1 S1].
    change (advance c 1) with (advance c (length [true])).
    rewrite (IHt Hwf _ v l) by (try rewrite S1; assumption). cbn [obind]. rewrite adv_app. reflexivity.
  - rewrite (parse_bool_complete c false []) by assumption. reflexivity.
  - discriminate.
  - apply andb_true_iff in Hwf as [Hwf Hne]. rewrite (parse_bool_complete c true s) by assumption. cbn [obind].
    rewrite (IHt Hwf _ v (true :: s)) by assumption. reflexivity.
  - apply andb_true_iff in Hwf as [Hn Hwf]. apply Nat.leb_le in Hn.
    apply pre_split in P as [P1 P2]; [|assumption]. destruct (pre_cursor _ _ Hc P1) as [Hc1 S1].
    destruct (take_len_complete c ln Hc Hn P1) as [-> Hu]. cbn [obind]. rewrite Hu.
    match goal with E : be_value _ _ = Z.of_nat _ |- _ => rewrite E, Nat2Z.id end.
    rewrite (bparse_n_complete m _ t (IHt Hwf) vs _ l) by (try rewrite S1; assumption). cbn [obind]. rewrite adv_app. reflexivity.
  - apply Nat.leb_le in Hwf.
    apply pre_split in P as [P1 P2]; [|assumption]. destruct (pre_cursor _ _ Hc P1) as [Hc1 S1].
    apply pre_split in P2 as [P2 P3]; [|assumption]. destruct (pre_cursor _ _ Hc1 P2) as [Hc2 S2].
    rewrite packed_len_complete by assumption. cbn [obind]. rewrite (align_complete _ pad) by (try rewrite S1; assumption). cbn [obind].
    destruct (small_as _ (len_small c ln Hc Hwf)) as [_ ->].
    match goal with E : be_value _ _ = Z.of_nat _ |- _ => rewrite E end.
    replace (Z.of_nat (length l) * 8) with (Z.of_nat (length (flat_map byte_bits l))) by (rewrite flat_len; lia).
    rewrite take_array_complete by assumption. cbn [obind].
    rewrite S2, S1. rewrite aligned_after_pad; [|apply Nat.mod_upper_bound; lia|assumption].
    rewrite be_bytes_flat by assumption. rewrite !adv_app, (arr_blob m). reflexivity.
  - apply pre_split in P as [P1 P2]; [|assumption]. destruct (pre_cursor _ _ Hc P1) as [Hc1 S1].
    rewrite (align_complete _ pad) by assumption. cbn [obind].
    replace (Z.of_nat (length l) * 8) with (Z.of_nat (length (flat_map byte_bits l))) by (rewrite flat_len; lia).
    rewrite take_array_complete by assumption. cbn [obind].
    rewrite S1. rewrite aligned_after_pad; [|destruct Hc as (_ & ? & _); assumption|assumption].
    rewrite be_bytes_flat by assumption. rewrite !adv_app, (arr_blob m). reflexivity.
  - apply Nat.leb_le in Hwf.
    apply pre_split in P as [P1 P2]; [|assumption]. destruct (pre_cursor _ _ Hc P1) as [Hc1 S1].
    destruct (take_len_complete c ln Hc Hwf P1) as [-> Hu]. cbn [obind]. rewrite Hu.
    match goal with E : be_value _ _ = Z.of_nat _ |- _ => rewrite E, Nat2Z.id end.
    rewrite take_n_complete by assumption. cbn [obind]. rewrite S1, adv_app. reflexivity.
  - apply Nat.leb_le in Hwf.
    apply pre_split in P as [P1 P2]; [|assumption]. destruct (pre_cursor _ _ Hc P1) as [Hc1 S1].
    destruct (take_len_complete c ln Hc Hwf P1) as [-> Hu]. cbn [obind]. rewrite Hu.
    match goal with E : be_value _ _ = Z.of_nat _ |- _ => rewrite E end.
    rewrite take_array_complete by assumption. cbn [obind]. rewrite S1, adv_app, (arr_blob m). reflexivity.
  - apply andb_true_iff in Hwf as [Hn Hnd]. apply Nat.leb_le in Hn. rewrite nodup_z_nodupb in Hnd. apply nodupb_NoDup in Hnd.
    rewrite packed_len_complete by assumption. cbn [obind].
    match goal with E : In _ l |- _ => rewrite (find_enum_nodup _ _ _ Hnd E) end. reflexivity.
  - apply andb_true_iff in Hwf as [Hwf Hall]. apply andb_true_iff in Hwf as [Hn Hnd]. apply Nat.leb_le in Hn. rewrite nodup_z_nodupb in Hnd. apply nodupb_NoDup in Hnd.
    apply pre_split in P as [P1 P2]; [|assumption]. destruct (pre_cursor _ _ Hc P1) as [Hc1 S1].
    rewrite packed_len_complete by assumption. cbn [obind]. rewrite find_variant_map.
    match goal with E : In _ l |- _ => rewrite (find_variant_nodup _ _ _ _ _ Hnd E); pose proof E as Hin end.
    match goal with HF : Forall _ l |- _ => rewrite Forall_forall in HF; specialize (HF _ Hin) end.
    rewrite forallb_forall in Hall. specialize (Hall _ Hin). cbn [snd] in *.
    match goal with HF : wf_bty t = true -> _ |- _ => rewrite (HF Hall _ v l0) by (try rewrite S1; assumption) end.
    cbn [obind]. rewrite adv_app. reflexivity.
  - rewrite (bparse_fields_complete m l) with (vs := vs) (l := bl); auto.
    rewrite forallb_forall in Hwf. match goal with HF : Forall _ l |- _ => rewrite Forall_forall in HF; rewrite Forall_forall end.
    intros x Hx. auto.
Qed.
