(** * The parts of a decoded value against the bytes and bits it was read from *)
From Verif Require Import Base VlqSpec Vlq VlqProofs Types Versioned VersionedSpec VersionedProofs BitSpec BitPacked BitInterp BitFormat BitProofs BitTotal BitExact
  BitFacts ByteTypes BitTypes ByteFacts SizeSpec.
#[local] Open Scope nat_scope.

(** ** Versioned format *)

(** What a field holds when it is not written. *)
Definition spare (f : fld vty) : nat :=
  match f_init f with InitSomeNone => 1 | InitNone => match f_fin f with FinDefault d => parts d | FinReq => 0 end end.

(** Parts per byte. *)
Fixpoint vratio (t : vty) : nat :=
  match t with
  | TInt _ | TBlob | TBool | TFourcc | TEnum _ => 1
  | TOpt t' | TArray t' => vratio t'
  | TChoice _ l => fold_right (fun x n => Nat.max (vratio (snd x)) n) 1 l
  | TStruct fs => Nat.max (1 + fold_right (fun f n => spare f + n) 0 fs) (fold_right (fun f n => Nat.max (vratio (f_ty f)) n) 1 fs)
  end.

Lemma vratio_pos : forall t, 1 <= vratio t.
Proof.
  induction t as [it| | | |t IH|t IH|l0|tag l0 IH|fs IH] using vty_ind'; cbn [vratio]; try lia.
  induction l0 as [|x l IHl]; cbn [fold_right]; [lia|]. inversion IH; subst. specialize (IHl H2). lia.
Qed.

(** [c] bytes were read, and [n] parts came of them. *)
Definition within (K n : nat) (l r : list Z) : Prop := exists c, length l = c + length r /\ n <= K * c.

Lemma within_trans : forall K n1 n2 l1 l2 l3, within K n1 l1 l2 -> within K n2 l2 l3 -> within K (n1 + n2) l1 l3.
Proof. intros K n1 n2 l1 l2 l3 (c1 & E1 & H1) (c2 & E2 & H2). exists (c1 + c2). split; [lia|]. rewrite Nat.mul_add_distr_l. lia. Qed.

Lemma within_psuffix : forall K l r, 1 <= K -> proper_suffix_of r l -> within K 1 l r.
Proof.
  intros K l r HK (p & Hp & ->). exists (length p). rewrite app_length. split; [reflexivity|].
  destruct p; [contradiction|]. cbn [length]. rewrite Nat.mul_succ_r. lia.
Qed.
Lemma within_cons : forall K x l, within K K (x :: l) l.
Proof. intros K x l. exists 1. cbn [length]. lia. Qed.
Lemma within_le : forall K n n' l r, n <= n' -> within K n' l r -> within K n l r.
Proof. intros K n n' l r H (c & E & Hc). exists c. split; [exact E|lia]. Qed.

Definition sized_parser (K : nat) (p : parser val) : Prop := forall l r v, bytes_ok l -> p l = Ok (r, v) -> within K (parts v) l r.

Lemma parse_n_parts : forall K p, sized_parser K p -> (forall l r v, bytes_ok l -> p l = Ok (r, v) -> proper_suffix_of r l) ->
  forall fuel n l r vs, bytes_ok l -> parse_n fuel p n l = Ok (r, vs) -> within K (fold_right (fun v' n => parts v' + n) 0 vs) l r.
Proof.
  intros K p Hp Hs fuel; induction fuel as [|f IH]; intros n l r vs Hok Hr; cbn [parse_n] in Hr; destruct (n =? 0)%Z; try discriminate.
  1, 2: injection Hr as <- <-; exists 0; cbn; lia.
  apply obind_ok in Hr. destruct Hr as ([l1 v] & E1 & Hr). apply obind_ok in Hr. destruct Hr as ([l2 vs'] & E2 & Hr). injection Hr as <- <-.
  cbn [fold_right]. apply (within_trans K _ _ l l1 l2); [apply Hp; assumption|].
  apply (IH (n - 1)%Z); [|exact E2]. destruct (Hs _ _ _ Hok E1) as (q & _ & ->). apply Forall_app in Hok. tauto.
Qed.

(** The slots of a struct. *)
Definition slot_parts (s : slot) : nat :=
  match snd s with Some v => parts v | None => match f_fin (fst (fst s)) with FinDefault d => parts d | FinReq => 0 end end.
Definition slots_parts (sl : list slot) : nat := fold_right (fun s n => slot_parts s + n) 0 sl.
Definition slots_sized (K : nat) (sl : list slot) : Prop :=
  Forall (fun s => sized_parser K (snd (fst s)) /\ (forall l r v, bytes_ok l -> snd (fst s) l = Ok (r, v) -> proper_suffix_of r l)) sl.

Lemma struct_step_parts : forall K sl tag l r sl', slots_sized K sl -> bytes_ok l -> struct_step sl tag l = SStored (Ok (r, sl')) ->
  slots_sized K sl' /\ proper_suffix_of r l /\ within K (slots_parts sl' - slots_parts sl) l r.
Proof.
  intros K sl; induction sl as [|[[fd p] cur] sl IH]; intros tag l r sl' Hs Hok Hr; cbn [struct_step] in Hr; [discriminate|].
  inversion Hs as [|s0 l0 [Hp Hps] Hs']; subst. cbn [fst snd] in Hp, Hps. destruct (f_tag fd =? tag)%Z.
  - destruct (slot_free (fd, p, cur)); [|discriminate]. injection Hr as Hr. apply obind_ok in Hr. destruct Hr as ([l1 v] & E1 & Hr). injection Hr as <- <-.
    split; [constructor; [split; assumption|assumption]|]. split; [exact (Hps _ _ _ Hok E1)|].
    apply (within_le K _ (parts v)); [|apply Hp; assumption]. unfold slots_parts. cbn [fold_right slot_parts snd]. lia.
  - destruct (struct_step sl tag l) as [| |o] eqn:E; try discriminate. injection Hr as Hr.
    apply obind_ok in Hr. destruct Hr as ([l1 sl1] & E1 & Hr). injection Hr as <- <-. rewrite E1 in E.
    destruct (IH _ _ _ _ Hs' Hok E) as (H1 & H2 & H3). split; [constructor; [split; assumption|assumption]|]. split; [exact H2|].
    apply (within_le K _ (slots_parts sl1 - slots_parts sl)); [|exact H3]. unfold slots_parts. cbn [fold_right]. lia.
Qed.

Lemma struct_loop_parts : forall K, 1 <= K -> forall f m n sl l r sl', slots_sized K sl -> bytes_ok l -> struct_loop f m n sl l = Ok (r, sl') ->
  within K (slots_parts sl' - slots_parts sl) l r.
Proof.
  intros K HK f; induction f as [|f IH]; intros m n sl l r sl' Hs Hok Hr; cbn [struct_loop] in Hr; destruct (n =? 0)%Z; try discriminate.
  1, 2: injection Hr as <- <-; exists 0; lia.
  apply obind_ok in Hr. destruct Hr as ([l1 tag] & E1 & Hr).
  pose proof (parse_vlq_int_psuffix m l _ _ Hok E1) as P1.
  assert (Hok1 : bytes_ok l1) by (destruct P1 as (q & _ & ->); apply Forall_app in Hok; tauto).
  destruct (struct_step sl tag l1) as [| |o] eqn:E2; try discriminate.
  apply obind_ok in Hr. destruct Hr as ([l2 sl2] & E3 & Hr). rewrite E3 in E2.
  destruct (struct_step_parts K _ _ _ _ _ Hs Hok1 E2) as (Hs2 & P2 & W2).
  assert (Hok2 : bytes_ok l2) by (destruct P2 as (q & _ & ->); apply Forall_app in Hok1; tauto).
  pose proof (IH _ _ _ _ _ _ Hs2 Hok2 Hr) as W3.
  apply (within_le K _ (1 + ((slots_parts sl2 - slots_parts sl) + (slots_parts sl' - slots_parts sl2)))); [lia|].
  apply (within_trans K 1 _ l l1 r); [apply within_psuffix; assumption|]. apply (within_trans K _ _ l1 l2 r); assumption.
Qed.

Lemma struct_finish_parts : forall sl vs, struct_finish sl = Ok vs -> fold_right (fun x n => parts (snd x) + n) 0 vs = slots_parts sl.
Proof.
  induction sl as [|[[fd p] cur] sl IH]; intros vs Hr; cbn [struct_finish] in Hr; [injection Hr as <-; reflexivity|].
  apply obind_ok in Hr. destruct Hr as (v & E1 & Hr). apply obind_ok in Hr. destruct Hr as (vs' & E2 & Hr). injection Hr as <-.
  cbn [fold_right snd slots_parts]. rewrite (IH _ E2). unfold slots_parts. cbn [fold_right]. f_equal. unfold slot_parts. cbn [fst snd].
  destruct cur; [injection E1 as <-; reflexivity|]. destruct (f_fin fd); [discriminate|injection E1 as <-; reflexivity].
Qed.

Lemma init_parts : forall m fs, slots_parts (map (fun f => init_slot (unfld f) (vparse m (f_ty f))) fs) = fold_right (fun f n => spare f + n) 0 fs.
Proof.
  intros m; induction fs as [|f fs IH]; [reflexivity|]. cbn [map fold_right]. unfold slots_parts in *. cbn [fold_right]. rewrite IH. f_equal.
  unfold slot_parts, init_slot, spare. cbn [fst snd unfld f_init f_fin]. destruct (f_init f); [|reflexivity]. reflexivity.
Qed.

Lemma fold_max_in : forall {A} (g : A -> nat) l x b, In x l -> g x <= fold_right (fun y n => Nat.max (g y) n) b l.
Proof. intros A g l x b; induction l as [|y l IH]; intros []; cbn [fold_right]; [subst; lia|specialize (IH H); lia]. Qed.

Lemma vparse_parts : forall m t K, vratio t <= K -> sized_parser K (vparse m t).
Proof.
  intros m t; induction t as [it| | | |t IH|t IH|l0|tag l0 IH|fs IH] using vty_ind'; intros K HK l r v Hok Hr;
    assert (HK0 : 1 <= K) by (eapply Nat.le_trans; [apply vratio_pos|exact HK]); pose proof (vparse_psuffix m _ _ _ _ Hok Hr) as Hps; cbn [vparse vratio] in *.
  - apply obind_ok in Hr. destruct Hr as ([l1 z] & E1 & Hr). destruct (in_ity it z); [|discriminate]. injection Hr as <- <-.
    cbn [parts]. apply within_psuffix; [lia|exact Hps].
  - apply obind_ok in Hr. destruct Hr as ([l1 b] & E1 & Hr). injection Hr as <- <-.
    unfold tagged_blob in E1. inv_do E1. vtag E. apply bytes_ok_cons in Hok. destruct Hok as [_ Hok].
    pose proof (parse_vlq_int_psuffix _ _ _ _ Hok E0) as P0. apply take_bytes_ok in E1; [|apply as_u64_nonneg]. destruct E1 as [-> _].
    cbn [parts]. apply (within_trans K 1 (length b) _ (b ++ l1)).
    + apply within_psuffix; [exact HK0|]. eapply psuffix_trans_l; [eassumption|apply psuffix_suffix, suffix_cons].
    + exists (length b). rewrite app_length. split; [reflexivity|]. rewrite <- (Nat.mul_1_l (length b)) at 1. apply Nat.mul_le_mono_r. exact HK0.
  - apply obind_ok in Hr. destruct Hr as ([l1 z] & E1 & Hr). injection Hr as <- <-. cbn [parts]. apply within_psuffix; [lia|exact Hps].
  - apply obind_ok in Hr. destruct Hr as ([l1 z] & E1 & Hr). injection Hr as <- <-. cbn [parts]. apply within_psuffix; [lia|exact Hps].
  - apply obind_ok in Hr. destruct Hr as (l1 & E1 & Hr). vtag E1. apply obind_ok in Hr. destruct Hr as ([l2 z] & E2 & Hr).
    apply bytes_ok_cons in Hok. destruct Hok as [_ Hok]. apply take_u8_ok in E2. subst l1. apply bytes_ok_cons in Hok. destruct Hok as [_ Hok].
    destruct (negb (z =? 0)%Z); [|injection Hr as <- <-; cbn [parts]; apply within_psuffix; [lia|exact Hps]].
    apply obind_ok in Hr. destruct Hr as ([l3 v'] & E3 & Hr). injection Hr as <- <-. cbn [parts].
    apply (within_trans K 1 (parts v') _ l2); [|apply (IH K HK); assumption]. exists 2. cbn [length]. split; [lia|]. pose proof (vratio_pos t). lia.
  - apply obind_ok in Hr. destruct Hr as (l1 & E1 & Hr). vtag E1. apply obind_ok in Hr. destruct Hr as ([l2 n] & E2 & Hr).
    apply bytes_ok_cons in Hok. destruct Hok as [_ Hok]. pose proof (parse_vlq_int_psuffix _ _ _ _ Hok E2) as P2.
    assert (Hok2 : bytes_ok l2) by (destruct P2 as (q & _ & ->); apply Forall_app in Hok; tauto).
    apply obind_ok in Hr. destruct Hr as ([l3 vs] & E3 & Hr). injection Hr as <- <-. cbn [parts].
    apply (within_trans K 1 _ _ l2); [|refine (parse_n_parts K _ (IH K HK) _ _ _ _ _ _ Hok2 E3); intros l' r' v'; apply vparse_psuffix].
    apply within_psuffix; [pose proof (vratio_pos t); lia|]. eapply psuffix_trans_l; [eassumption|apply psuffix_suffix, suffix_cons].
  - apply obind_ok in Hr. destruct Hr as (l1 & E1 & Hr). apply obind_ok in Hr. destruct Hr as ([l2 n] & E2 & Hr).
    destruct (find_enum l0 n); [|discriminate]. injection Hr as <- <-. cbn [parts]. apply within_psuffix; [lia|exact Hps].
  - apply obind_ok in Hr. destruct Hr as (l1 & E1 & Hr). vtag E1. apply obind_ok in Hr. destruct Hr as ([l2 n] & E2 & Hr).
    apply bytes_ok_cons in Hok. destruct Hok as [_ Hok]. pose proof (parse_vlq_int_psuffix _ _ _ _ Hok E2) as P2.
    assert (Hok2 : bytes_ok l2) by (destruct P2 as (q & _ & ->); apply Forall_app in Hok; tauto).
    destruct (find_variant (map (fun x => (fst x, vparse m (snd x))) l0) n) as [[s p]|] eqn:Ef; [|discriminate].
    apply obind_ok in Hr. destruct Hr as ([l3 v'] & E3 & Hr). injection Hr as <- <-. cbn [parts].
    apply find_variant_in in Ef. apply in_map_iff in Ef. destruct Ef as (x & Ex & Hin). injection Ex as _ <-.
    apply (within_trans K 1 _ _ l2).
    + apply within_psuffix; [exact HK0|]. eapply psuffix_trans_l; [eassumption|apply psuffix_suffix, suffix_cons].
    + pose proof (fold_max_in (fun x => vratio (snd x)) l0 x 1 Hin) as Hm. cbn beta in Hm.
      rewrite Forall_forall in IH. exact (IH x Hin K ltac:(lia) _ _ _ Hok2 E3).
  - unfold parse_struct in Hr. apply obind_ok in Hr. destruct Hr as (l1 & E1 & Hr). vtag E1. apply obind_ok in Hr. destruct Hr as ([l2 n] & E2 & Hr).
    apply bytes_ok_cons in Hok. destruct Hok as [_ Hok]. pose proof (parse_vlq_int_psuffix _ _ _ _ Hok E2) as P2.
    assert (Hok2 : bytes_ok l2) by (destruct P2 as (q & _ & ->); apply Forall_app in Hok; tauto).
    apply obind_ok in Hr. destruct Hr as ([l3 sl'] & E3 & Hr). apply obind_ok in Hr. destruct Hr as (vs & E4 & Hr). injection Hr as <- <-.
    cbn [parts]. rewrite (struct_finish_parts _ _ E4).
    assert (W : within K (slots_parts sl' - slots_parts (map (fun f => init_slot (unfld f) (vparse m (f_ty f))) fs)) l2 l3).
    { refine (struct_loop_parts K _ _ _ _ _ _ _ _ _ Hok2 E3); [lia|]. apply Forall_forall. intros s Hs. apply in_map_iff in Hs. destruct Hs as (f & <- & Hf).
      cbn [init_slot fst snd]. split; [|intros l' r' v'; apply vparse_psuffix].
      pose proof (fold_max_in (fun f => vratio (f_ty f)) fs f 1 Hf) as Hm. cbn beta in Hm. rewrite Forall_forall in IH. apply (IH f Hf). lia. }
    rewrite init_parts in W.
    apply (within_le K _ ((1 + fold_right (fun f n => spare f + n) 0 fs) + (slots_parts sl' - fold_right (fun f n => spare f + n) 0 fs))); [lia|].
    apply (within_trans K _ _ _ l2); [|exact W].
    destruct P2 as (q & _ & ->). exists (S (length q)). cbn [length]. rewrite app_length. split; [lia|]. rewrite Nat.mul_succ_r. lia.
Qed.

Lemma ba_ratio : forall name t, In (name, t) ba_all -> vratio t <= 5.
Proof.
  intros name t Hin. pose proof (fold_max_in (fun x => vratio (snd x)) ba_all (name, t) 0 Hin) as Hm. cbn beta in Hm. cbn [snd] in Hm.
  assert (E : fold_right (fun x n => Nat.max (vratio (snd x)) n) 0 ba_all = 5) by (vm_compute; reflexivity). rewrite E in Hm. exact Hm.
Qed.

Lemma byte_parts : forall m name t l r v, In (name, t) ba_all -> bytes_ok l -> vparse m t l = Ok (r, v) -> parts v + 5 * length r <= 5 * length l.
Proof.
  intros m name t l r v Hin Hok Hr. destruct (vparse_parts m t 5 (ba_ratio _ _ Hin) l r v Hok Hr) as (c & E & Hc). lia.
Qed.

(** ** Bit-packed format *)

(** Parts of a value that takes no more than [min_bits], and parts per bit. *)
Fixpoint bbase (t : bty) : nat :=
  match t with
  | BInt _ _ | BBool | BByte | BNull | BUnit | BEnum _ _ | BBitInt _ | BArray _ _ => 1
  | BFourcc => 5
  | BOpt t' | BOptReread t' => 1 + bbase t'
  | BBlob _ | BFixedBlob _ | BBitArray _ => 2
  | BChoice _ l => 1 + fold_right (fun x n => Nat.max (bbase (snd x)) n) 0 l
  | BStruct fs => 1 + fold_right (fun x n => bbase (snd x) + n) 0 fs
  end.
(** An element takes [min_bits] or more. *)
Definition per_bit (t : bty) : nat := (bbase t + min_bits t - 1) / min_bits t.
Fixpoint bslope (t : bty) : nat :=
  match t with
  | BInt _ _ | BBool | BByte | BNull | BUnit | BEnum _ _ | BBitInt _ | BFourcc => 0
  | BOpt t' | BOptReread t' => bslope t'
  | BArray _ t' => per_bit t' + bslope t'
  | BBlob _ | BFixedBlob _ | BBitArray _ => 1
  | BChoice _ l => fold_right (fun x n => Nat.max (bslope (snd x)) n) 0 l
  | BStruct fs => fold_right (fun x n => Nat.max (bslope (snd x)) n) 0 fs
  end.
(** The elements of lists take room. *)
Fixpoint roomy (t : bty) : bool :=
  match t with
  | BOpt t' | BOptReread t' => roomy t'
  | BArray _ t' => Nat.leb 1 (min_bits t') && roomy t'
  | BChoice _ l => forallb (fun x => roomy (snd x)) l
  | BStruct fs => forallb (fun x => roomy (snd x)) fs
  | _ => true
  end.

Lemma per_bit_enough : forall t, 1 <= min_bits t -> bbase t <= per_bit t * min_bits t.
Proof.
  intros t H. unfold per_bit. pose proof (Nat.div_mod (bbase t + min_bits t - 1) (min_bits t) ltac:(lia)) as E.
  pose proof (Nat.mod_upper_bound (bbase t + min_bits t - 1) (min_bits t) ltac:(lia)). rewrite Nat.mul_comm. lia.
Qed.

Lemma blob_parts : forall F l, parts (blob_value F l) <= 2 + length l.
Proof. intros F [|x l]; unfold blob_value; [destruct (f_zero F)|]; cbn [parts length]; lia. Qed.

Lemma max_le : forall {A} (g : A -> nat) l K, fold_right (fun y n => Nat.max (g y) n) 0 l <= K -> forall x, In x l -> g x <= K.
Proof. intros A g l K H x Hx. pose proof (fold_max_in g l x 0 Hx). lia. Qed.

Lemma benc_parts : forall F t off v l, benc F t off v l -> forall K, bslope t <= K -> roomy t = true -> parts v <= bbase t + K * length l.
Proof.
  intros F. apply (benc_mind F
    (fun t off v l _ => forall K, bslope t <= K -> roomy t = true -> parts v <= bbase t + K * length l)
    (fun t off vs l _ => forall K, per_bit t + bslope t <= K -> roomy t = true -> 1 <= min_bits t ->
       fold_right (fun v' n => parts v' + n) 0 vs <= K * length l)
    (fun fs off vs l _ => forall K, fold_right (fun x n => Nat.max (bslope (snd x)) n) 0 fs <= K -> forallb (fun x => roomy (snd x)) fs = true ->
       fold_right (fun x n => parts (snd x) + n) 0 vs <= fold_right (fun x n => bbase (snd x) + n) 0 fs + K * length l));
  intros; cbn [parts bbase bslope roomy fold_right snd length] in *; try lia.
  - (* fourcc *) rewrite be_bytes_length, e. change ((32 + 7) / 8) with 4. lia.
  - (* some *) specialize (H K H0 H1). rewrite Nat.mul_succ_r. lia.
  - specialize (H K H0 H1). rewrite Nat.mul_succ_r. lia.
  - specialize (H K H0 H1). lia.
  - (* array *) apply andb_true_iff in H1. destruct H1 as [H1 H2]. apply Nat.leb_le in H1. specialize (H K H0 H2 H1).
    rewrite app_length, Nat.mul_add_distr_l. lia.
  - (* blob *) pose proof (blob_parts F l) as Hb. rewrite !app_length, flat_len. assert (length l <= K * length l) by nia. nia.
  - pose proof (blob_parts F l) as Hb. rewrite !app_length, flat_len. nia.
  - pose proof (blob_parts F (be_bytes (after off ln) l)) as Hb. rewrite be_bytes_length in Hb. rewrite app_length.
    assert ((length l + 7) / 8 <= length l) by (destruct (length l) as [|n0]; [cbn; lia|]; apply Nat.div_le_upper_bound; lia). nia.
  - (* choice *) pose proof (max_le (fun x => bslope (snd x)) vars K H0 _ i) as Hs. cbn [snd] in Hs.
    rewrite forallb_forall in H1. specialize (H K Hs (H1 _ i)). cbn [snd] in H.
    pose proof (fold_max_in (fun x => bbase (snd x)) vars _ 0 i) as Hb. cbn beta in Hb. cbn [snd] in Hb. rewrite app_length, Nat.mul_add_distr_l. lia.
  - (* struct *) specialize (H K H0 H1). lia.
  - (* list *) specialize (H0 K H1 H2 H3). specialize (H (bslope t) ltac:(lia) H2). rewrite app_length, Nat.mul_add_distr_l.
    pose proof (min_bits_le _ _ _ _ _ b) as Hm. pose proof (per_bit_enough t H3) as Hp.
    assert (per_bit t * min_bits t <= per_bit t * length l1) by (apply Nat.mul_le_mono_l; exact Hm).
    assert ((per_bit t + bslope t) * length l1 <= K * length l1) by (apply Nat.mul_le_mono_r; exact H1).
    rewrite Nat.mul_add_distr_r in H5. lia.
  - (* fields *) apply andb_true_iff in H2. destruct H2 as [H2 H3]. specialize (H K ltac:(lia) H2). specialize (H0 K ltac:(lia) H3).
    rewrite app_length, Nat.mul_add_distr_l. lia.
Qed.

Lemma bit_rates : forall name t, In (name, t) bit_types -> bslope t <= 3 /\ bbase t <= 64 /\ roomy t = true.
Proof.
  intros name t Hin.
  pose proof (fold_max_in (fun x => bslope (snd x)) bit_types (name, t) 0 Hin) as H1. pose proof (fold_max_in (fun x => bbase (snd x)) bit_types (name, t) 0 Hin) as H2.
  cbn beta in H1, H2. cbn [snd] in H1, H2.
  assert (E1 : fold_right (fun x n => Nat.max (bslope (snd x)) n) 0 bit_types = 3) by (vm_compute; reflexivity).
  assert (E2 : fold_right (fun x n => Nat.max (bbase (snd x)) n) 0 bit_types = 64) by (vm_compute; reflexivity).
  assert (E3 : forallb (fun x => roomy (snd x)) bit_types = true) by (vm_compute; reflexivity).
  rewrite E1 in H1. rewrite E2 in H2. rewrite forallb_forall in E3. specialize (E3 _ Hin). auto.
Qed.

Lemma bit_parts : forall m name t c c' v, In (name, t) bit_types -> cursor_ok c -> bparse m t c = Ok (c', v) ->
  exists n, c' = advance c n /\ n <= length (stream c) /\ parts v <= 64 + 3 * n.
Proof.
  intros m name t c c' v Hin Hc Hr. destruct (bit_rates _ _ Hin) as (H1 & H2 & H3).
  destruct (bparse_sound m t (bit_wf name t Hin) c c' v Hc Hr) as (l & [r El] & -> & B). exists (length l). split; [reflexivity|].
  split; [rewrite El, app_length; lia|]. pose proof (benc_parts _ _ _ _ _ B 3 H1 H3). lia.
Qed.
