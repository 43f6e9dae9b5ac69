(** * Bit-packed decoders: panics, the intended format, encoders, progress *)
From Verif Require Import Base BitSpec BitPacked BitProofs Types Versioned BitInterp BitFormat VersionedSpec VersionedProofs BitExact.
#[local] Open Scope list_scope.

(** The bias never leaves the i64 range: [offset + value] is an i64 for every
    value of that width, the value being taken as an i64 first. *)
Fixpoint no_overflow (t : bty) : bool :=
  match t with
  | BInt o n => if Nat.ltb n 64 then (- two63 <=? o) && (o + 2 ^ Z.of_nat n <=? two63) else (o =? 0)
  | BBool | BByte | BFourcc | BNull | BUnit | BBlob _ | BFixedBlob _ | BBitInt _ | BBitArray _ | BEnum _ _ => true
  | BOpt t' | BOptReread t' | BArray _ t' => no_overflow t'
  | BChoice _ l => forallb (fun x => no_overflow (snd x)) l
  | BStruct fs => forallb (fun x => no_overflow (snd x)) fs
  end.

(** The values on which the crate's format agrees with Blizzard's: no blob or
    bit array is empty, no [BOptReread] field is present, and in a checked
    build no biased 64-bit integer overflows. *)
Definition nonempty_bytes (v : val) : bool := match v with VBytes [] => false | _ => true end.

Fixpoint quirk_free (m : build) (t : bty) (v : val) {struct t} : bool :=
  match t, v with
  | BInt o n, VInt z => match m with Checked => in_i64 (o + as_i64 (z - o)) | Wrapping => true end
  | BOpt t', VOpt (Some v') => quirk_free m t' v'
  | BOptReread _, VOpt (Some _) => false
  | BArray _ t', VList vs => forallb (quirk_free m t') vs
  | BBlob _, _ | BFixedBlob _, _ | BBitArray _, _ => nonempty_bytes v
  | BChoice _ l, VChoice s v' => forallb (fun x => negb (String.eqb (snd (fst x)) s) || quirk_free m (snd x) v') l
  | BStruct fs, VStruct vs =>
      (fix go (fs : list (string * bty)) (vs : list (string * val)) : bool :=
         match fs, vs with (_, t') :: fs', (_, v') :: vs' => quirk_free m t' v' && go fs' vs' | _, _ => true end) fs vs
  | _, _ => true
  end.

Definition quirk_free_fields (m : build) : list (string * bty) -> list (string * val) -> bool :=
  fix go fs vs :=
    match fs, vs with (_, t') :: fs', (_, v') :: vs' => quirk_free m t' v' && go fs' vs' | _, _ => true end.

(** ** no panic *)
Lemma range_in : forall o n z, no_overflow (BInt o n) = true -> 0 <= z < 2 ^ Z.of_nat n -> (n <= 64)%nat ->
  in_i64 (o + as_i64 z) = true.
Proof.
  intros o n z H Hz Hn. cbn [no_overflow] in H. apply in_i64_true. destruct (Nat.ltb_spec n 64) as [Hl|Hl].
  - apply andb_true_iff in H as [H1 H2]. apply Z.leb_le in H1, H2.
    assert (B : 2 ^ Z.of_nat n <= 2 ^ 63) by (apply Z.pow_le_mono_r; lia). change (2 ^ 63) with two63 in B.
    rewrite as_i64_id by (unfold two63 in *; lia). lia.
  - apply Z.eqb_eq in H as ->. rewrite Z.add_0_l. unfold as_i64, two63, two64. dlia.
Qed.

Lemma take_n_np : forall c n, cursor_ok c -> take_n_bits_into_i64 c n <> Panic.
Proof.
  intros c n Hc. destruct (Nat.leb_spec n 64).
  - rewrite take_n_bits_spec by assumption. destruct (Nat.ltb _ _); discriminate.
  - unfold take_n_bits_into_i64. replace (Nat.ltb 64 n) with true by (symmetry; apply Nat.ltb_lt; lia). discriminate.
Qed.

Lemma packed_np : forall m c o n, cursor_ok c -> (n <= 64)%nat -> (m = Checked -> no_overflow (BInt o n) = true) ->
  parse_packed_int m c o n <> Panic.
Proof.
  intros m c o n Hc Hn Ho. unfold parse_packed_int. apply obind_np; [apply take_n_np; assumption|].
  intros [c1 z] H1. apply obind_np; [|discriminate]. unfold add_i64, ovf_i64.
  apply take_n_ok in H1 as (l & <- & _ & _ & ->); try assumption.
  destruct m; [|destruct (in_i64 _); discriminate].
  rewrite (range_in _ _ _ (Ho eq_refl)) by (try assumption; apply be_value_bound; destruct Hc as (_ & ? & _); assumption).
  discriminate.
Qed.

Lemma take_array_np : forall c n, cursor_ok c -> 0 <= n -> take_bit_array c n <> Panic.
Proof.
  intros c n Hc Hn. destruct (Z.eq_dec n 0) as [->|].
  - rewrite take_bit_array_0 by assumption. discriminate.
  - rewrite take_bit_array_spec by (assumption || lia). destruct (_ <? _); discriminate.
Qed.

Lemma zero_len : forall m n, (n <= 32)%nat -> m = Checked -> no_overflow (BInt 0 n) = true.
Proof.
  intros m n Hn _. cbn [no_overflow]. replace (Nat.ltb n 64) with true by (symmetry; apply Nat.ltb_lt; lia). apply andb_true_iff; split; apply Z.leb_le; [unfold two63; lia|].
  assert (B : 2 ^ Z.of_nat n <= 2 ^ 32) by (apply Z.pow_le_mono_r; lia). unfold two63. lia.
Qed.

Lemma sound_ok : forall m t c c' v, wf_bty t = true -> cursor_ok c -> bparse m t c = Ok (c', v) -> cursor_ok c'.
Proof. intros m t c c' v Hwf Hc H. apply bparse_sound in H as (l & P & -> & _); try assumption. apply pre_cursor; assumption. Qed.

Lemma bparse_np : forall m t, wf_bty t = true -> (m = Checked -> no_overflow t = true) ->
  forall c, cursor_ok c -> bparse m t c <> Panic.
Proof.
  intros m; induction t using bty_ind'; intros Hwf Ho c Hc; cbn [bparse wf_bty] in *.
  - apply andb_true_iff in Hwf as [Hn _]. apply Nat.leb_le in Hn.
    apply obind_np; [apply packed_np; assumption|intros [? ?] _; discriminate].
  - apply obind_np; [|intros [? ?] _; discriminate]. rewrite parse_bool_spec by assumption. destruct (stream c); discriminate.
  - apply obind_np; [|intros [? ?] _; discriminate]. rewrite take_unaligned_byte_spec by assumption. destruct (Nat.ltb _ _); discriminate.
  - apply obind_np; [|intros [? ?] _; discriminate]. rewrite take_fourcc_spec by assumption. destruct (Nat.ltb _ _); discriminate.
  - discriminate.
  - discriminate.
  - apply obind_np; [rewrite parse_bool_spec by assumption; destruct (stream c); discriminate|].
    intros [c1 b] H1. apply parse_bool_ok in H1 as [P ->]; [|assumption]. destruct (pre_cursor _ _ Hc P) as [Hc1 _].
    destruct b; [|discriminate]. apply obind_np; [apply IHt; assumption|intros [? ?] _; discriminate].
  - apply andb_true_iff in Hwf as [Hwf _]. apply obind_np; [rewrite parse_bool_spec by assumption; destruct (stream c); discriminate|].
    intros [c1 b] H1. destruct b; [|discriminate]. apply obind_np; [apply IHt; assumption|intros [? ?] _; discriminate].
  - apply andb_true_iff in Hwf as [Hn Hwf]. apply Nat.leb_le in Hn.
    apply obind_np; [apply take_n_np; assumption|]. intros [c1 z] H1.
    apply take_len_ok in H1 as (ln & _ & P & -> & _); try assumption. destruct (pre_cursor _ _ Hc P) as [Hc1 _].
    apply obind_np; [|intros [? ?] _; discriminate].
    generalize (Z.to_nat (as_u64 z)) as k. generalize dependent (advance c (length ln)). clear P ln.
    intros c2 Hc2 k; revert c2 Hc2. induction k as [|k IHk]; intros c2 Hc2; cbn [bparse_n]; [discriminate|].
    apply obind_np; [apply IHt; assumption|]. intros [c3 v3] H3. apply sound_ok in H3; try assumption.
    apply obind_np; [apply IHk; assumption|]. intros [? ?] _. discriminate.
  - apply Nat.leb_le in Hwf. apply obind_np; [apply packed_np; try assumption; [lia|apply zero_len; assumption]|].
    intros [c1 z] H1. apply packed_len_ok in H1 as (ln & _ & P & -> & -> & Hu & Hb); try assumption.
    destruct (pre_cursor _ _ Hc P) as [Hc1 _].
    apply obind_np; [rewrite byte_align_spec by assumption; discriminate|]. intros c2 H2.
    apply align_sound in H2 as (pad & _ & P2 & -> & _); [|assumption]. destruct (pre_cursor _ _ Hc1 P2) as [Hc2 _].
    apply obind_np; [|intros [? ?] _; discriminate]. apply take_array_np; [assumption|lia].
  - apply Z.ltb_lt in Hwf. apply obind_np; [rewrite byte_align_spec by assumption; discriminate|]. intros c2 H2.
    apply align_sound in H2 as (pad & _ & P2 & -> & _); [|assumption]. destruct (pre_cursor _ _ Hc P2) as [Hc2 _].
    apply obind_np; [|intros [? ?] _; discriminate]. apply take_array_np; [assumption|lia].
  - apply Nat.leb_le in Hwf. apply obind_np; [apply take_n_np; assumption|]. intros [c1 z] H1.
    apply take_len_ok in H1 as (ln & _ & P & -> & _); try assumption. destruct (pre_cursor _ _ Hc P) as [Hc1 _].
    apply obind_np; [apply take_n_np; assumption|intros [? ?] _; discriminate].
  - apply Nat.leb_le in Hwf. apply obind_np; [apply take_n_np; assumption|]. intros [c1 z] H1.
    apply take_len_ok in H1 as (ln & _ & P & -> & _ & Hu & Hb); try assumption. destruct (pre_cursor _ _ Hc P) as [Hc1 _].
    apply obind_np; [apply take_array_np; [assumption|lia]|intros [? ?] _; discriminate].
  - apply andb_true_iff in Hwf as [Hn Hnd]. apply Nat.leb_le in Hn.
    apply obind_np; [apply packed_np; try assumption; [lia|apply zero_len; assumption]|]. intros [c1 z] H1.
    destruct (find_enum l z); discriminate.
  - apply andb_true_iff in Hwf as [Hwf Hall]. apply andb_true_iff in Hwf as [Hn Hnd]. apply Nat.leb_le in Hn.
    apply obind_np; [apply packed_np; try assumption; [lia|apply zero_len; assumption]|]. intros [c1 z] H1.
    apply packed_len_ok in H1 as (ln & _ & P & -> & _); try assumption. destruct (pre_cursor _ _ Hc P) as [Hc1 _].
    rewrite find_variant_map. destruct (find_variant l z) as [[s t]|] eqn:E; [|discriminate].
    apply find_variant_in in E. apply obind_np; [|intros [? ?] _; discriminate].
    rewrite Forall_forall in H. rewrite forallb_forall in Hall. apply (H _ E); auto.
    intros Em. specialize (Ho Em). cbn in Ho. rewrite forallb_forall in Ho. apply (Ho _ E).
  - apply obind_np; [|intros [? ?] _; discriminate]. revert c Hc. cbn [no_overflow] in Ho. revert Hwf Ho.
    induction H as [|[n t] fs Ht Hfs IH]; intros Hwf Ho c Hc; cbn [map bparse_fields fst snd]; [discriminate|].
    cbn [forallb snd] in Hwf, Ho. apply andb_true_iff in Hwf as [Hw1 Hw2]. cbn [snd] in Ht.
    apply obind_np; [apply Ht; try assumption; intros Em; specialize (Ho Em); apply andb_true_iff in Ho; tauto|].
    intros [c1 v1] H1. apply sound_ok in H1; try assumption.
    apply obind_np; [|intros [? ?] _; discriminate]. apply IH; try assumption.
    intros Em; specialize (Ho Em); apply andb_true_iff in Ho; tauto.
Qed.

(** ** Blizzard's format is accepted, quirks apart *)
Scheme benc_mind := Induction for benc Sort Prop
  with benc_list_mind := Induction for benc_list Sort Prop
  with benc_fields_mind := Induction for benc_fields Sort Prop.

Lemma blob_value_ne : forall F G l, nonempty_bytes (blob_value F l) = true -> f_zero F = false -> blob_value F l = blob_value G l.
Proof. intros F G [|x l] H E; [|reflexivity]. unfold blob_value in H. rewrite E in H. discriminate. Qed.

Lemma as_i64_sub : forall o z, as_i64 (as_i64 (o + z) - o) = as_i64 z.
Proof.
  intros o z. destruct (as_i64_mod (o + z)) as [k ->]. unfold as_i64.
  replace (o + z + k * two64 - o + two63) with (z + two63 + k * two64) by ring.
  rewrite Z.mod_add by (unfold two64; lia). reflexivity.
Qed.

Lemma blizzard_crate : forall m t off v l, benc blizzard t off v l -> quirk_free m t v = true -> benc (crate m) t off v l.
Proof.
  intros m. apply (benc_mind blizzard
    (fun t off v l _ => quirk_free m t v = true -> benc (crate m) t off v l)
    (fun t off vs l _ => forallb (quirk_free m t) vs = true -> benc_list (crate m) t off vs l)
    (fun fs off vs l _ => quirk_free_fields m fs vs = true -> benc_fields (crate m) fs off vs l));
    try (intros; solve [constructor; assumption]).
  - intros o n off l Hl _ Hq. apply be_int; [assumption|]. intros Hm. destruct m; [|discriminate].
    cbn [quirk_free] in Hq. rewrite as_i64_sub in Hq. exact Hq.
  - intros t off v l H IH Hq. apply be_some. auto.
  - intros t off v l E H IH Hq. discriminate.
  - intros t off v l b s E. discriminate.
  - intros n t off ln vs l Hl Hv H IH Hq. apply be_array; auto.
  - intros n off ln pad l Hl Hv Hp Hb Hq. rewrite (blob_value_ne blizzard (crate m)) by auto. apply be_blob; auto.
  - intros k off pad l Hp Hb Hl Hq. rewrite (blob_value_ne blizzard (crate m)) by auto. apply be_fixed; auto.
  - intros n off ln l Hl Hv Hq. rewrite (blob_value_ne blizzard (crate m)) by auto. apply be_bitarray; auto.
  - intros n vars off ln s t v l Hl Hin H IH Hq. cbn [quirk_free] in Hq. rewrite forallb_forall in Hq.
    apply (be_choice (crate m) n vars off ln s t v l); auto. apply IH.
    specialize (Hq _ Hin). cbn [fst snd] in Hq. rewrite String.eqb_refl in Hq. exact Hq.
  - intros fs off vs l H IH Hq. constructor. apply IH. exact Hq.
  - intros t off v vs l1 l2 H1 IH1 H2 IH2 Hq. cbn in Hq. apply andb_true_iff in Hq as [N1 N2]. constructor; auto.
  - intros n t fs off v vs l1 l2 H1 IH1 H2 IH2 Hq. cbn [quirk_free_fields] in Hq. apply andb_true_iff in Hq as [N1 N2].
    constructor; auto.
Qed.

Lemma blizzard_round_trip : forall m t c v bits rest, wf_bty t = true -> quirk_free m t v = true -> cursor_ok c ->
  benc blizzard t (snd c) v bits -> stream c = bits ++ rest -> bparse m t c = Ok (advance c (length bits), v).
Proof.
  intros m t c v bits rest Hwf Hq Hc B E. apply bparse_complete; auto.
  - exists rest. assumption.
  - apply blizzard_crate; auto.
Qed.

Lemma bparse_exact : forall m t, wf_bty t = true -> forall c c' v, cursor_ok c ->
  (bparse m t c = Ok (c', v) <->
   exists bits rest, stream c = bits ++ rest /\ c' = advance c (length bits) /\ benc (crate m) t (snd c) v bits).
Proof.
  intros m t Hwf c c' v Hc. split.
  - intros H. apply bparse_sound in H as (l & [r E] & -> & B); try assumption. eauto.
  - intros (l & r & E & -> & B). apply bparse_complete; auto. exists r. assumption.
Qed.

(** ** a lower bound on the size *)
Fixpoint min_bits (t : bty) : nat :=
  match t with
  | BInt _ n | BArray n _ | BBlob n | BBitInt n | BBitArray n | BEnum n _ | BChoice n _ => n
  | BBool | BOpt _ => 1
  | BByte => 8
  | BFourcc => 32
  | BNull | BUnit | BOptReread _ => 0
  | BFixedBlob k => 8 * Z.to_nat k
  | BStruct fs => fold_right (fun x s => min_bits (snd x) + s)%nat 0%nat fs
  end.

Lemma min_bits_le : forall F t off v l, benc F t off v l -> (min_bits t <= length l)%nat.
Proof.
  intros F. apply (benc_mind F (fun t off v l _ => (min_bits t <= length l)%nat) (fun t off vs l _ => True)
    (fun fs off vs l _ => (fold_right (fun x s => min_bits (snd x) + s) 0 fs <= length l)%nat)); intros;
    cbn [min_bits fold_right length snd]; rewrite ?app_length, ?flat_len; auto; try lia.
Qed.
