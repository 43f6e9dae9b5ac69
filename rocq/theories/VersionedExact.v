(** * The versioned decoder accepts exactly the lax format; errors; panics *)
From Verif Require Import Base VlqSpec Vlq VlqProofs Types Versioned VersionedSpec VlqExact VersionedProofs.

Lemma vlq_sound : forall l r z, bytes_ok l -> parse_vlq_int Checked l = Ok (r, z) ->
  exists g, l = g ++ r /\ vlq_rep false z g /\ bytes_ok r.
Proof.
  intros l r z Hok H. apply parse_vlq_int_checked in H; [|assumption]. destruct H as (g & -> & Hg).
  exists g. apply bytes_ok_app in Hok. tauto.
Qed.

Lemma vlq_len_nonneg : forall (n : nat) z g, vlq_rep false z g -> as_u64 z = Z.of_nat n ->
  Z.of_nat n < two63 -> z = Z.of_nat n.
Proof.
  intros n z g Hg E Hn. apply vlq_rep_range in Hg. destruct (Z.ltb_spec z 0).
  - pose proof (as_u64_neg z ltac:(unfold two63 in *; lia)). lia.
  - rewrite as_u64_id in E by (unfold two63, two64 in *; lia). assumption.
Qed.

Lemma suffix_ok : forall r l, proper_suffix_of r l -> bytes_ok l -> bytes_ok r.
Proof. intros r l H. apply suffix_bytes_ok. apply psuffix_suffix; assumption. Qed.

(** A Rust slice: bytes, at most [isize::MAX] of them. *)
Definition input_ok (l : list Z) : Prop := bytes_ok l /\ Z.of_nat (length l) < two63.

Lemma input_ok_app : forall a b, input_ok (a ++ b) -> input_ok a /\ input_ok b.
Proof.
  intros a b [H1 H2]. apply bytes_ok_app in H1. rewrite app_length in H2. unfold input_ok.
  destruct H1. repeat split; try assumption; lia.
Qed.
Lemma input_ok_cons : forall a b, input_ok (a :: b) -> byte_ok a /\ input_ok b.
Proof.
  intros a b [H1 H2]. apply bytes_ok_cons in H1. cbn [length] in H2. unfold input_ok.
  destruct H1. repeat split; try assumption; try lia; apply H.
Qed.

Lemma parse_n_sound : forall t (p : parser val),
  (forall l r v, input_ok l -> p l = Ok (r, v) -> exists bs, l = bs ++ r /\ venc false t v bs) ->
  forall f n l r vs, 0 <= n -> input_ok l -> parse_n f p n l = Ok (r, vs) ->
  exists bss, l = concat bss ++ r /\ Forall2 (venc false t) vs bss /\ Z.of_nat (length vs) = n.
Proof.
  intros t p Hp; induction f as [|f IH]; intros n l r vs Hn Hok H; cbn in H;
    destruct (Z.eqb_spec n 0) as [->|E].
  1,3: injection H as <- <-; exists []; repeat split; constructor.
  - discriminate.
  - inv_do H. injection H as <- <-. destruct (Hp _ _ _ Hok E0) as (bs & -> & Hv).
    apply input_ok_app in Hok. destruct Hok as [_ Hok].
    destruct (IH (n - 1) _ _ _ ltac:(lia) Hok E1) as (bss & -> & Hvs & Hl).
    exists (bs :: bss). cbn [concat length]. rewrite <- app_assoc. repeat split; [constructor; assumption|lia].
Qed.

Lemma struct_step_inv : forall m fs cur z l,
  match struct_step (slots_of m fs cur) z l with
  | SUnknown => ~ In z (map f_tag fs)
  | _ => exists f, In f fs /\ f_tag f = z
  end.
Proof.
  intros m; induction fs as [|g fs IH]; intros cur z l; cbn [slots_of map struct_step unfld f_tag]; [intros []|].
  change (map (fun f => (unfld f, vparse m (f_ty f), cur f)) fs) with (slots_of m fs cur).
  destruct (Z.eqb_spec (f_tag g) z) as [E|E].
  - destruct (slot_free _); exists g; split; auto; left; reflexivity.
  - specialize (IH cur z l). destruct (struct_step (slots_of m fs cur) z l).
    + intros [H|H]; [congruence|contradiction].
    + destruct IH as (f & Hf & Ht). exists f; split; [right; assumption|assumption].
    + destruct IH as (f & Hf & Ht). exists f; split; [right; assumption|assumption].
Qed.

Lemma struct_loop_sound : forall m fs f count cur l r slots',
  m = Checked ->
  NoDup (map f_tag fs) ->
  (forall f, In f fs -> forall l r v, input_ok l -> vparse m (f_ty f) l = Ok (r, v) ->
      exists bs, l = bs ++ r /\ venc false (f_ty f) v bs) ->
  0 <= count -> input_ok l ->
  struct_loop f m count (slots_of m fs cur) l = Ok (r, slots') ->
  exists ws, l = wbytes ws ++ r /\ Z.of_nat (length ws) = count /\ slots' = slots_of m fs (run cur ws) /\ ok_from cur ws /\
   Forall (fun w => In (w_fld w) fs /\ vlq_rep false (f_tag (w_fld w)) (w_tag w) /\
                    venc false (f_ty (w_fld w)) (w_val w) (w_bytes w)) ws.
Proof.
  intros m fs f; induction f as [|f IH]; intros count cur l r slots' Hm Hnd Hp Hc Hok H; cbn [struct_loop] in H;
    destruct (Z.eqb_spec count 0) as [->|E].
  1,3: injection H as <- <-; exists []; repeat split; constructor.
  - discriminate.
  - apply obind_ok in H. destruct H as ([l0 z] & E0 & H). cbn beta iota in H.
    subst m. apply vlq_sound in E0; [|apply Hok]. destruct E0 as (g & -> & Hg & _). apply input_ok_app in Hok. destruct Hok as [_ Hok1].
    pose proof (struct_step_inv Checked fs cur z l0) as Hinv.
    destruct (struct_step (slots_of Checked fs cur) z l0) as [| |o] eqn:Es; try discriminate.
    destruct Hinv as (fd & Hin & <-). rewrite struct_step_found in Es by assumption.
    destruct (free cur fd) eqn:Hfree; [|discriminate]. injection Es as <-.
    apply obind_ok in H. destruct H as ([l1 sl] & E1 & H). cbn beta iota in H.
    apply obind_ok in E1. destruct E1 as ([l2 v] & E1 & E2). injection E2 as <- <-.
    destruct (Hp _ Hin _ _ _ Hok1 E1) as (bs & -> & Hv). apply input_ok_app in Hok1. destruct Hok1 as [_ Hok2].
    apply IH in H; try assumption; try reflexivity; try lia.
    destruct H as (ws & -> & Hl & -> & Hokf & Hws).
    exists (mkw fd g v bs :: ws). unfold wbytes. cbn [map concat w_tag w_bytes length run fold_left w_fld w_val ok_from].
    rewrite <- !app_assoc. repeat split; try assumption; try lia.
    constructor; [cbn; auto|assumption].
Qed.

Lemma vparse_sound : forall t, wf_vty t = true -> forall l r v, input_ok l ->
  vparse Checked t l = Ok (r, v) -> exists bs, l = bs ++ r /\ venc false t v bs.
Proof.
  intros t; induction t as [it| | | |t IH|t IH|l0|tag l0 IH|fs IH] using vty_ind';
    intros Hwf l r v Hok H; cbn [vparse] in H.
  - unfold tagged_vlq_int in H. inv_do H. vtag E0. apply input_ok_cons in Hok. destruct Hok as [_ Hok].
    apply vlq_sound in E; [|apply Hok]. destruct E as (g & -> & Hg & _).
    destruct (in_ity it z) eqn:Ei; [|discriminate]. injection H as <- <-.
    exists (INT_TAG :: g). split; [reflexivity|constructor; assumption].
  - unfold tagged_blob in H. inv_do H. vtag E0. apply input_ok_cons in Hok. destruct Hok as [_ Hok].
    apply vlq_sound in E1; [|apply Hok]. destruct E1 as (g & -> & Hg & _).
    apply input_ok_app in Hok. destruct Hok as [_ Hok].
    apply take_bytes_ok in E; [|apply as_u64_nonneg]. destruct E as [-> E]. injection H as <- <-.
    exists (BLOB_TAG :: g ++ l1). cbn [app]. rewrite <- app_assoc. split; [reflexivity|].
    apply input_ok_app in Hok. destruct Hok as [[Hok Hlen] _].
    constructor; [assumption|]. rewrite <- (vlq_len_nonneg (length l1) z g Hg) by (try (symmetry; assumption); lia). assumption.
  - unfold tagged_bool in H. inv_do H. vtag E0. apply take_u8_ok in E1. subst. injection E as <- <-. injection H as <- <-.
    exists [BOOL_TAG; z]. split; [reflexivity|]. apply input_ok_cons in Hok. destruct Hok as [_ Hok].
    apply input_ok_cons in Hok.
    constructor.
    + apply Hok.
    + destruct (Z.eqb_spec z 0) as [->|E]; cbn; split; intros; congruence.
  - unfold tagged_fourcc in H. inv_do H. vtag E0. unfold take_u32_be in E.
    destruct a as [|x [|y [|w [|q tl]]]]; try discriminate. injection E as <- <-. injection H as <- <-.
    exists [FOURCC_TAG; x; y; w; q]. split; [reflexivity|].
    replace (((x * 256 + y) * 256 + w) * 256 + q) with (x * 2 ^ 24 + y * 2 ^ 16 + w * 2 ^ 8 + q)
      by (change (2 ^ 24) with 16777216; change (2 ^ 16) with 65536; change (2 ^ 8) with 256; lia).
    constructor. apply input_ok_cons in Hok. destruct Hok as [_ Hok].
    change (x :: y :: w :: q :: tl) with ([x; y; w; q] ++ tl) in Hok. apply input_ok_app in Hok. apply Hok.
  - cbn in Hwf. inv_do H. vtag E. apply take_u8_ok in E0. subst. apply input_ok_cons in Hok.
    destruct Hok as [_ Hok]. apply input_ok_cons in Hok.
    destruct Hok as [Hz Hok]. destruct (Z.eqb_spec z 0) as [->|Ez]; cbn [negb] in H.
    + injection H as <- <-. exists [OPT_TAG; 0]. split; [reflexivity|constructor].
    + inv_do H. injection H as <- <-. apply IH in E; [|assumption|assumption].
      destruct E as (bs & -> & Hv). exists (OPT_TAG :: z :: bs). split; [reflexivity|constructor; assumption].
  - cbn in Hwf. inv_do H. vtag E. apply input_ok_cons in Hok. destruct Hok as [_ Hok].
    apply vlq_sound in E0; [|apply Hok]. destruct E0 as (g & -> & Hg & _). injection H as <- <-.
    apply input_ok_app in Hok. destruct Hok as [_ Hok].
    apply (parse_n_sound t) in E1; [|exact (IH Hwf)|apply as_u64_nonneg|assumption].
    destruct E1 as (bss & -> & Hvs & Hl). exists (ARRAY_TAG :: g ++ concat bss). cbn [app]. rewrite <- app_assoc.
    split; [reflexivity|]. constructor; [|assumption].
    match type of Hvs with Forall2 _ ?vs _ => rename vs into vs0 end.
    rewrite <- (vlq_len_nonneg (length vs0) z g Hg); [assumption|congruence|].
    assert (length vs0 <= length (concat bss))%nat.
    { clear - Hvs. induction Hvs as [|v bs vs bss Hv Hvs IH]; [cbn; lia|].
      cbn [concat length]. rewrite app_length. apply venc_ne in Hv. destruct bs; [congruence|]. cbn. lia. }
    apply input_ok_app in Hok. destruct Hok as [[_ Hlen] _]. lia.
  - inv_do H. vtag E. apply input_ok_cons in Hok. destruct Hok as [_ Hok].
    apply vlq_sound in E0; [|apply Hok]. destruct E0 as (g & -> & Hg & _).
    destruct (find_enum l0 z) eqn:Ef; [|discriminate]. injection H as <- <-. apply find_enum_in in Ef.
    exists (INT_TAG :: g). split; [reflexivity|econstructor; eassumption].
  - cbn in Hwf. apply andb_true_iff in Hwf. destruct Hwf as [_ Hwf]. rewrite forallb_forall in Hwf. rewrite Forall_forall in IH.
    inv_do H. vtag E. apply input_ok_cons in Hok. destruct Hok as [_ Hok].
    apply vlq_sound in E0; [|apply Hok]. destruct E0 as (g & -> & Hg & _). apply input_ok_app in Hok. destruct Hok as [_ Hok].
    rewrite find_variant_map in H. destruct (find_variant l0 z) as [[n t]|] eqn:Ef; [|discriminate].
    apply find_variant_in in Ef. inv_do H. injection H as <- <-.
    apply (IH _ Ef (Hwf _ Ef)) in E; [|assumption]. destruct E as (bs & -> & Hv). cbn [snd] in Hv.
    exists (tag :: g ++ bs). cbn [app]. rewrite <- app_assoc. split; [reflexivity|econstructor; eassumption].
  - cbn in Hwf. apply andb_true_iff in Hwf. destruct Hwf as [Hnd Hwf]. apply nodupb_NoDup in Hnd.
    rewrite forallb_forall in Hwf. rewrite Forall_forall in IH.
    unfold parse_struct in H. inv_do H. vtag E. apply input_ok_cons in Hok. destruct Hok as [_ Hok].
    apply vlq_sound in E0; [|apply Hok]. destruct E0 as (g & -> & Hg & _). apply input_ok_app in Hok. destruct Hok as [_ Hok].
    injection H as <- <-. rewrite slots_of_cur0 in E1.
    apply struct_loop_sound in E1; try assumption; try reflexivity; try apply as_u64_nonneg.
    + destruct E1 as (ws & -> & Hl & -> & Hokf & Hws).
      assert (Hin : Forall (fun w => In (w_fld w) fs) ws) by (eapply Forall_impl; [|exact Hws]; cbn; tauto).
      exists (STRUCT_TAG :: g ++ wbytes ws). cbn [app]. rewrite <- app_assoc. split; [reflexivity|].
      constructor.
      * rewrite <- (vlq_len_nonneg (length ws) z g Hg); [assumption|congruence|].
        assert (length ws <= length (wbytes ws))%nat.
        { clear - Hws. induction Hws as [|w ws (_ & Ht & _) Hws IH]; [cbn; lia|].
          unfold wbytes in *. cbn [map concat length]. rewrite !app_length.
          apply vlq_rep_ne in Ht. destruct (w_tag w); [congruence|]. cbn. lia. }
        apply input_ok_app in Hok. destruct Hok as [[_ Hlen] _]. lia.
      * assumption.
      * apply (ok_from_cur0 fs); assumption.
      * apply (struct_fields_finish Checked); assumption.
    + intros fd Hfd. apply IH; [assumption|]. apply Hwf; assumption.
Qed.

(** A checked build accepts exactly the lax format. *)
Lemma vparse_exact : forall t, wf_vty t = true -> forall l r v, input_ok l ->
  (vparse Checked t l = Ok (r, v) <-> exists bs, l = bs ++ r /\ venc false t v bs).
Proof.
  intros t Hwf l r v Hok. split.
  - apply vparse_sound; assumption.
  - intros (bs & -> & H). apply (vparse_complete false); assumption.
Qed.

(** ** Both builds agree unless the checked one panics *)
Lemma bind_agree : forall A B (x y : outcome A) (f g : A -> outcome B),
  (x <> Panic -> y = x) -> (forall a, x = Ok a -> f a <> Panic -> g a = f a) ->
  obind x f <> Panic -> obind y g = obind x f.
Proof.
  intros A B x y f g H1 H2 H. assert (Hx : x <> Panic) by (eapply obind_np_inv; eassumption).
  rewrite (H1 Hx). destruct x as [a| |]; cbn in *; [apply H2; auto|reflexivity|congruence].
Qed.

Lemma parse_n_agree : forall (p q : parser val), (forall l, p l <> Panic -> q l = p l) ->
  forall f n l, parse_n f p n l <> Panic -> parse_n f q n l = parse_n f p n l.
Proof.
  intros p q Hp; induction f as [|f IH]; intros n l H; cbn [parse_n] in *; destruct (n =? 0); try reflexivity.
  revert H. apply bind_agree; [apply Hp|]. intros [t v] _. apply bind_agree; [apply IH|]. intros [t2 vs] _ _. reflexivity.
Qed.

Definition slots_agree (fs : list (fld vty)) : Prop :=
  forall f, In f fs -> forall l, vparse Checked (f_ty f) l <> Panic -> vparse Wrapping (f_ty f) l = vparse Checked (f_ty f) l.

Lemma struct_loop_agree : forall fs, NoDup (map f_tag fs) -> slots_agree fs ->
  forall f n cur l, struct_loop f Checked n (slots_of Checked fs cur) l <> Panic ->
  (exists e, struct_loop f Checked n (slots_of Checked fs cur) l = Err e /\
             struct_loop f Wrapping n (slots_of Wrapping fs cur) l = Err e) \/
  (exists r cur', struct_loop f Checked n (slots_of Checked fs cur) l = Ok (r, slots_of Checked fs cur') /\
             struct_loop f Wrapping n (slots_of Wrapping fs cur) l = Ok (r, slots_of Wrapping fs cur')).
Proof.
  intros fs Hnd Ha; induction f as [|f IH]; intros n cur l H; cbn [struct_loop] in *; destruct (n =? 0).
  1,3: right; eauto.
  - left; eauto.
  - rewrite parse_vlq_int_agree by (eapply obind_np_inv; eassumption).
    destruct (parse_vlq_int Checked l) as [[l1 z]|e|]; cbn [obind] in *; [|left; eauto|congruence].
    destruct (in_dec Z.eq_dec z (map f_tag fs)) as [Hin|Hin].
    + apply in_map_iff in Hin. destruct Hin as (fd & <- & Hin).
      rewrite !struct_step_found in * by assumption. destruct (free cur fd); [|left; eauto].
      assert (Hnp : vparse Checked (f_ty fd) l1 <> Panic) by (intros E; rewrite E in H; apply H; reflexivity).
      rewrite (Ha _ Hin _ Hnp). destruct (vparse Checked (f_ty fd) l1) as [[l2 v]|e|]; cbn [obind] in *; [|left; eauto|congruence].
      apply IH; assumption.
    + rewrite !struct_step_unknown in * by assumption. left; eauto.
Qed.

Lemma struct_finish_agree : forall fs cur,
  struct_finish (slots_of Wrapping fs cur) = struct_finish (slots_of Checked fs cur).
Proof.
  induction fs as [|f fs IH]; intros cur; [reflexivity|].
  cbn [slots_of map struct_finish]. change (map (fun f0 => (unfld f0, vparse Wrapping (f_ty f0), cur f0)) fs) with (slots_of Wrapping fs cur).
  rewrite IH. reflexivity.
Qed.

Lemma vparse_agree : forall t, wf_vty t = true -> forall l,
  vparse Checked t l <> Panic -> vparse Wrapping t l = vparse Checked t l.
Proof.
  intros t; induction t as [it| | | |t IH|t IH|l0|tag l0 IH|fs IH] using vty_ind';
    intros Hwf l; cbn [vparse]; try reflexivity.
  - apply bind_agree; [|intros [a b] _ _; reflexivity]. unfold tagged_vlq_int.
    apply bind_agree; [reflexivity|]. intros a _. apply parse_vlq_int_agree.
  - apply bind_agree; [|intros [a b] _ _; reflexivity]. unfold tagged_blob.
    apply bind_agree; [reflexivity|]. intros a _. apply bind_agree; [apply parse_vlq_int_agree|]. intros [b c] _ _; reflexivity.
  - cbn in Hwf. apply bind_agree; [reflexivity|]. intros a _. apply bind_agree; [reflexivity|]. intros [b c] _.
    destruct (negb (c =? 0)); [|reflexivity]. apply bind_agree; [apply IH; assumption|]. intros [d e] _ _; reflexivity.
  - cbn in Hwf. apply bind_agree; [reflexivity|]. intros a _. apply bind_agree; [apply parse_vlq_int_agree|]. intros [b c] _.
    apply bind_agree; [|intros [d e] _ _; reflexivity]. apply parse_n_agree. apply IH; assumption.
  - apply bind_agree; [reflexivity|]. intros a _. apply bind_agree; [apply parse_vlq_int_agree|]. intros [b c] _ _; reflexivity.
  - cbn in Hwf. apply andb_true_iff in Hwf. destruct Hwf as [_ Hwf]. rewrite forallb_forall in Hwf. rewrite Forall_forall in IH.
    apply bind_agree; [reflexivity|]. intros a _. apply bind_agree; [apply parse_vlq_int_agree|]. intros [b c] _.
    rewrite !find_variant_map. destruct (find_variant l0 c) as [[n t]|] eqn:Ef; [|reflexivity].
    apply find_variant_in in Ef. apply bind_agree; [|intros [d e] _ _; reflexivity].
    apply (IH _ Ef (Hwf _ Ef)).
  - cbn in Hwf. apply andb_true_iff in Hwf. destruct Hwf as [Hnd Hwf]. apply nodupb_NoDup in Hnd.
    rewrite forallb_forall in Hwf. rewrite Forall_forall in IH.
    unfold parse_struct. apply bind_agree; [reflexivity|]. intros a _. apply bind_agree; [apply parse_vlq_int_agree|]. intros [b c] _.
    rewrite !slots_of_cur0. intros H.
    destruct (struct_loop_agree fs Hnd (fun f Hf => IH f Hf (Hwf f Hf)) (S (length b)) (as_u64 c) cur0 b) as [(e & E1 & E2)|(r & cur' & E1 & E2)].
    + eapply obind_np_inv; eassumption.
    + rewrite E1, E2. reflexivity.
    + rewrite E1, E2. cbn [obind]. rewrite struct_finish_agree. reflexivity.
Qed.

(** ** Panics *)
Section no_panic.
  Variable m : build.
  (** Inputs on which the variable-length integers do not panic. *)
  Variable safe : list Z -> Prop.
  Hypothesis safe_suffix : forall a l, suffix_of a l -> safe l -> safe a.
  Hypothesis safe_ok : forall l, safe l -> bytes_ok l.
  Hypothesis safe_np : forall l, safe l -> parse_vlq_int m l <> Panic.

  Lemma safe_cons : forall a l, safe (a :: l) -> safe l.
  Proof. intros a l H. eapply safe_suffix; [|eassumption]. apply psuffix_suffix, suffix_cons. Qed.

  Lemma parse_n_np : forall (p : parser val),
    (forall l r v, bytes_ok l -> p l = Ok (r, v) -> proper_suffix_of r l) ->
    (forall l, safe l -> p l <> Panic) ->
    forall f n l, safe l -> parse_n f p n l <> Panic.
  Proof.
    intros p Hs Hp; induction f as [|f IH]; intros n l Hl; cbn [parse_n]; destruct (n =? 0); try discriminate.
    apply obind_np; [apply Hp; assumption|]. intros [t v] E. apply obind_np; [|intros [t2 vs] _; discriminate].
    apply IH. apply Hs in E; [|apply safe_ok; assumption]. eapply safe_suffix; [apply psuffix_suffix; eassumption|assumption].
  Qed.

  Lemma struct_loop_np : forall fs, NoDup (map f_tag fs) ->
    (forall f, In f fs -> forall l, safe l -> vparse m (f_ty f) l <> Panic) ->
    forall f n cur l, safe l -> struct_loop f m n (slots_of m fs cur) l <> Panic.
  Proof.
    intros fs Hnd Hp; induction f as [|f IH]; intros n cur l Hl; cbn [struct_loop]; destruct (n =? 0); try discriminate.
    apply obind_np; [apply safe_np; assumption|]. intros [t z] E.
    apply parse_vlq_int_psuffix in E; [|apply safe_ok; assumption].
    assert (Ht : safe t) by (eapply safe_suffix; [apply psuffix_suffix; eassumption|assumption]).
    destruct (in_dec Z.eq_dec z (map f_tag fs)) as [Hin|Hin].
    - apply in_map_iff in Hin. destruct Hin as (fd & <- & Hin).
      rewrite struct_step_found by assumption. destruct (free cur fd); [|discriminate].
      destruct (vparse m (f_ty fd) t) as [[t2 v]|e|] eqn:Ev; cbn [obind].
      + apply IH. apply vparse_psuffix in Ev; [|apply safe_ok; assumption].
        eapply safe_suffix; [apply psuffix_suffix; eassumption|assumption].
      + discriminate.
      + exfalso. apply (Hp _ Hin _ Ht). assumption.
    - rewrite struct_step_unknown by assumption. discriminate.
  Qed.

  Lemma struct_finish_np : forall slots, struct_finish slots <> Panic.
  Proof.
    induction slots as [|[[fd p] cur] slots IH]; cbn [struct_finish]; [discriminate|].
    apply obind_np.
    - destruct cur; [discriminate|]. destruct (f_fin fd); discriminate.
    - intros v _. apply obind_np; [assumption|]. intros; discriminate.
  Qed.

  Lemma vparse_np : forall t, wf_vty t = true -> forall l, safe l -> vparse m t l <> Panic.
  Proof.
    intros t; induction t as [it| | | |t IH|t IH|l0|tag l0 IH|fs IH] using vty_ind';
      intros Hwf l Hl; cbn [vparse].
    - unfold tagged_vlq_int. apply obind_np.
      + apply obind_np; [apply validate_tag_np|]. intros a Ea. vtag Ea. apply safe_np. eapply safe_cons; eassumption.
      + intros [a b] _. destruct (in_ity it b); discriminate.
    - unfold tagged_blob. apply obind_np; [|intros [a b] _; discriminate].
      apply obind_np; [apply validate_tag_np|]. intros a Ea. vtag Ea.
      apply obind_np; [apply safe_np; eapply safe_cons; eassumption|]. intros [b c] _.
      unfold take_bytes. destruct (_ <? _); discriminate.
    - unfold tagged_bool. apply obind_np; [|intros [a b] _; discriminate].
      apply obind_np; [apply validate_tag_np|]. intros a _. apply obind_np; [destruct a; discriminate|]. intros [b c] _. discriminate.
    - unfold tagged_fourcc. apply obind_np; [|intros [a b] _; discriminate].
      apply obind_np; [apply validate_tag_np|]. intros a _. unfold take_u32_be.
      destruct a as [|? [|? [|? [|? ?]]]]; discriminate.
    - cbn in Hwf. apply obind_np; [apply validate_tag_np|]. intros a Ea. vtag Ea. apply safe_cons in Hl.
      apply obind_np; [destruct a; discriminate|]. intros [b c] Eb. apply take_u8_ok in Eb. subst. apply safe_cons in Hl.
      destruct (negb (c =? 0)); [|discriminate]. apply obind_np; [apply IH; assumption|]. intros [d e] _; discriminate.
    - cbn in Hwf. apply obind_np; [apply validate_tag_np|]. intros a Ea. vtag Ea. apply safe_cons in Hl.
      apply obind_np; [apply safe_np; assumption|]. intros [b c] Eb.
      apply parse_vlq_int_psuffix in Eb; [|apply safe_ok; assumption].
      apply obind_np; [|intros [d e] _; discriminate]. apply parse_n_np.
      + intros. eapply vparse_psuffix; eassumption.
      + intros. apply IH; assumption.
      + eapply safe_suffix; [apply psuffix_suffix; eassumption|assumption].
    - apply obind_np; [apply validate_tag_np|]. intros a Ea. vtag Ea. apply safe_cons in Hl.
      apply obind_np; [apply safe_np; assumption|]. intros [b c] _. destruct (find_enum l0 c); discriminate.
    - cbn in Hwf. apply andb_true_iff in Hwf. destruct Hwf as [_ Hwf]. rewrite forallb_forall in Hwf. rewrite Forall_forall in IH.
      apply obind_np; [apply validate_tag_np|]. intros a Ea. vtag Ea. apply safe_cons in Hl.
      apply obind_np; [apply safe_np; assumption|]. intros [b c] Eb.
      apply parse_vlq_int_psuffix in Eb; [|apply safe_ok; assumption].
      rewrite find_variant_map. destruct (find_variant l0 c) as [[n t]|] eqn:Ef; [|discriminate].
      apply find_variant_in in Ef. apply obind_np; [|intros [d e] _; discriminate].
      apply (IH _ Ef (Hwf _ Ef)). eapply safe_suffix; [apply psuffix_suffix; eassumption|assumption].
    - cbn in Hwf. apply andb_true_iff in Hwf. destruct Hwf as [Hnd Hwf]. apply nodupb_NoDup in Hnd.
      rewrite forallb_forall in Hwf. rewrite Forall_forall in IH.
      unfold parse_struct. apply obind_np; [apply validate_tag_np|]. intros a Ea. vtag Ea. apply safe_cons in Hl.
      apply obind_np; [apply safe_np; assumption|]. intros [b c] Eb.
      apply parse_vlq_int_psuffix in Eb; [|apply safe_ok; assumption].
      rewrite slots_of_cur0. apply obind_np.
      + apply struct_loop_np; [assumption| |eapply safe_suffix; [apply psuffix_suffix; eassumption|assumption]].
        intros f Hf. apply IH; auto.
      + intros [d e] _. apply obind_np; [apply struct_finish_np|]. intros; discriminate.
  Qed.
End no_panic.

Lemma vparse_wrapping_np : forall t, wf_vty t = true -> forall l, bytes_ok l -> vparse Wrapping t l <> Panic.
Proof.
  intros t Hwf l Hl. apply (vparse_np Wrapping bytes_ok); try assumption.
  - intros a l' Hs H. eapply suffix_bytes_ok; eassumption.
  - auto.
  - intros l' _. apply parse_vlq_int_wrapping_no_panic.
Qed.

Lemma vparse_no_run_np : forall m t, wf_vty t = true -> forall l, bytes_ok l -> no_run 9 l -> vparse m t l <> Panic.
Proof.
  intros m t Hwf l Hl Hn. apply (vparse_np m (fun l => bytes_ok l /\ no_run 9 l)); auto.
  - intros a l' Hs [H1 H2]. split; [eapply suffix_bytes_ok; eassumption|eapply no_run_suffix; eassumption].
  - tauto.
  - intros l' [H1 H2]. apply parse_vlq_no_run; assumption.
Qed.

(** ** Fuel is never exhausted: no [EOther] ever comes out *)
Definition not_fuel {A} (x : outcome A) : Prop := match x with Err (EOther _) => False | _ => True end.

Lemma not_fuel_bind : forall A B (x : outcome A) (f : A -> outcome B),
  not_fuel x -> (forall a, x = Ok a -> not_fuel (f a)) -> not_fuel (obind x f).
Proof. intros A B [a|e|] f H1 H2; cbn; [apply H2; reflexivity|assumption|exact I]. Qed.

Lemma vlq_loop_nf : forall m l r b, not_fuel (vlq_loop m l r b).
Proof.
  intros m; induction l as [|x l IH]; intros r b; cbn [vlq_loop]; [exact I|].
  apply not_fuel_bind.
  - unfold shl_i64. destruct (b <? 64); [exact I|]. destruct m; exact I.
  - intros a _. destruct (_ =? 0); [exact I|apply IH].
Qed.

Lemma parse_vlq_nf : forall m l, not_fuel (parse_vlq_int m l).
Proof.
  intros m [|b l]; unfold parse_vlq_int; [exact I|]. apply not_fuel_bind.
  - destruct (_ =? 0); [exact I|apply vlq_loop_nf].
  - intros [t z] _. destruct (negb _); [|exact I]. apply not_fuel_bind; [|intros; exact I].
    unfold neg_i64, ovf_i64. destruct (in_i64 _); [exact I|]. destruct m; exact I.
Qed.

Lemma validate_tag_nf : forall t l, not_fuel (validate_tag t l).
Proof. intros t [|b l]; cbn; [exact I|]. destruct (b =? t); exact I. Qed.

Lemma parse_n_nf : forall (p : parser val),
  (forall l r v, bytes_ok l -> p l = Ok (r, v) -> proper_suffix_of r l) ->
  (forall l, bytes_ok l -> not_fuel (p l)) -> p [] = Err ENom ->
  forall f n l, bytes_ok l -> (length l < f)%nat -> not_fuel (parse_n f p n l).
Proof.
  intros p Hs Hp H0; induction f as [|f IH]; intros n l Hl Hf; [lia|]. cbn [parse_n].
  destruct (n =? 0); [exact I|]. apply not_fuel_bind; [apply Hp; assumption|]. intros [t v] E.
  apply not_fuel_bind; [|intros [t2 vs] _; exact I].
  pose proof (Hs _ _ _ Hl E) as Ht. apply IH; [apply (suffix_ok t l); assumption|]. apply psuffix_length in Ht. lia.
Qed.

Lemma vparse_nil : forall m t, vparse m t [] = Err ENom.
Proof. intros m [ | | | | | | | | ]; reflexivity. Qed.

Lemma struct_loop_nf : forall m fs, NoDup (map f_tag fs) ->
  (forall f, In f fs -> forall l, bytes_ok l -> not_fuel (vparse m (f_ty f) l)) ->
  forall f n cur l, bytes_ok l -> (length l < f)%nat -> not_fuel (struct_loop f m n (slots_of m fs cur) l).
Proof.
  intros m fs Hnd Hp; induction f as [|f IH]; intros n cur l Hl Hf; [lia|]. cbn [struct_loop].
  destruct (n =? 0); [exact I|]. apply not_fuel_bind; [apply parse_vlq_nf|]. intros [t z] E.
  apply parse_vlq_int_psuffix in E; [|assumption]. pose proof (suffix_ok _ _ E Hl) as Ht. apply psuffix_length in E.
  destruct (in_dec Z.eq_dec z (map f_tag fs)) as [Hin|Hin].
  - apply in_map_iff in Hin. destruct Hin as (fd & <- & Hin).
    rewrite struct_step_found by assumption. destruct (free cur fd); [|exact I].
    specialize (Hp _ Hin _ Ht).
    destruct (vparse m (f_ty fd) t) as [[t2 v]|e|] eqn:Ev; cbn [obind]; [|exact Hp|exact I].
    pose proof (vparse_psuffix _ _ _ _ _ Ht Ev) as Hs. apply IH; [apply (suffix_ok _ _ Hs Ht)|]. apply psuffix_length in Hs. lia.
  - rewrite struct_step_unknown by assumption. exact I.
Qed.

Lemma struct_finish_nf : forall slots, not_fuel (struct_finish slots).
Proof.
  induction slots as [|[[fd p] cur] slots IH]; cbn [struct_finish]; [exact I|].
  apply not_fuel_bind.
  - destruct cur; [exact I|]. destruct (f_fin fd); exact I.
  - intros v _. apply not_fuel_bind; [assumption|]. intros; exact I.
Qed.

Lemma vparse_nf : forall m t, wf_vty t = true -> forall l, bytes_ok l -> not_fuel (vparse m t l).
Proof.
  intros m t; induction t as [it| | | |t IH|t IH|l0|tag l0 IH|fs IH] using vty_ind';
    intros Hwf l Hl; cbn [vparse].
  - unfold tagged_vlq_int. apply not_fuel_bind.
    + apply not_fuel_bind; [apply validate_tag_nf|]. intros; apply parse_vlq_nf.
    + intros [a b] _. destruct (in_ity it b); exact I.
  - unfold tagged_blob. apply not_fuel_bind; [|intros [a b] _; exact I].
    apply not_fuel_bind; [apply validate_tag_nf|]. intros a _.
    apply not_fuel_bind; [apply parse_vlq_nf|]. intros [b c] _.
    unfold take_bytes. destruct (_ <? _); exact I.
  - unfold tagged_bool. apply not_fuel_bind; [|intros [a b] _; exact I].
    apply not_fuel_bind; [apply validate_tag_nf|]. intros a _. apply not_fuel_bind; [destruct a; exact I|]. intros [b c] _. exact I.
  - unfold tagged_fourcc. apply not_fuel_bind; [|intros [a b] _; exact I].
    apply not_fuel_bind; [apply validate_tag_nf|]. intros a _. unfold take_u32_be.
    destruct a as [|? [|? [|? [|? ?]]]]; exact I.
  - cbn in Hwf. apply not_fuel_bind; [apply validate_tag_nf|]. intros a Ea. vtag Ea. apply bytes_ok_cons in Hl.
    apply not_fuel_bind; [destruct a; exact I|]. intros [b c] Eb. apply take_u8_ok in Eb. subst. destruct Hl as [_ Hl]. apply bytes_ok_cons in Hl.
    destruct (negb (c =? 0)); [|exact I]. apply not_fuel_bind; [apply IH; tauto|]. intros [d e] _; exact I.
  - cbn in Hwf. apply not_fuel_bind; [apply validate_tag_nf|]. intros a Ea. vtag Ea. apply bytes_ok_cons in Hl. destruct Hl as [_ Hl].
    apply not_fuel_bind; [apply parse_vlq_nf|]. intros [b c] Eb.
    apply parse_vlq_int_psuffix in Eb; [|assumption].
    apply not_fuel_bind; [|intros [d e] _; exact I]. apply parse_n_nf.
    + intros. eapply vparse_psuffix; eassumption.
    + intros. apply IH; assumption.
    + apply vparse_nil.
    + apply (suffix_ok _ _ Eb Hl).
    + lia.
  - apply not_fuel_bind; [apply validate_tag_nf|]. intros a Ea.
    apply not_fuel_bind; [apply parse_vlq_nf|]. intros [b c] _. destruct (find_enum l0 c); exact I.
  - cbn in Hwf. apply andb_true_iff in Hwf. destruct Hwf as [_ Hwf]. rewrite forallb_forall in Hwf. rewrite Forall_forall in IH.
    apply not_fuel_bind; [apply validate_tag_nf|]. intros a Ea. vtag Ea. apply bytes_ok_cons in Hl. destruct Hl as [_ Hl].
    apply not_fuel_bind; [apply parse_vlq_nf|]. intros [b c] Eb.
    apply parse_vlq_int_psuffix in Eb; [|assumption].
    rewrite find_variant_map. destruct (find_variant l0 c) as [[n t]|] eqn:Ef; [|exact I].
    apply find_variant_in in Ef. apply not_fuel_bind; [|intros [d e] _; exact I].
    apply (IH _ Ef (Hwf _ Ef)). apply (suffix_ok _ _ Eb Hl).
  - cbn in Hwf. apply andb_true_iff in Hwf. destruct Hwf as [Hnd Hwf]. apply nodupb_NoDup in Hnd.
    rewrite forallb_forall in Hwf. rewrite Forall_forall in IH.
    unfold parse_struct. apply not_fuel_bind; [apply validate_tag_nf|]. intros a Ea. vtag Ea. apply bytes_ok_cons in Hl. destruct Hl as [_ Hl].
    apply not_fuel_bind; [apply parse_vlq_nf|]. intros [b c] Eb.
    apply parse_vlq_int_psuffix in Eb; [|assumption].
    rewrite slots_of_cur0. apply not_fuel_bind.
    + apply struct_loop_nf; [assumption| |apply (suffix_ok _ _ Eb Hl)|lia].
      intros f Hf. apply IH; auto.
    + intros [d e] _. apply not_fuel_bind; [apply struct_finish_nf|]. intros; exact I.
Qed.

(** ** Malformed structures *)

(** A struct whose announced fields start with the well-formed [ws]. *)
Definition written_ok (s : bool) (fs : list (fld vty)) (ws : list written) : Prop :=
  Forall (fun w => In (w_fld w) fs /\ vlq_rep s (f_tag (w_fld w)) (w_tag w) /\
                   venc s (f_ty (w_fld w)) (w_val w) (w_bytes w)) ws /\ occurrences_ok s ws.

Lemma struct_prefix : forall s m fs ws g count tail, wf_vty (TStruct fs) = true ->
  vlq_rep s count g -> Z.of_nat (length ws) <= count -> written_ok s fs ws ->
  exists f', (length tail < f')%nat /\
  vparse m (TStruct fs) (STRUCT_TAG :: g ++ wbytes ws ++ tail) =
  (do (tail, slots') <- struct_loop f' m (count - Z.of_nat (length ws)) (slots_of m fs (run cur0 ws)) tail;
   do fs <- struct_finish slots'; Ok (tail, VStruct fs)).
Proof.
  intros s m fs ws g count tail Hwf Hg Hc [Hws Hocc].
  cbn in Hwf. apply andb_true_iff in Hwf. destruct Hwf as [Hnd Hwf]. apply nodupb_NoDup in Hnd. rewrite forallb_forall in Hwf.
  assert (Hin : Forall (fun w => In (w_fld w) fs) ws) by (eapply Forall_impl; [|exact Hws]; cbn; tauto).
  destruct (struct_loop_run s m fs ws cur0 count tail (S (length (wbytes ws ++ tail)))) as (f' & Hf' & E);
    try assumption; try lia.
  - eapply Forall_impl; [|exact Hws]. cbn. intros w (H1 & H2 & H3). repeat split; try assumption; try apply H2.
    intros r. eapply vparse_complete; [apply Hwf; assumption|eassumption].
  - apply (ok_from_cur0 fs); try assumption. apply (occ_lax s); assumption.
  - exists f'. split; [assumption|]. cbn [vparse]. unfold parse_struct. cbn [validate_tag]. rewrite Z.eqb_refl. cbn [obind].
    rewrite (parse_vlq_int_lax _ _ _ _ (vlq_rep_lax _ _ _ Hg)). cbn [obind].
    pose proof (vlq_rep_range _ _ _ Hg) as Hr. rewrite as_u64_id by (unfold two63, two64 in *; lia).
    rewrite slots_of_cur0, E. reflexivity.
Qed.

Lemma struct_unknown_tag : forall s m fs ws g count z gz rest, wf_vty (TStruct fs) = true ->
  vlq_rep s count g -> Z.of_nat (length ws) < count -> written_ok s fs ws ->
  vlq_rep s z gz -> ~ In z (map f_tag fs) ->
  vparse m (TStruct fs) (STRUCT_TAG :: g ++ wbytes ws ++ gz ++ rest) = Err (EUnknownTag z).
Proof.
  intros s m fs ws g count z gz rest Hwf Hg Hc Hws Hz Hnin.
  destruct (struct_prefix s m fs ws g count (gz ++ rest) Hwf Hg ltac:(lia) Hws) as (f' & Hf' & ->).
  destruct f' as [|f']; [lia|]. cbn [struct_loop].
  destruct (Z.eqb_spec (count - Z.of_nat (length ws)) 0); [lia|].
  rewrite (parse_vlq_int_lax _ _ _ _ (vlq_rep_lax _ _ _ Hz)). cbn [obind].
  rewrite struct_step_unknown by assumption. reflexivity.
Qed.

Lemma struct_duplicate : forall s m fs ws w g count gz rest, wf_vty (TStruct fs) = true ->
  vlq_rep s count g -> Z.of_nat (length ws) < count -> written_ok s fs ws ->
  In w ws -> (f_init (w_fld w) = InitNone \/ w_val w <> VOpt None) ->
  vlq_rep s (f_tag (w_fld w)) gz ->
  vparse m (TStruct fs) (STRUCT_TAG :: g ++ wbytes ws ++ gz ++ rest)
  = Err (EDuplicateTag (f_name (w_fld w)) (f_dup (w_fld w))).
Proof.
  intros s m fs ws w g count gz rest Hwf Hg Hc Hws Hin Hdup Hz.
  destruct (struct_prefix s m fs ws g count (gz ++ rest) Hwf Hg ltac:(lia) Hws) as (f' & Hf' & ->).
  cbn in Hwf. apply andb_true_iff in Hwf. destruct Hwf as [Hnd _]. apply nodupb_NoDup in Hnd.
  destruct Hws as [Hws Hocc]. rewrite Forall_forall in Hws.
  assert (Hfd : In (w_fld w) fs) by (apply Hws; assumption).
  destruct f' as [|f']; [lia|]. cbn [struct_loop].
  destruct (Z.eqb_spec (count - Z.of_nat (length ws)) 0); [lia|].
  rewrite (parse_vlq_int_lax _ _ _ _ (vlq_rep_lax _ _ _ Hz)). cbn [obind].
  rewrite struct_step_found by assumption.
  replace (free (run cur0 ws) (w_fld w)) with false; [reflexivity|]. symmetry.
  destruct (run_last ws cur0 (w_fld w)) as [(p & w0 & q & E & Ht & Hr & Hq)|[Hn _]].
  2:{ exfalso. apply (Hn w Hin). reflexivity. }
  unfold free. rewrite Hr. destruct (f_init (w_fld w)) eqn:Ei; [reflexivity|].
  assert (Hv : w_val w <> VOpt None) by (destruct Hdup; [discriminate|assumption]).
  assert (w0 = w).
  { rewrite E in Hin. apply in_app_or in Hin. destruct Hin as [Hin|[->|Hin]].
    - exfalso. apply Hv. apply occ_lax in Hocc.
      destruct (Hocc _ _ _ w E Hin Ht) as [_ H]. exact H.
    - reflexivity.
    - exfalso. apply (Hq _ Hin). reflexivity. }
  subst w0. destruct (w_val w) as [| | | |[|]| | | |]; try reflexivity. congruence.
Qed.

Lemma struct_missing : forall s m fs ws g f rest, wf_vty (TStruct fs) = true ->
  vlq_rep s (Z.of_nat (length ws)) g -> written_ok s fs ws ->
  In f fs -> absent_value f = None -> (forall w, In w ws -> f_tag (w_fld w) <> f_tag f) ->
  exists f', In f' fs /\ absent_value f' = None /\ (forall w, In w ws -> f_tag (w_fld w) <> f_tag f') /\
  vparse m (TStruct fs) (STRUCT_TAG :: g ++ wbytes ws ++ rest) = Err (EMissingField (f_name f')).
Proof.
  intros s m fs ws g f rest Hwf Hg Hws Hin Ha Hn.
  destruct (struct_prefix s m fs ws g _ rest Hwf Hg ltac:(lia) Hws) as (f0 & Hf0 & ->).
  rewrite Z.sub_diag. replace (struct_loop f0 m 0 _ rest) with (Ok (rest, slots_of m fs (run cur0 ws)))
    by (destruct f0; reflexivity).
  cbn [obind].
  assert (G : forall gs, incl gs fs -> In f gs -> exists f', In f' gs /\ absent_value f' = None /\
     (forall w, In w ws -> f_tag (w_fld w) <> f_tag f') /\
     struct_finish (slots_of m gs (run cur0 ws)) = Err (EMissingField (f_name f'))).
  { induction gs as [|g0 gs IH]; intros Hi Hf; [contradiction|].
    cbn [slots_of map struct_finish unfld f_fin f_name].
    change (map (fun f1 => (unfld f1, vparse m (f_ty f1), run cur0 ws f1)) gs) with (slots_of m gs (run cur0 ws)).
    destruct (run_last ws cur0 g0) as [(p & w0 & q & E & Ht & Hr & Hq)|[Hn0 Hr]].
    - rewrite Hr. cbn [obind]. destruct Hf as [<-|Hf].
      { exfalso. apply (Hn w0); [rewrite E; apply in_or_app; right; left; reflexivity|congruence]. }
      destruct (IH ltac:(intros x Hx; apply Hi; right; assumption) Hf) as (f' & H1 & H2 & H3 & ->).
      exists f'. repeat split; auto. right; assumption.
    - destruct (absent_value g0) as [v|] eqn:Eg.
      + destruct Hf as [<-|Hf]; [congruence|].
        destruct (IH ltac:(intros x Hx; apply Hi; right; assumption) Hf) as (f' & H1 & H2 & H3 & ->).
        exists f'. repeat split; auto; [right; assumption|]. rewrite Hr. unfold cur0. unfold absent_value in Eg.
        destruct (f_init g0); [destruct (f_fin g0); [discriminate|]|]; reflexivity.
      + exists g0. repeat split; auto; [left; reflexivity|]. rewrite Hr. unfold cur0. unfold absent_value in Eg.
        destruct (f_init g0); [|discriminate]. destruct (f_fin g0); [reflexivity|discriminate]. }
  destruct (G fs (incl_refl _) Hin) as (f' & H1 & H2 & H3 & ->).
  exists f'. repeat split; auto.
Qed.
