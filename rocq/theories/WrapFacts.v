(** * Both decoders against the format, for any reading of integers *)
From Verif Require Import Base Vlq VlqSpec VlqProofs BitProofs VlqExact Types Versioned VersionedSpec VersionedProofs VersionedExact ByteTypes ByteFacts ExtendFacts WrapSpec.

Section By.
Variable m : build.
Variable rep : Z -> list Z -> Prop.
Hypothesis rep_read : forall g rest z, rep z g -> parse_vlq_int m (g ++ rest) = Ok (rest, z).
Hypothesis rep_sound : forall l r z, bytes_ok l -> parse_vlq_int m l = Ok (r, z) -> exists g, l = g ++ r /\ rep z g /\ bytes_ok r.
Hypothesis rep_ne : forall z g, rep z g -> g <> [].
Hypothesis rep_range : forall z g, rep z g -> - two63 <= z < two63.

Lemma rep_len : forall n g, rep (Z.of_nat n) g -> as_u64 (Z.of_nat n) = Z.of_nat n.
Proof. intros n g H. apply rep_range in H. apply as_u64_id. unfold two63, two64 in *. lia. Qed.

Lemma rep_nonneg : forall (n : nat) z g, rep z g -> as_u64 z = Z.of_nat n -> Z.of_nat n < two63 -> z = Z.of_nat n.
Proof.
  intros n z g Hg E Hn. apply rep_range in Hg. destruct (Z.ltb_spec z 0).
  - pose proof (as_u64_neg z ltac:(unfold two63 in *; lia)). lia.
  - rewrite as_u64_id in E by (unfold two63, two64 in *; lia). assumption.
Qed.

Lemma venc_by_ne : forall t v bs, venc_by rep t v bs -> bs <> [].
Proof. intros t v bs H; destruct H; discriminate. Qed.

Lemma parse_n_ok_by : forall t (p : parser val) vs bss,
  (forall v bs rest, venc_by rep t v bs -> p (bs ++ rest) = Ok (rest, v)) ->
  Forall2 (venc_by rep t) vs bss ->
  forall f rest, (length (concat bss ++ rest) < f)%nat ->
  parse_n f p (Z.of_nat (length vs)) (concat bss ++ rest) = Ok (rest, vs).
Proof.
  intros t p vs bss Hp H; induction H as [|v bs vs bss Hv Hvs IH]; intros f rest Hf.
  - destruct f; reflexivity.
  - destruct f as [|f]; [lia|]. cbn [parse_n length concat].
    destruct (Z.eqb_spec (Z.of_nat (S (length vs))) 0); [lia|].
    rewrite <- app_assoc, (Hp _ _ _ Hv). cbn [obind].
    replace (Z.of_nat (S (length vs)) - 1) with (Z.of_nat (length vs)) by lia.
    rewrite IH; [reflexivity|]. pose proof (venc_by_ne _ _ _ Hv) as Hne.
    cbn [concat] in Hf. rewrite <- app_assoc, app_length in Hf. destruct bs; [congruence|]. cbn in Hf. lia.
Qed.

Lemma struct_loop_run_by : forall fs ws cur count rest f,
  NoDup (map f_tag fs) ->
  Forall (fun w => In (w_fld w) fs /\ rep (f_tag (w_fld w)) (w_tag w) /\
     (forall rest, vparse m (f_ty (w_fld w)) (w_bytes w ++ rest) = Ok (rest, w_val w))) ws ->
  ok_from cur ws ->
  Z.of_nat (length ws) <= count -> (length (wbytes ws ++ rest) < f)%nat ->
  exists f', (length rest < f')%nat /\
  struct_loop f m count (slots_of m fs cur) (wbytes ws ++ rest) =
  struct_loop f' m (count - Z.of_nat (length ws)) (slots_of m fs (run cur ws)) rest.
Proof.
  intros fs ws; induction ws as [|w ws IH]; intros cur count rest f Hnd Hws Hok Hc Hf.
  - exists f. split; [exact Hf|]. cbn [wbytes map concat app length run fold_left]. f_equal. cbn. lia.
  - inversion Hws as [|x y (Hin & Htag & Hp) Hws']; subst. destruct Hok as [Hfree Hok].
    destruct f as [|f]; [lia|]. cbn [length] in Hc.
    cbn [struct_loop]. destruct (Z.eqb_spec count 0); [lia|].
    unfold wbytes in *. cbn [map concat] in Hf |- *. rewrite <- !app_assoc in *.
    rewrite (rep_read _ _ _ Htag). cbn [obind].
    rewrite struct_step_found by assumption. rewrite Hfree, Hp. cbn [obind].
    destruct (IH (upd cur (w_fld w) (w_val w)) (count - 1) rest f) as (f' & Hf' & E); try assumption.
    + lia.
    + pose proof (rep_ne _ _ Htag). rewrite !app_length in *. destruct (w_tag w); [congruence|]. cbn in Hf. lia.
    + exists f'. split; [assumption|]. rewrite E. cbn [length run fold_left]. f_equal. lia.
Qed.

Lemma vparse_complete_by : forall t v bs rest, wf_vty t = true -> venc_by rep t v bs ->
  vparse m t (bs ++ rest) = Ok (rest, v).
Proof.
  intros t; induction t as [it| | | |t IH|t IH|l0|tag l0 IH|fs IH] using vty_ind'; intros v bs rest Hwf H;
    cbn [vparse].
  - inversion H; subst. unfold tagged_vlq_int. cbn [app validate_tag]. rewrite Z.eqb_refl. cbn [obind].
    match goal with Hx : rep _ _ |- _ => rewrite (rep_read _ _ _ Hx) end. cbn [obind].
    match goal with Hx : in_ity _ _ = true |- _ => rewrite Hx end. reflexivity.
  - inversion H as [|l g Hl Hg| | | | | | | |]; subst. unfold tagged_blob. cbn [app validate_tag]. rewrite Z.eqb_refl. cbn [obind].
    rewrite <- app_assoc, (rep_read _ _ _ Hg). cbn [obind].
    rewrite (rep_len _ _ Hg).
    rewrite (proj2 (take_bytes_ok (Z.of_nat (length l)) (l ++ rest) rest l ltac:(lia))) by auto. reflexivity.
  - inversion H as [| |b x Hx Hb| | | | | | |]; subst. unfold tagged_bool. cbn [app validate_tag]. rewrite Z.eqb_refl. cbn [obind take_u8].
    do 3 f_equal. destruct (Z.eqb_spec x 0) as [->|E], b; cbn; try reflexivity.
    + destruct Hb as [Hb _]. exfalso. apply Hb; reflexivity.
    + destruct Hb as [_ Hb]. specialize (Hb E). discriminate.
  - inversion H as [| | |a b c d Hx| | | | | |]; subst. unfold tagged_fourcc. cbn [app validate_tag]. rewrite Z.eqb_refl. cbn [obind take_u32_be].
    do 3 f_equal. change (2 ^ 24) with 16777216. change (2 ^ 16) with 65536. change (2 ^ 8) with 256. lia.
  - cbn in Hwf. inversion H as [| | | |t0|t0 x v0 bs0 Hx Hx0 Hv| | | |]; subst; cbn [app validate_tag]; rewrite Z.eqb_refl; cbn [obind take_u8].
    + reflexivity.
    + rewrite (proj2 (Z.eqb_neq _ _) Hx0). cbn [negb]. rewrite (IH _ _ _ Hwf Hv). reflexivity.
  - cbn in Hwf. inversion H as [| | | | | |t0 g vs bss Hg Hvs| | |]; subst. cbn [app validate_tag]; rewrite Z.eqb_refl; cbn [obind].
    rewrite <- app_assoc, (rep_read _ _ _ Hg). cbn [obind].
    rewrite (rep_len _ _ Hg).
    rewrite (parse_n_ok_by t _ vs bss); [reflexivity| |assumption|lia].
    intros v bs rest' Hv. apply IH; assumption.
  - cbn in Hwf. apply nodupb_NoDup in Hwf. inversion H as [| | | | | | |l z n g Hin Hg| |]; subst.
    cbn [app validate_tag]; rewrite Z.eqb_refl; cbn [obind].
    rewrite (rep_read _ _ _ Hg). cbn [obind].
    rewrite (find_enum_nodup _ _ _ Hwf Hin). reflexivity.
  - cbn in Hwf. apply andb_true_iff in Hwf. destruct Hwf as [Hnd Hwf]. apply nodupb_NoDup in Hnd.
    rewrite forallb_forall in Hwf.
    inversion H as [| | | | | | | |tag' l z n t v0 g bs0 Hin Hg Hv|]; subst.
    cbn [app validate_tag]; rewrite Z.eqb_refl; cbn [obind].
    rewrite <- app_assoc, (rep_read _ _ _ Hg). cbn [obind].
    rewrite find_variant_map, (find_variant_nodup _ _ _ _ _ Hnd Hin).
    rewrite Forall_forall in IH. pose proof (IH _ Hin _ _ rest (Hwf _ Hin) Hv) as E. cbn [snd] in E. rewrite E. reflexivity.
  - cbn in Hwf. apply andb_true_iff in Hwf. destruct Hwf as [Hnd Hwf]. apply nodupb_NoDup in Hnd.
    rewrite forallb_forall in Hwf. rewrite Forall_forall in IH.
    inversion H as [| | | | | | | | |fs0 ws g vals Hg Hws Hocc Hvals]; subst.
    unfold parse_struct. cbn [app validate_tag]; rewrite Z.eqb_refl; cbn [obind].
    rewrite <- app_assoc, (rep_read _ _ _ Hg). cbn [obind].
    rewrite (rep_len _ _ Hg). rewrite slots_of_cur0.
    assert (Hin : Forall (fun w => In (w_fld w) fs) ws) by (eapply Forall_impl; [|exact Hws]; cbn; tauto).
    fold (wbytes ws).
    destruct (struct_loop_run_by fs ws cur0 (Z.of_nat (length ws)) rest (S (length (wbytes ws ++ rest))))
      as (f' & Hf' & E); try assumption; try lia.
    + eapply Forall_impl; [|exact Hws]. cbn. intros w (H1 & H2 & H3). repeat split; try assumption; try apply H2.
      intros r. apply IH; auto.
    + apply (ok_from_cur0 fs); assumption.
    + rewrite E, Z.sub_diag. assert (E0 : forall sl, struct_loop f' m 0 sl rest = Ok (rest, sl)) by (intros; destruct f'; reflexivity).
      rewrite E0. cbn [obind]. apply (struct_fields_finish m) in Hvals; [|assumption|assumption].
      rewrite Hvals. reflexivity.
Qed.

Lemma parse_n_sound_by : forall t (p : parser val),
  (forall l r v, input_ok l -> p l = Ok (r, v) -> exists bs, l = bs ++ r /\ venc_by rep t v bs) ->
  forall f n l r vs, 0 <= n -> input_ok l -> parse_n f p n l = Ok (r, vs) ->
  exists bss, l = concat bss ++ r /\ Forall2 (venc_by rep t) vs bss /\ Z.of_nat (length vs) = n.
Proof.
  intros t p Hp; induction f as [|f IH]; intros n l r vs Hn Hok H; cbn in H;
    destruct (Z.eqb_spec n 0) as [->|E].
  1,3: injection H as <- <-; exists []; repeat split; constructor.
  - discriminate.
  - inv_do H. injection H as <- <-. destruct (Hp _ _ _ Hok E0) as (bs & -> & Hv).
    apply input_ok_app in Hok. destruct Hok as [_ Hok].
    destruct (IH (n - 1) _ _ _ ltac:(lia) Hok E1) as (bss & -> & Hvs & Hl).
    exists (bs :: bss). cbn [concat length]. rewrite <- app_assoc. repeat split; [constructor; assumption|lia].
Qed.

Lemma struct_loop_sound_by : forall fs f count cur l r slots',
  NoDup (map f_tag fs) ->
  (forall f, In f fs -> forall l r v, input_ok l -> vparse m (f_ty f) l = Ok (r, v) ->
      exists bs, l = bs ++ r /\ venc_by rep (f_ty f) v bs) ->
  0 <= count -> input_ok l ->
  struct_loop f m count (slots_of m fs cur) l = Ok (r, slots') ->
  exists ws, l = wbytes ws ++ r /\ Z.of_nat (length ws) = count /\ slots' = slots_of m fs (run cur ws) /\ ok_from cur ws /\
   Forall (fun w => In (w_fld w) fs /\ rep (f_tag (w_fld w)) (w_tag w) /\
                    venc_by rep (f_ty (w_fld w)) (w_val w) (w_bytes w)) ws.
Proof.
  intros fs f; induction f as [|f IH]; intros count cur l r slots' Hnd Hp Hc Hok H; cbn [struct_loop] in H;
    destruct (Z.eqb_spec count 0) as [->|E].
  1,3: injection H as <- <-; exists []; repeat split; constructor.
  - discriminate.
  - apply obind_ok in H. destruct H as ([l0 z] & E0 & H). cbn beta iota in H.
    apply rep_sound in E0; [|apply Hok]. destruct E0 as (g & -> & Hg & _). apply input_ok_app in Hok. destruct Hok as [_ Hok1].
    pose proof (struct_step_inv m fs cur z l0) as Hinv.
    destruct (struct_step (slots_of m fs cur) z l0) as [| |o] eqn:Es; try discriminate.
    destruct Hinv as (fd & Hin & <-). rewrite struct_step_found in Es by assumption.
    destruct (free cur fd) eqn:Hfree; [|discriminate]. injection Es as <-.
    apply obind_ok in H. destruct H as ([l1 sl] & E1 & H). cbn beta iota in H.
    apply obind_ok in E1. destruct E1 as ([l2 v] & E1 & E2). injection E2 as <- <-.
    destruct (Hp _ Hin _ _ _ Hok1 E1) as (bs & -> & Hv). apply input_ok_app in Hok1. destruct Hok1 as [_ Hok2].
    apply IH in H; try assumption; try reflexivity; try lia.
    destruct H as (ws & -> & Hl & -> & Hokf & Hws).
    exists (mkw fd g v bs :: ws). unfold wbytes. cbn [map concat w_tag w_bytes length run fold_left w_fld w_val ok_from].
    rewrite <- !app_assoc. repeat split; try assumption; try lia.
    constructor; [cbn; auto|assumption].
Qed.

Lemma vparse_sound_by : forall t, wf_vty t = true -> forall l r v, input_ok l ->
  vparse m t l = Ok (r, v) -> exists bs, l = bs ++ r /\ venc_by rep t v bs.
Proof.
  intros t; induction t as [it| | | |t IH|t IH|l0|tag l0 IH|fs IH] using vty_ind';
    intros Hwf l r v Hok H; cbn [vparse] in H.
  - unfold tagged_vlq_int in H. inv_do H. vtag E0. apply input_ok_cons in Hok. destruct Hok as [_ Hok].
    apply rep_sound in E; [|apply Hok]. destruct E as (g & -> & Hg & _).
    destruct (in_ity it z) eqn:Ei; [|discriminate]. injection H as <- <-.
    exists (INT_TAG :: g). split; [reflexivity|constructor; assumption].
  - unfold tagged_blob in H. inv_do H. vtag E0. apply input_ok_cons in Hok. destruct Hok as [_ Hok].
    apply rep_sound in E1; [|apply Hok]. destruct E1 as (g & -> & Hg & _).
    apply input_ok_app in Hok. destruct Hok as [_ Hok].
    apply take_bytes_ok in E; [|apply as_u64_nonneg]. destruct E as [-> E]. injection H as <- <-.
    exists (BLOB_TAG :: g ++ l1). cbn [app]. rewrite <- app_assoc. split; [reflexivity|].
    apply input_ok_app in Hok. destruct Hok as [[Hok Hlen] _].
    constructor; [assumption|]. rewrite <- (rep_nonneg (length l1) z g Hg) by (try (symmetry; assumption); lia). assumption.
  - unfold tagged_bool in H. inv_do H. vtag E0. apply take_u8_ok in E1. subst. injection E as <- <-. injection H as <- <-.
    exists [BOOL_TAG; z]. split; [reflexivity|]. apply input_ok_cons in Hok. destruct Hok as [_ Hok].
    apply input_ok_cons in Hok.
    constructor.
    + apply Hok.
    + destruct (Z.eqb_spec z 0) as [->|E]; cbn; split; intros; congruence.
  - unfold tagged_fourcc in H. inv_do H. vtag E0. unfold take_u32_be in E.
    destruct a as [|x [|y [|w [|q tl]]]]; try discriminate. injection E as <- <-. injection H as <- <-.
    exists [FOURCC_TAG; x; y; w; q]. split; [reflexivity|].
    replace (((x * 256 + y) * 256 + w) * 256 + q) with (x * 2 ^ 24 + y * 2 ^ 16 + w * 2 ^ 8 + q)
      by (change (2 ^ 24) with 16777216; change (2 ^ 16) with 65536; change (2 ^ 8) with 256; lia).
    constructor. apply input_ok_cons in Hok. destruct Hok as [_ Hok].
    change (x :: y :: w :: q :: tl) with ([x; y; w; q] ++ tl) in Hok. apply input_ok_app in Hok. apply Hok.
  - cbn in Hwf. inv_do H. vtag E. apply take_u8_ok in E0. subst. apply input_ok_cons in Hok.
    destruct Hok as [_ Hok]. apply input_ok_cons in Hok.
    destruct Hok as [Hz Hok]. destruct (Z.eqb_spec z 0) as [->|Ez]; cbn [negb] in H.
    + injection H as <- <-. exists [OPT_TAG; 0]. split; [reflexivity|constructor].
    + inv_do H. injection H as <- <-. apply IH in E; [|assumption|assumption].
      destruct E as (bs & -> & Hv). exists (OPT_TAG :: z :: bs). split; [reflexivity|constructor; assumption].
  - cbn in Hwf. inv_do H. vtag E. apply input_ok_cons in Hok. destruct Hok as [_ Hok].
    apply rep_sound in E0; [|apply Hok]. destruct E0 as (g & -> & Hg & _). injection H as <- <-.
    apply input_ok_app in Hok. destruct Hok as [_ Hok].
    apply (parse_n_sound_by t) in E1; [|exact (IH Hwf)|apply as_u64_nonneg|assumption].
    destruct E1 as (bss & -> & Hvs & Hl). exists (ARRAY_TAG :: g ++ concat bss). cbn [app]. rewrite <- app_assoc.
    split; [reflexivity|]. constructor; [|assumption].
    match type of Hvs with Forall2 _ ?vs _ => rename vs into vs0 end.
    rewrite <- (rep_nonneg (length vs0) z g Hg); [assumption|congruence|].
    assert (length vs0 <= length (concat bss))%nat.
    { clear - Hvs. induction Hvs as [|v bs vs bss Hv Hvs IH]; [cbn; lia|].
      cbn [concat length]. rewrite app_length. apply venc_by_ne in Hv. destruct bs; [congruence|]. cbn. lia. }
    apply input_ok_app in Hok. destruct Hok as [[_ Hlen] _]. lia.
  - inv_do H. vtag E. apply input_ok_cons in Hok. destruct Hok as [_ Hok].
    apply rep_sound in E0; [|apply Hok]. destruct E0 as (g & -> & Hg & _).
    destruct (find_enum l0 z) eqn:Ef; [|discriminate]. injection H as <- <-. apply find_enum_in in Ef.
    exists (INT_TAG :: g). split; [reflexivity|econstructor; eassumption].
  - cbn in Hwf. apply andb_true_iff in Hwf. destruct Hwf as [_ Hwf]. rewrite forallb_forall in Hwf. rewrite Forall_forall in IH.
    inv_do H. vtag E. apply input_ok_cons in Hok. destruct Hok as [_ Hok].
    apply rep_sound in E0; [|apply Hok]. destruct E0 as (g & -> & Hg & _). apply input_ok_app in Hok. destruct Hok as [_ Hok].
    rewrite find_variant_map in H. destruct (find_variant l0 z) as [[n t]|] eqn:Ef; [|discriminate].
    apply find_variant_in in Ef. inv_do H. injection H as <- <-.
    apply (IH _ Ef (Hwf _ Ef)) in E; [|assumption]. destruct E as (bs & -> & Hv). cbn [snd] in Hv.
    exists (tag :: g ++ bs). cbn [app]. rewrite <- app_assoc. split; [reflexivity|econstructor; eassumption].
  - cbn in Hwf. apply andb_true_iff in Hwf. destruct Hwf as [Hnd Hwf]. apply nodupb_NoDup in Hnd.
    rewrite forallb_forall in Hwf. rewrite Forall_forall in IH.
    unfold parse_struct in H. inv_do H. vtag E. apply input_ok_cons in Hok. destruct Hok as [_ Hok].
    apply rep_sound in E0; [|apply Hok]. destruct E0 as (g & -> & Hg & _). apply input_ok_app in Hok. destruct Hok as [_ Hok].
    injection H as <- <-. rewrite slots_of_cur0 in E1.
    apply struct_loop_sound_by in E1; try assumption; try reflexivity; try apply as_u64_nonneg.
    + destruct E1 as (ws & -> & Hl & -> & Hokf & Hws).
      assert (Hin : Forall (fun w => In (w_fld w) fs) ws) by (eapply Forall_impl; [|exact Hws]; cbn; tauto).
      exists (STRUCT_TAG :: g ++ wbytes ws). cbn [app]. rewrite <- app_assoc. split; [reflexivity|].
      constructor.
      * rewrite <- (rep_nonneg (length ws) z g Hg); [assumption|congruence|].
        assert (length ws <= length (wbytes ws))%nat.
        { clear - Hws rep_ne. induction Hws as [|w ws (_ & Ht & _) Hws IH]; [cbn; lia|].
          unfold wbytes in *. cbn [map concat length]. rewrite !app_length.
          apply rep_ne in Ht. destruct (w_tag w); [congruence|]. cbn. lia. }
        apply input_ok_app in Hok. destruct Hok as [[_ Hlen] _]. lia.
      * assumption.
      * apply (ok_from_cur0 fs); assumption.
      * apply (struct_fields_finish m); assumption.
    + intros fd Hfd. apply IH; [assumption|]. apply Hwf; assumption.
Qed.

Lemma vparse_exact_by : forall t, wf_vty t = true -> forall l r v, input_ok l ->
  (vparse m t l = Ok (r, v) <-> exists bs, l = bs ++ r /\ venc_by rep t v bs).
Proof.
  intros t Hwf l r v Hok. split.
  - apply vparse_sound_by; assumption.
  - intros (bs & -> & H). apply vparse_complete_by; assumption.
Qed.
End By.

(** ** Integers of any length *)
Lemma as_i64_neg : forall x, as_i64 (- as_i64 x) = as_i64 (- x).
Proof.
  intros x. destruct (as_i64_mod x) as [k ->]. unfold as_i64. replace (- (x + k * two64) + two63) with (- x + two63 + (- k) * two64) by lia.
  rewrite Z.mod_add by (unfold two64; lia). reflexivity.
Qed.

Lemma shl_wrapping : forall a k, 0 <= k -> shl_i64 Wrapping a k = Ok (as_i64 (a * 2 ^ (k mod 64))).
Proof.
  intros a k Hk. unfold shl_i64. pose proof (Z.mod_pos_bound k 64 ltac:(lia)). destruct (Z.ltb_spec k 64) as [H1|H1].
  - rewrite Z.mod_small by lia. rewrite Z.shiftl_mul_pow2 by lia. reflexivity.
  - rewrite Z.shiftl_mul_pow2 by lia. reflexivity.
Qed.

Lemma vlq_loop_wrapping : forall g rest r bits, bytes_ok g -> vlq_terminated g -> 0 <= bits ->
  vlq_loop Wrapping (g ++ rest) (as_i64 r) bits = Ok (rest, as_i64 (Z.lor r (overlaid bits g))).
Proof.
  induction g as [|b g IH]; intros rest r bits Hok Ht Hb; [contradiction|].
  apply bytes_ok_cons in Hok; destruct Hok as [Hbok Hgok]. cbn [app vlq_loop overlaid].
  rewrite shl_wrapping by assumption. rewrite land_127. cbn [obind]. rewrite as_i64_lor, land_128 by assumption.
  apply vlq_terminated_inv in Ht. destruct Ht as [[-> Hlt] | (Hne & Hge & Ht)].
  - rewrite (proj2 (Z.ltb_lt b 128) Hlt). cbn [overlaid app]. rewrite Z.lor_0_r. reflexivity.
  - rewrite (proj2 (Z.ltb_ge b 128) Hge). rewrite IH by (assumption || lia). rewrite Z.lor_assoc. reflexivity.
Qed.

Lemma wrapped_read : forall g rest z, wrapped_rep z g -> parse_vlq_int Wrapping (g ++ rest) = Ok (rest, z).
Proof.
  intros [|b g] rest z (Hok & Ht & ->); [contradiction|]. apply bytes_ok_cons in Hok; destruct Hok as [Hbok Hgok].
  unfold parse_vlq_int. cbn [app hd wrapped_magnitude]. rewrite land_128, odd_land, shiftr_1, land_63 by assumption.
  assert (E : (b / 2) mod 64 = as_i64 ((b / 2) mod 64)) by (rewrite as_i64_id; [reflexivity|]; pose proof (Z.mod_pos_bound (b / 2) 64 ltac:(lia)); unfold two63; lia).
  assert (Hr : (if b <? 128 then Ok (g ++ rest, (b / 2) mod 64) else vlq_loop Wrapping (g ++ rest) ((b / 2) mod 64) 6)
               = Ok (rest, as_i64 (Z.lor ((b / 2) mod 64) (overlaid 6 g)))).
  { apply vlq_terminated_inv in Ht. destruct Ht as [[-> Hlt] | (Hne & Hge & Ht)].
    - rewrite (proj2 (Z.ltb_lt b 128) Hlt). cbn [overlaid app]. rewrite Z.lor_0_r, <- E. reflexivity.
    - rewrite (proj2 (Z.ltb_ge b 128) Hge). rewrite E. rewrite vlq_loop_wrapping by (assumption || lia). rewrite <- E. reflexivity. }
  rewrite Hr. cbn [obind fst snd]. destruct (Z.odd b); [|reflexivity]. unfold neg_i64, ovf_i64.
  destruct (in_i64 _) eqn:Ei; cbn [obind].
  - rewrite <- as_i64_neg. rewrite (as_i64_id (- _)); [reflexivity|]. apply in_i64_true. exact Ei.
  - rewrite as_i64_neg. reflexivity.
Qed.

Lemma wrapped_sound : forall l r z, bytes_ok l -> parse_vlq_int Wrapping l = Ok (r, z) -> exists g, l = g ++ r /\ wrapped_rep z g /\ bytes_ok r.
Proof.
  intros l r z Hok H. destruct (vlq_run_split l) as [(g & r0 & -> & Ht)|Hall].
  - apply bytes_ok_app in Hok. destruct Hok as [Hg Hr].
    assert (W : wrapped_rep (as_i64 (if Z.odd (hd 0 g) then - wrapped_magnitude g else wrapped_magnitude g)) g) by (split; [exact Hg|split; [exact Ht|reflexivity]]).
    rewrite (wrapped_read g r0 _ W) in H. injection H as <- <-. exists g. split; [reflexivity|]. split; assumption.
  - rewrite parse_vlq_int_truncated in H; [discriminate|assumption|assumption|left; reflexivity].
Qed.

Lemma wrapped_exact : forall l r z, bytes_ok l ->
  (parse_vlq_int Wrapping l = Ok (r, z) <-> exists g, l = g ++ r /\ wrapped_rep z g).
Proof.
  intros l r z Hok. split.
  - intros H. destruct (wrapped_sound l r z Hok H) as (g & E & W & _). exists g. split; assumption.
  - intros (g & -> & W). apply wrapped_read. exact W.
Qed.

Lemma vparse_wrapping : forall t, wf_vty t = true -> forall l r v, input_ok l ->
  (vparse Wrapping t l = Ok (r, v) <-> exists bs, l = bs ++ r /\ venc_by wrapped_rep t v bs).
Proof.
  apply vparse_exact_by.
  - apply wrapped_read.
  - apply wrapped_sound.
  - intros z g (_ & Ht & _). apply vlq_terminated_ne; assumption.
  - intros z g (_ & _ & ->). apply as_i64_range.
Qed.

(** ** Up to ten bytes the groups do not meet *)
Lemma wrapped_ten : forall g, bytes_ok g -> vlq_terminated g -> (length g <= 10)%nat -> as_i64 (wrapped_magnitude g) = as_i64 (vlq_magnitude g).
Proof.
  intros [|b g] Hok Ht Hl; [reflexivity|]. apply bytes_ok_cons in Hok; destruct Hok as [Hbok Hgok]. cbn [wrapped_magnitude vlq_magnitude].
  pose proof (Z.mod_pos_bound (b / 2) 64 ltac:(lia)) as Hb.
  apply vlq_terminated_inv in Ht. destruct Ht as [[-> Hlt] | (Hne & Hge & Ht)].
  - cbn [overlaid vlq_groups]. rewrite Z.lor_0_r. f_equal. lia.
  - pose proof (vlq_loop_wrapping g [] ((b / 2) mod 64) 6 Hgok Ht ltac:(lia)) as E1.
    rewrite vlq_loop_mod in E1; [|assumption|assumption|lia|change (2 ^ 6) with 64; lia|cbn [length] in Hl; lia].
    assert (I : forall a c : Z, Ok (@nil Z, a) = Ok ([], c) -> a = c) by (intros a c X; congruence).
    exact (eq_sym (I _ _ E1)).
Qed.

(** ** Truncated input, in both builds *)
Lemma byte_truncated_any : forall m name t v bs l more, In (name, t) ba_all ->
  venc false t v bs -> bs = l ++ more -> more <> [] -> forall r, vparse m t l <> Ok r.
Proof.
  intros m name t v bs l more Hin B E Hm [r v'] H. apply ba_wf in Hin.
  pose proof (vparse_complete false m t v bs [] Hin B) as C1.
  pose proof (vparse_local m t l more) as L. rewrite H in L. cbn [ext] in L.
  rewrite app_nil_r, E, L in C1. injection C1 as C1 _.
  apply app_eq_nil in C1 as [_ C1]. contradiction.
Qed.
Lemma byte_truncated_wrapping : forall name t v bs l more, In (name, t) ba_all ->
  venc_by wrapped_rep t v bs -> bs = l ++ more -> more <> [] -> forall r, vparse Wrapping t l <> Ok r.
Proof.
  intros name t v bs l more Hin B E Hm [r v'] H. apply ba_wf in Hin.
  assert (C1 : vparse Wrapping t (bs ++ []) = Ok ([], v)).
  { apply (vparse_complete_by Wrapping wrapped_rep); try assumption.
    - apply wrapped_read.
    - apply wrapped_sound.
    - intros z g (_ & Ht & _). apply vlq_terminated_ne; assumption.
    - intros z g (_ & _ & ->). apply as_i64_range. }
  pose proof (vparse_local Wrapping t l more) as L. rewrite H in L. cbn [ext] in L.
  rewrite app_nil_r, E, L in C1. injection C1 as C1 _.
  apply app_eq_nil in C1 as [_ C1]. contradiction.
Qed.
Lemma byte_exact_any : forall m name t l r v, In (name, t) ba_all -> input_ok l -> no_run 9 l ->
  (vparse m t l = Ok (r, v) <-> exists bs, l = bs ++ r /\ venc false t v bs).
Proof.
  intros m name t l r v Hin Hl Hn. apply ba_wf in Hin. rewrite <- (vparse_exact t Hin l r v Hl).
  destruct m; [reflexivity|]. rewrite (vparse_agree t Hin l); [reflexivity|].
  apply vparse_no_run_np; [exact Hin|apply Hl|exact Hn].
Qed.
