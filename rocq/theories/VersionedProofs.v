(** * Proofs about the versioned decoder *)
From Verif Require Import Base VlqSpec Vlq VlqProofs Types Versioned VersionedSpec VlqExact.

(** ** Primitives *)
Lemma validate_tag_ok : forall t l r, validate_tag t l = Ok r <-> l = t :: r.
Proof.
  intros t [|b l] r; cbn; [split; discriminate|].
  destruct (Z.eqb_spec b t) as [->|H]; split; intros E; try discriminate.
  - injection E as ->; reflexivity.
  - injection E as ->; reflexivity.
  - injection E as -> ->; congruence.
Qed.

Lemma validate_tag_np : forall t l, validate_tag t l <> Panic.
Proof. intros t [|b l]; cbn; [discriminate|]. destruct (b =? t); discriminate. Qed.

Lemma take_bytes_ok : forall n l r b, 0 <= n ->
  take_bytes n l = Ok (r, b) <-> l = b ++ r /\ Z.of_nat (length b) = n.
Proof.
  intros n l r b Hn. unfold take_bytes. destruct (Z.ltb_spec (Z.of_nat (length l)) n) as [H|H]; split.
  - discriminate.
  - intros [-> E]. rewrite app_length in H. lia.
  - intros E. injection E as <- <-. rewrite firstn_skipn. split; [reflexivity|].
    rewrite firstn_length. lia.
  - intros [-> E]. subst n. rewrite Nat2Z.id.
    rewrite firstn_app, skipn_app, Nat.sub_diag, firstn_all, skipn_all, firstn_O, app_nil_r. reflexivity.
Qed.

Lemma take_bytes_short : forall n l, Z.of_nat (length l) < n -> take_bytes n l = Err ENom.
Proof. intros n l H. unfold take_bytes. destruct (Z.ltb_spec (Z.of_nat (length l)) n); [reflexivity|lia]. Qed.

Lemma as_u64_nonneg : forall z, 0 <= as_u64 z.
Proof. intros z; unfold as_u64, two64. apply Z.mod_pos_bound. lia. Qed.

Lemma as_u64_neg : forall z, - two63 <= z < 0 -> two63 <= as_u64 z.
Proof.
  intros z H. unfold as_u64. replace z with (z + two64 + (-1) * two64) by lia.
  rewrite Z.mod_add by (unfold two64; lia). rewrite Z.mod_small; unfold two63, two64 in *; lia.
Qed.

Lemma take_u8_ok : forall l r b, take_u8 l = Ok (r, b) <-> l = b :: r.
Proof. intros [|x l] r b; cbn; split; intros H; try discriminate; injection H as -> ->; reflexivity. Qed.

Lemma obind_np : forall A B (x : outcome A) (f : A -> outcome B),
  x <> Panic -> (forall a, x = Ok a -> f a <> Panic) -> obind x f <> Panic.
Proof. intros A B [a| |] f H1 H2; cbn; [apply H2; reflexivity|discriminate|congruence]. Qed.

Lemma obind_np_inv : forall A B (x : outcome A) (f : A -> outcome B), obind x f <> Panic -> x <> Panic.
Proof. intros A B [a| |] f H; cbn in H; congruence. Qed.

Ltac inv_do H :=
  repeat match goal with
  | H : obind ?x _ = Ok _ |- _ =>
      let a := fresh "a" in let E := fresh "E" in
      apply obind_ok in H; destruct H as (a & E & H);
      try (destruct a as [? ?]); cbn beta iota in H
  end.

(** ** Every successful parse consumes something *)
Lemma parse_n_suffix : forall (p : parser val),
  (forall l r v, bytes_ok l -> p l = Ok (r, v) -> proper_suffix_of r l) ->
  forall f n l r vs, bytes_ok l -> parse_n f p n l = Ok (r, vs) -> suffix_of r l.
Proof.
  intros p Hp; induction f as [|f IH]; intros n l r vs Hok H; cbn in H.
  - destruct (n =? 0); [injection H as <- <-; apply suffix_refl|discriminate].
  - destruct (n =? 0); [injection H as <- <-; apply suffix_refl|].
    inv_do H. injection H as <- <-.
    pose proof (Hp _ _ _ Hok E) as Hs. apply psuffix_suffix in Hs.
    apply IH in E0; [|eapply suffix_bytes_ok; eassumption]. eapply suffix_trans; eassumption.
Qed.

Definition slot_p (s : slot) : parser val := snd (fst s).

Lemma struct_step_suffix : forall slots tag l r slots',
  Forall (fun s => forall l r v, bytes_ok l -> slot_p s l = Ok (r, v) -> proper_suffix_of r l) slots ->
  bytes_ok l -> struct_step slots tag l = SStored (Ok (r, slots')) ->
  suffix_of r l /\ Forall (fun s => forall l r v, bytes_ok l -> slot_p s l = Ok (r, v) -> proper_suffix_of r l) slots'.
Proof.
  induction slots as [|[[fd p] cur] slots IH]; intros tag l r slots' Hs Hok H; [discriminate|].
  inversion Hs as [|x y Hx Hy]; subst. cbn [struct_step] in H.
  destruct (f_tag fd =? tag).
  - destruct (slot_free (fd, p, cur)); [|discriminate]. injection H as H.
    inv_do H. injection H as <- <-. split.
    + apply psuffix_suffix. eapply (Hx l); eassumption.
    + constructor; assumption.
  - destruct (struct_step slots tag l) as [| |o] eqn:E; try discriminate. injection H as H.
    inv_do H. injection H as <- <-. subst o. destruct (IH _ _ _ _ Hy Hok E) as [H1 H2].
    split; [assumption|]. constructor; assumption.
Qed.

Lemma struct_loop_suffix : forall f m n slots l r slots',
  Forall (fun s => forall l r v, bytes_ok l -> slot_p s l = Ok (r, v) -> proper_suffix_of r l) slots ->
  bytes_ok l -> struct_loop f m n slots l = Ok (r, slots') -> suffix_of r l.
Proof.
  induction f as [|f IH]; intros m n slots l r slots' Hs Hok H; cbn [struct_loop] in H.
  - destruct (n =? 0); [injection H as <- <-; apply suffix_refl|discriminate].
  - destruct (n =? 0); [injection H as <- <-; apply suffix_refl|].
    inv_do H. apply parse_vlq_int_psuffix in E; [|assumption]. apply psuffix_suffix in E.
    pose proof (suffix_bytes_ok _ _ E Hok) as Hok1.
    destruct (struct_step slots z l0) as [| |o] eqn:E2; try discriminate.
    inv_do H. subst o. destruct (struct_step_suffix _ _ _ _ _ Hs Hok1 E2) as [H1 H2].
    pose proof (suffix_bytes_ok _ _ H1 Hok1) as Hok2.
    apply IH in H; [|assumption|assumption].
    eapply suffix_trans; [eassumption|]. eapply suffix_trans; eassumption.
Qed.

Lemma find_variant_map : forall A B (f : A -> B) (l : list (Z * string * A)) z,
  find_variant (map (fun x => (fst x, f (snd x))) l) z =
  match find_variant l z with Some (n, a) => Some (n, f a) | None => None end.
Proof.
  intros A B f; induction l as [|[[t n] a] l IH]; intros z; [reflexivity|].
  cbn [map fst snd find_variant]. destruct (t =? z); [reflexivity|apply IH].
Qed.

Lemma find_variant_in : forall A (l : list (Z * string * A)) z n a,
  find_variant l z = Some (n, a) -> In (z, n, a) l.
Proof.
  intros A; induction l as [|[[t n'] a'] l IH]; intros z n a H; [discriminate|].
  cbn in H. destruct (Z.eqb_spec t z) as [->|E].
  - injection H as -> ->. left; reflexivity.
  - right. apply IH; assumption.
Qed.

Lemma find_enum_in : forall (l : list (Z * string)) z n, find_enum l z = Some n -> In (z, n) l.
Proof.
  induction l as [|[t n'] l IH]; intros z n H; [discriminate|].
  cbn in H. destruct (Z.eqb_spec t z) as [->|E].
  - injection H as ->. left; reflexivity.
  - right. apply IH; assumption.
Qed.

Lemma existsb_false_in : forall x l, existsb (Z.eqb x) l = false -> ~ In x l.
Proof.
  intros x l H Hin. assert (existsb (Z.eqb x) l = true); [|congruence].
  apply existsb_exists. exists x. split; [assumption|apply Z.eqb_refl].
Qed.

Lemma nodupb_NoDup : forall l, nodupb l = true -> NoDup l.
Proof.
  induction l as [|x l IH]; intros H; [constructor|]. cbn in H. apply andb_true_iff in H. destruct H as [H1 H2].
  constructor; [apply existsb_false_in; destruct (existsb (Z.eqb x) l); [discriminate|reflexivity]|apply IH; assumption].
Qed.

Lemma find_variant_nodup : forall A (l : list (Z * string * A)) z n a,
  NoDup (map (fun x => fst (fst x)) l) -> In (z, n, a) l -> find_variant l z = Some (n, a).
Proof.
  intros A; induction l as [|[[t n'] a'] l IH]; intros z n a Hnd Hin; [contradiction|].
  cbn in Hnd |- *. inversion Hnd as [|x y Hx Hy]; subst. destruct Hin as [E|Hin].
  - injection E as -> -> ->. rewrite Z.eqb_refl. reflexivity.
  - destruct (Z.eqb_spec t z) as [->|E]; [|apply IH; assumption].
    exfalso. apply Hx. apply in_map_iff. exists (z, n, a). auto.
Qed.

Lemma find_enum_nodup : forall (l : list (Z * string)) z n,
  NoDup (map fst l) -> In (z, n) l -> find_enum l z = Some n.
Proof.
  induction l as [|[t n'] l IH]; intros z n Hnd Hin; [contradiction|].
  cbn in Hnd |- *. inversion Hnd as [|x y Hx Hy]; subst. destruct Hin as [E|Hin].
  - injection E as -> ->. rewrite Z.eqb_refl. reflexivity.
  - destruct (Z.eqb_spec t z) as [->|E]; [|apply IH; assumption].
    exfalso. apply Hx. apply in_map_iff. exists (z, n). auto.
Qed.

Ltac vtag E := apply validate_tag_ok in E; subst.

Lemma vparse_psuffix : forall m t l r v, bytes_ok l -> vparse m t l = Ok (r, v) -> proper_suffix_of r l.
Proof.
  intros m t; induction t as [it| | | |t IH|t IH|l0|tag l0 IH|fs IH] using vty_ind'; intros l r v Hok H;
    cbn [vparse] in H.
  - unfold tagged_vlq_int in H. inv_do H. destruct (in_ity it z); [|discriminate].
    vtag E0. injection H as <- <-. apply bytes_ok_cons in Hok.
    apply parse_vlq_int_psuffix in E; [|tauto]. eapply psuffix_trans_l; [eassumption|apply psuffix_suffix, suffix_cons].
  - unfold tagged_blob in H. inv_do H. vtag E0. injection H as <- <-. apply bytes_ok_cons in Hok.
    apply parse_vlq_int_psuffix in E1; [|tauto].
    apply take_bytes_ok in E; [|apply as_u64_nonneg]. destruct E as [-> _].
    eapply psuffix_trans_r; [exists l1; reflexivity|]. eapply psuffix_trans_l; [eassumption|apply psuffix_suffix, suffix_cons].
  - unfold tagged_bool in H. inv_do H. vtag E0. apply take_u8_ok in E1. subst.
    injection E as <- <-. injection H as <- <-. exists [BOOL_TAG; z]. split; [discriminate|reflexivity].
  - unfold tagged_fourcc in H. inv_do H. vtag E0. unfold take_u32_be in E.
    destruct a as [|x [|y [|w [|q tl]]]]; try discriminate. injection E as <- <-. injection H as <- <-.
    exists [FOURCC_TAG; x; y; w; q]. split; [discriminate|reflexivity].
  - inv_do H. vtag E. apply take_u8_ok in E0. subst.
    assert (Hs : proper_suffix_of l0 (OPT_TAG :: z :: l0)) by (exists [OPT_TAG; z]; split; [discriminate|reflexivity]).
    destruct (negb (z =? 0)).
    + inv_do H. injection H as <- <-. apply bytes_ok_cons in Hok. destruct Hok as [_ Hok]. apply bytes_ok_cons in Hok.
      apply IH in E; [|tauto]. eapply psuffix_trans_l; [eassumption|apply psuffix_suffix; assumption].
    + injection H as <- <-. assumption.
  - inv_do H. vtag E. apply bytes_ok_cons in Hok. destruct Hok as [_ Hok].
    pose proof (parse_vlq_int_psuffix _ _ _ _ Hok E0) as Hs.
    pose proof (suffix_bytes_ok _ _ (psuffix_suffix _ _ _ Hs) Hok) as Hok2.
    apply parse_n_suffix in E1; [|exact IH|assumption]. injection H as <- <-.
    eapply psuffix_trans_r; [eassumption|]. eapply psuffix_trans_l; [eassumption|apply psuffix_suffix, suffix_cons].
  - inv_do H. vtag E. apply bytes_ok_cons in Hok. destruct Hok as [_ Hok].
    destruct (find_enum l0 z); [|discriminate]. injection H as <- <-.
    apply parse_vlq_int_psuffix in E0; [|assumption]. eapply psuffix_trans_l; [eassumption|apply psuffix_suffix, suffix_cons].
  - inv_do H. vtag E. apply bytes_ok_cons in Hok. destruct Hok as [_ Hok].
    pose proof (parse_vlq_int_psuffix _ _ _ _ Hok E0) as Hs.
    pose proof (suffix_bytes_ok _ _ (psuffix_suffix _ _ _ Hs) Hok) as Hok2.
    rewrite find_variant_map in H. destruct (find_variant l0 z) as [[n t]|] eqn:Ef; [|discriminate].
    inv_do H. injection H as <- <-. apply find_variant_in in Ef.
    rewrite Forall_forall in IH. pose proof (IH _ Ef _ _ _ Hok2 E) as H1. cbn in H1.
    eapply psuffix_trans_l; [eassumption|]. apply psuffix_suffix in Hs.
    eapply suffix_trans; [eassumption|apply psuffix_suffix, suffix_cons].
  - unfold parse_struct in H. inv_do H. vtag E. apply bytes_ok_cons in Hok. destruct Hok as [_ Hok].
    pose proof (parse_vlq_int_psuffix _ _ _ _ Hok E0) as Hs.
    pose proof (suffix_bytes_ok _ _ (psuffix_suffix _ _ _ Hs) Hok) as Hok2.
    injection H as <- <-. apply struct_loop_suffix in E1; [| |assumption].
    + eapply psuffix_trans_r; [eassumption|]. eapply psuffix_trans_l; [eassumption|apply psuffix_suffix, suffix_cons].
    + apply Forall_forall. intros s Hin. apply in_map_iff in Hin. destruct Hin as (fd & <- & Hin).
      rewrite Forall_forall in IH. exact (IH _ Hin).
Qed.

(** ** Encodings are decoded *)
Lemma venc_ne : forall s t v bs, venc s t v bs -> bs <> [].
Proof. intros s t v bs H; destruct H; discriminate. Qed.

Lemma parse_n_ok : forall s t (p : parser val) vs bss,
  (forall v bs rest, venc s t v bs -> p (bs ++ rest) = Ok (rest, v)) ->
  Forall2 (venc s t) vs bss ->
  forall f rest, (length (concat bss ++ rest) < f)%nat ->
  parse_n f p (Z.of_nat (length vs)) (concat bss ++ rest) = Ok (rest, vs).
Proof.
  intros s t p vs bss Hp H; induction H as [|v bs vs bss Hv Hvs IH]; intros f rest Hf.
  - destruct f; reflexivity.
  - destruct f as [|f]; [lia|]. cbn [parse_n length concat].
    destruct (Z.eqb_spec (Z.of_nat (S (length vs))) 0); [lia|].
    rewrite <- app_assoc, (Hp _ _ _ Hv). cbn [obind].
    replace (Z.of_nat (S (length vs)) - 1) with (Z.of_nat (length vs)) by lia.
    rewrite IH; [reflexivity|]. pose proof (venc_ne _ _ _ _ Hv) as Hne.
    cbn [concat] in Hf. rewrite <- app_assoc, app_length in Hf. destruct bs; [congruence|]. cbn in Hf. lia.
Qed.

(** Slots as a function of what was written so far. *)
Definition cur_t : Type := fld vty -> option val.
Definition cur0 : cur_t := fun f => match f_init f with InitNone => None | InitSomeNone => Some (VOpt None) end.
Definition upd (cur : cur_t) (f : fld vty) (v : val) : cur_t :=
  fun f' => if f_tag f' =? f_tag f then Some v else cur f'.
Definition slots_of (m : build) (fs : list (fld vty)) (cur : cur_t) : list slot :=
  map (fun f => (unfld f, vparse m (f_ty f), cur f)) fs.
Definition free (cur : cur_t) (f : fld vty) : bool :=
  match f_init f, cur f with
  | InitNone, None => true
  | InitSomeNone, Some (VOpt None) => true
  | _, _ => false
  end.
Definition run (cur : cur_t) (ws : list written) : cur_t :=
  fold_left (fun c w => upd c (w_fld w) (w_val w)) ws cur.
Fixpoint ok_from (cur : cur_t) (ws : list written) : Prop :=
  match ws with
  | [] => True
  | w :: ws' => free cur (w_fld w) = true /\ ok_from (upd cur (w_fld w) (w_val w)) ws'
  end.

Lemma slots_of_cur0 : forall m fs,
  map (fun f => init_slot (unfld f) (vparse m (f_ty f))) fs = slots_of m fs cur0.
Proof. intros m fs. unfold slots_of, init_slot, cur0. apply map_ext. intros f. destruct (f_init f) eqn:E; cbn; rewrite E; reflexivity. Qed.

Lemma slots_of_upd_notin : forall m fs cur f v, ~ In (f_tag f) (map f_tag fs) ->
  slots_of m fs (upd cur f v) = slots_of m fs cur.
Proof.
  intros m fs cur f v H. unfold slots_of. apply map_ext_in. intros g Hg.
  unfold upd. destruct (Z.eqb_spec (f_tag g) (f_tag f)) as [E|E]; [|reflexivity].
  exfalso. apply H. rewrite <- E. apply in_map; assumption.
Qed.

(** One field. *)
Lemma struct_step_found : forall m fs cur f l, NoDup (map f_tag fs) -> In f fs ->
  struct_step (slots_of m fs cur) (f_tag f) l =
  if free cur f then SStored (do (tail, v) <- vparse m (f_ty f) l; Ok (tail, slots_of m fs (upd cur f v)))
  else SDuplicate (f_name f) (f_dup f).
Proof.
  intros m; induction fs as [|g fs IH]; intros cur f l Hnd Hin; [contradiction|].
  cbn [slots_of map struct_step] in *. change (map (fun f0 => (unfld f0, vparse m (f_ty f0), cur f0)) fs) with (slots_of m fs cur).
  inversion Hnd as [|x y Hx Hy]; subst. destruct Hin as [->|Hin].
  - cbn [unfld f_tag]. rewrite Z.eqb_refl. change (slot_free (unfld f, vparse m (f_ty f), cur f)) with (free cur f).
    assert (E : forall v, slots_of m (f :: fs) (upd cur f v) = (unfld f, vparse m (f_ty f), Some v) :: slots_of m fs cur).
    { intros v. cbn [slots_of map]. change (map _ fs) with (slots_of m fs (upd cur f v)).
      rewrite slots_of_upd_notin by assumption. unfold upd. rewrite Z.eqb_refl. reflexivity. }
    assert (E2 : (do (tail, v) <- vparse m (f_ty f) l; Ok (tail, (unfld f, vparse m (f_ty f), Some v) :: slots_of m fs cur))
               = (do (tail, v) <- vparse m (f_ty f) l; Ok (tail, slots_of m (f :: fs) (upd cur f v)))).
    { destruct (vparse m (f_ty f) l) as [[? ?]| |]; cbn [obind]; [rewrite E|..]; reflexivity. }
    destruct (free cur f); [|reflexivity]. f_equal. exact E2.
  - cbn [unfld f_tag]. destruct (Z.eqb_spec (f_tag g) (f_tag f)) as [E|E].
    { exfalso. apply Hx. rewrite E. apply in_map; assumption. }
    rewrite (IH _ _ _ Hy Hin). destruct (free cur f); [|reflexivity]. f_equal.
    destruct (vparse m (f_ty f) l) as [[? ?]| |]; cbn [obind]; try reflexivity.
    cbn [slots_of map]. unfold upd at 2. rewrite (proj2 (Z.eqb_neq _ _) E). reflexivity.
Qed.

Lemma struct_step_unknown : forall m fs cur z l, ~ In z (map f_tag fs) ->
  struct_step (slots_of m fs cur) z l = SUnknown.
Proof.
  intros m; induction fs as [|g fs IH]; intros cur z l H; [reflexivity|].
  cbn [slots_of map struct_step unfld f_tag] in *.
  destruct (Z.eqb_spec (f_tag g) z) as [E|E]; [exfalso; apply H; left; assumption|].
  change (map _ fs) with (slots_of m fs cur). rewrite IH; [reflexivity|]. intros Hc; apply H; right; assumption.
Qed.

Definition wbytes (ws : list written) : list Z := concat (map (fun w => w_tag w ++ w_bytes w) ws).

(** A run of acceptable fields. *)
Lemma struct_loop_run : forall s m fs ws cur count rest f,
  NoDup (map f_tag fs) ->
  Forall (fun w => In (w_fld w) fs /\ vlq_rep s (f_tag (w_fld w)) (w_tag w) /\
     (forall rest, vparse m (f_ty (w_fld w)) (w_bytes w ++ rest) = Ok (rest, w_val w))) ws ->
  ok_from cur ws ->
  Z.of_nat (length ws) <= count -> (length (wbytes ws ++ rest) < f)%nat ->
  exists f', (length rest < f')%nat /\
  struct_loop f m count (slots_of m fs cur) (wbytes ws ++ rest) =
  struct_loop f' m (count - Z.of_nat (length ws)) (slots_of m fs (run cur ws)) rest.
Proof.
  intros s m fs ws; induction ws as [|w ws IH]; intros cur count rest f Hnd Hws Hok Hc Hf.
  - exists f. split; [exact Hf|]. cbn [wbytes map concat app length run fold_left]. f_equal. cbn. lia.
  - inversion Hws as [|x y (Hin & Htag & Hp) Hws']; subst. destruct Hok as [Hfree Hok].
    destruct f as [|f]; [lia|]. cbn [length] in Hc.
    cbn [struct_loop]. destruct (Z.eqb_spec count 0); [lia|].
    unfold wbytes in *. cbn [map concat] in Hf |- *. rewrite <- !app_assoc in *.
    rewrite (parse_vlq_int_lax _ _ _ _ (vlq_rep_lax _ _ _ Htag)). cbn [obind].
    rewrite struct_step_found by assumption. rewrite Hfree, Hp. cbn [obind].
    destruct (IH (upd cur (w_fld w) (w_val w)) (count - 1) rest f) as (f' & Hf' & E); try assumption.
    + lia.
    + pose proof (vlq_rep_ne _ _ _ Htag). rewrite !app_length in *. destruct (w_tag w); [congruence|]. cbn in Hf. lia.
    + exists f'. split; [assumption|]. rewrite E. cbn [length run fold_left]. f_equal. lia.
Qed.

Lemma ok_from_split : forall ws cur, ok_from cur ws <->
  forall p w q, ws = p ++ w :: q -> free (run cur p) (w_fld w) = true.
Proof.
  induction ws as [|w0 ws IH]; intros cur; split; intros H.
  - intros p w q E. destruct p; discriminate.
  - exact I.
  - destruct H as [H1 H2]. intros p w q E. destruct p as [|w' p]; cbn in E.
    + injection E as <- <-. exact H1.
    + injection E as <- ->. cbn [run fold_left]. apply (proj1 (IH _) H2 p w q eq_refl).
  - split; [apply (H [] w0 ws eq_refl)|]. apply IH. intros p w q ->. apply (H (w0 :: p) w q eq_refl).
Qed.

Lemma run_last : forall ws cur f,
  (exists p w q, ws = p ++ w :: q /\ f_tag f = f_tag (w_fld w) /\ run cur ws f = Some (w_val w) /\
       forall w', In w' q -> f_tag (w_fld w') <> f_tag f)
  \/ ((forall w, In w ws -> f_tag (w_fld w) <> f_tag f) /\ run cur ws f = cur f).
Proof.
  intros ws; induction ws as [|w ws IH] using rev_ind; intros cur f.
  - right. split; [intros w []|reflexivity].
  - unfold run. rewrite fold_left_app. cbn [fold_left]. fold (run cur ws). unfold upd.
    destruct (Z.eqb_spec (f_tag f) (f_tag (w_fld w))) as [E|E].
    + left. exists ws, w, []. repeat split; auto. all: intros w' [].
    + destruct (IH cur f) as [(p & w0 & q & -> & Ht & Hr & Hq)|[Hn Hr]].
      * left. exists p, w0, (q ++ [w]). rewrite <- app_assoc. repeat split; auto.
        intros w' Hin. apply in_app_or in Hin. destruct Hin as [Hin|[<-|[]]]; [apply Hq; assumption|congruence].
      * right. split; [|assumption]. intros w' Hin. apply in_app_or in Hin.
        destruct Hin as [Hin|[<-|[]]]; [apply Hn; assumption|congruence].
Qed.

Lemma tag_inj : forall (fs : list (fld vty)) f g, NoDup (map f_tag fs) -> In f fs -> In g fs -> f_tag f = f_tag g -> f = g.
Proof.
  induction fs as [|x fs IH]; intros f g Hnd Hf Hg E; [contradiction|].
  cbn in Hnd. inversion Hnd as [|a b Ha Hb]; subst. destruct Hf as [->|Hf], Hg as [->|Hg].
  - reflexivity.
  - exfalso. apply Ha. rewrite E. apply in_map; assumption.
  - exfalso. apply Ha. rewrite <- E. apply in_map; assumption.
  - apply IH; assumption.
Qed.

Lemma NoDup_app_notin : forall A (p q : list A) x, NoDup (p ++ x :: q) -> ~ In x p /\ ~ In x q.
Proof.
  intros A p q x H. apply NoDup_remove_2 in H. split; intros Hi; apply H; apply in_or_app; auto.
Qed.

Lemma occ_lax : forall s ws, occurrences_ok s ws -> occurrences_ok false ws.
Proof.
  intros [|] ws H; [|exact H]. intros p w q w' -> Hin E. exfalso. cbn in H.
  rewrite map_app in H. cbn [map] in H. apply NoDup_app_notin in H. destruct H as [H _]. apply H.
  rewrite <- E. apply in_map_iff. exists w'. auto.
Qed.

(** The lax occurrence rule is what the slots enforce. *)
Lemma ok_from_cur0 : forall fs ws, NoDup (map f_tag fs) -> Forall (fun w => In (w_fld w) fs) ws ->
  (ok_from cur0 ws <-> occurrences_ok false ws).
Proof.
  intros fs ws Hnd Hws. rewrite ok_from_split. cbn [occurrences_ok]. rewrite Forall_forall in Hws. split.
  - intros H p w q w' E Hin Et. remember (length p) as n eqn:Hl.
    revert p w q w' Hl E Hin Et. induction n as [n IHn] using lt_wf_ind; intros p w q w' Hl E Hin Et.
    assert (Hfree := H _ _ _ E).
    destruct (run_last p cur0 (w_fld w)) as [(p' & w0 & q' & E' & Ht & Hr & Hq)|[Hn _]];
      [|exfalso; apply (Hn w' Hin); assumption].
    assert (Hv0 : f_init (w_fld w) = InitSomeNone /\ w_val w0 = VOpt None).
    { unfold free in Hfree. rewrite Hr in Hfree. destruct (f_init (w_fld w)); [discriminate|].
      destruct (w_val w0) as [| | | |[|]| | | |]; try discriminate. auto. }
    destruct Hv0 as [Hi Hv0]. split; [exact Hi|].
    rewrite E' in Hin. apply in_app_or in Hin. destruct Hin as [Hin|[<-|Hin]].
    + eapply (IHn (length p')) with (p := p') (w := w0) (q := q' ++ w :: q); try eassumption.
      * rewrite Hl, E', app_length. cbn. lia.
      * reflexivity.
      * rewrite E, E', <- app_assoc. reflexivity.
      * congruence.
    + assumption.
    + exfalso. apply (Hq _ Hin). assumption.
  - intros H p w q E.
    destruct (run_last p cur0 (w_fld w)) as [(p' & w0 & q' & E' & Ht & Hr & Hq)|[Hn Hr]].
    + destruct (H _ _ _ w0 E) as [Hi Hv].
      * rewrite E'. apply in_or_app; right; left; reflexivity.
      * congruence.
      * unfold free. rewrite Hr, Hi, Hv. reflexivity.
    + unfold free. rewrite Hr. unfold cur0. destruct (f_init (w_fld w)); reflexivity.
Qed.

Lemma struct_finish_ok : forall m fs cur vals,
  struct_finish (slots_of m fs cur) = Ok vals <->
  Forall2 (fun f nv => fst nv = f_name f /\
     match cur f, f_fin f with Some v, _ => snd nv = v | None, FinDefault d => snd nv = d | None, FinReq => False end) fs vals.
Proof.
  intros m; induction fs as [|f fs IH]; intros cur vals; cbn [slots_of map struct_finish].
  - split; intros H; [injection H as <-; constructor|inversion H; reflexivity].
  - change (map _ fs) with (slots_of m fs cur). cbn [unfld f_fin f_name]. split.
    + intros H. apply obind_ok in H. destruct H as (v & E & H). apply obind_ok in H. destruct H as (vs & Es & H).
      injection H as <-. constructor; [|apply IH; assumption]. cbn. split; [reflexivity|].
      destruct (cur f); [injection E as ->; reflexivity|]. destruct (f_fin f); [discriminate|injection E as ->; reflexivity].
    + intros H. inversion H as [|f' [n v] fs' vs [Hn Hv] Hvs]; subst. cbn in Hn, Hv. subst n.
      apply IH in Hvs. rewrite Hvs. destruct (cur f); [subst; reflexivity|].
      destruct (f_fin f); [contradiction|subst; reflexivity].
Qed.

Lemma field_value_run : forall fs ws f v, NoDup (map f_tag fs) -> Forall (fun w => In (w_fld w) fs) ws -> In f fs ->
  (field_value ws f v <->
   match run cur0 ws f, f_fin f with Some v', _ => v = v' | None, FinDefault d => v = d | None, FinReq => False end).
Proof.
  intros fs ws f v Hnd Hws Hf. rewrite Forall_forall in Hws.
  destruct (run_last ws cur0 f) as [(p & w & q & E & Ht & Hr & Hq)|[Hn Hr]]; rewrite Hr; split; intros H.
  - destruct H as [(p' & w' & q' & E' & Hf' & Hv & Hq')|[Hn _]].
    + (* the last occurrence is unique *)
      assert (Heq : w = w').
      { assert (Hlen : p = p').
        { clear - E E' Ht Hq Hf' Hq'. subst f. revert p' E'. subst ws. intros p'. revert p'.
          induction p as [|a p IH]; intros p' E'.
          - destruct p' as [|b p']; [reflexivity|]. cbn in E'. injection E' as -> ->.
            exfalso. apply (Hq w'); [apply in_or_app; right; left; reflexivity|reflexivity].
          - destruct p' as [|b p'].
            + cbn in E'. injection E' as -> <-. exfalso. apply (Hq' w); [apply in_or_app; right; left; reflexivity|congruence].
            + cbn in E'. injection E' as -> E'. f_equal. apply IH. assumption. }
        subst p'. rewrite E in E'. apply app_inv_head in E'. congruence. }
      subst w'. auto.
    + exfalso. apply (Hn w); [rewrite E; apply in_or_app; right; left; reflexivity|congruence].
  - left. exists p, w, q. repeat split; auto. apply (tag_inj fs); auto.
    apply Hws. rewrite E. apply in_or_app; right; left; reflexivity.
  - destruct H as [(p' & w' & q' & E' & Hf' & Hv & Hq')|[_ Ha]].
    + exfalso. apply (Hn w'); [rewrite E'; apply in_or_app; right; left; reflexivity|congruence].
    + unfold absent_value in Ha. unfold cur0. destruct (f_init f); [|congruence]. destruct (f_fin f); congruence.
  - right. split; [assumption|]. unfold absent_value. unfold cur0 in H.
    destruct (f_init f); [|congruence]. destruct (f_fin f); [contradiction|congruence].
Qed.

Lemma struct_fields_finish : forall m fs ws vals, NoDup (map f_tag fs) -> Forall (fun w => In (w_fld w) fs) ws ->
  (Forall2 (fun f nv => fst nv = f_name f /\ field_value ws f (snd nv)) fs vals <->
   struct_finish (slots_of m fs (run cur0 ws)) = Ok vals).
Proof.
  intros m fs ws vals Hnd Hws. rewrite struct_finish_ok.
  assert (G : forall gs, incl gs fs -> forall vals,
    (Forall2 (fun f nv => fst nv = f_name f /\ field_value ws f (snd nv)) gs vals <->
     Forall2 (fun f (nv : string * val) => fst nv = f_name f /\
       match run cur0 ws f, f_fin f with Some v, _ => snd nv = v | None, FinDefault d => snd nv = d | None, FinReq => False end) gs vals)).
  { induction gs as [|g gs IH]; intros Hi vs.
    - split; intros H; inversion H; constructor.
    - assert (Hg : In g fs) by (apply Hi; left; reflexivity).
      assert (Hi' : incl gs fs) by (intros x Hx; apply Hi; right; assumption).
      split; intros H; inversion H as [|a b c d [H1 H2] H3]; subst; constructor;
        try (apply (IH Hi'); assumption); (split; [assumption|]); apply (field_value_run fs); assumption. }
  apply G. apply incl_refl.
Qed.

Lemma as_u64_len : forall s n g, vlq_rep s (Z.of_nat n) g -> as_u64 (Z.of_nat n) = Z.of_nat n.
Proof. intros s n g H. apply vlq_rep_range in H. apply as_u64_id. unfold two63, two64 in *. lia. Qed.

Lemma vparse_complete : forall s m t v bs rest, wf_vty t = true -> venc s t v bs ->
  vparse m t (bs ++ rest) = Ok (rest, v).
Proof.
  intros s m t; induction t as [it| | | |t IH|t IH|l0|tag l0 IH|fs IH] using vty_ind'; intros v bs rest Hwf H;
    cbn [vparse].
  - inversion H; subst. unfold tagged_vlq_int. cbn [app validate_tag]. rewrite Z.eqb_refl. cbn [obind].
    match goal with Hx : vlq_rep _ _ _ |- _ => rewrite (parse_vlq_int_lax _ _ _ _ (vlq_rep_lax _ _ _ Hx)) end. cbn [obind].
    match goal with Hx : in_ity _ _ = true |- _ => rewrite Hx end. reflexivity.
  - inversion H as [|l g Hl Hg| | | | | | | |]; subst. unfold tagged_blob. cbn [app validate_tag]. rewrite Z.eqb_refl. cbn [obind].
    rewrite <- app_assoc, (parse_vlq_int_lax _ _ _ _ (vlq_rep_lax _ _ _ Hg)). cbn [obind].
    rewrite (as_u64_len _ _ _ Hg).
    rewrite (proj2 (take_bytes_ok (Z.of_nat (length l)) (l ++ rest) rest l ltac:(lia))) by auto. reflexivity.
  - inversion H as [| |b x Hx Hb| | | | | | |]; subst. unfold tagged_bool. cbn [app validate_tag]. rewrite Z.eqb_refl. cbn [obind take_u8].
    do 3 f_equal. destruct (Z.eqb_spec x 0) as [->|E], b; cbn; try reflexivity.
    + destruct Hb as [Hb _]. exfalso. apply Hb; reflexivity.
    + destruct Hb as [_ Hb]. specialize (Hb E). discriminate.
  - inversion H as [| | |a b c d Hx| | | | | |]; subst. unfold tagged_fourcc. cbn [app validate_tag]. rewrite Z.eqb_refl. cbn [obind take_u32_be].
    do 3 f_equal. change (2 ^ 24) with 16777216. change (2 ^ 16) with 65536. change (2 ^ 8) with 256. lia.
  - cbn in Hwf. inversion H as [| | | |t0|t0 x v0 bs0 Hx Hx0 Hv| | | |]; subst; cbn [app validate_tag]; rewrite Z.eqb_refl; cbn [obind take_u8].
    + reflexivity.
    + rewrite (proj2 (Z.eqb_neq _ _) Hx0). cbn [negb]. rewrite (IH _ _ _ Hwf Hv). reflexivity.
  - cbn in Hwf. inversion H as [| | | | | |t0 g vs bss Hg Hvs| | |]; subst. cbn [app validate_tag]; rewrite Z.eqb_refl; cbn [obind].
    rewrite <- app_assoc, (parse_vlq_int_lax _ _ _ _ (vlq_rep_lax _ _ _ Hg)). cbn [obind].
    rewrite (as_u64_len _ _ _ Hg).
    rewrite (parse_n_ok s t _ vs bss); [reflexivity| |assumption|lia].
    intros v bs rest' Hv. apply IH; assumption.
  - cbn in Hwf. apply nodupb_NoDup in Hwf. inversion H as [| | | | | | |l z n g Hin Hg| |]; subst.
    cbn [app validate_tag]; rewrite Z.eqb_refl; cbn [obind].
    rewrite (parse_vlq_int_lax _ _ _ _ (vlq_rep_lax _ _ _ Hg)). cbn [obind].
    rewrite (find_enum_nodup _ _ _ Hwf Hin). reflexivity.
  - cbn in Hwf. apply andb_true_iff in Hwf. destruct Hwf as [Hnd Hwf]. apply nodupb_NoDup in Hnd.
    rewrite forallb_forall in Hwf.
    inversion H as [| | | | | | | |tag' l z n t v0 g bs0 Hin Hg Hv|]; subst.
    cbn [app validate_tag]; rewrite Z.eqb_refl; cbn [obind].
    rewrite <- app_assoc, (parse_vlq_int_lax _ _ _ _ (vlq_rep_lax _ _ _ Hg)). cbn [obind].
    rewrite find_variant_map, (find_variant_nodup _ _ _ _ _ Hnd Hin).
    rewrite Forall_forall in IH. pose proof (IH _ Hin _ _ rest (Hwf _ Hin) Hv) as E. cbn [snd] in E. rewrite E. reflexivity.
  - cbn in Hwf. apply andb_true_iff in Hwf. destruct Hwf as [Hnd Hwf]. apply nodupb_NoDup in Hnd.
    rewrite forallb_forall in Hwf. rewrite Forall_forall in IH.
    inversion H as [| | | | | | | | |fs0 ws g vals Hg Hws Hocc Hvals]; subst.
    unfold parse_struct. cbn [app validate_tag]; rewrite Z.eqb_refl; cbn [obind].
    rewrite <- app_assoc, (parse_vlq_int_lax _ _ _ _ (vlq_rep_lax _ _ _ Hg)). cbn [obind].
    rewrite (as_u64_len _ _ _ Hg). rewrite slots_of_cur0.
    assert (Hin : Forall (fun w => In (w_fld w) fs) ws) by (eapply Forall_impl; [|exact Hws]; cbn; tauto).
    fold (wbytes ws).
    destruct (struct_loop_run s m fs ws cur0 (Z.of_nat (length ws)) rest (S (length (wbytes ws ++ rest))))
      as (f' & Hf' & E); try assumption; try lia.
    + eapply Forall_impl; [|exact Hws]. cbn. intros w (H1 & H2 & H3). repeat split; try assumption; try apply H2.
      intros r. apply IH; auto.
    + apply (ok_from_cur0 fs); try assumption. apply (occ_lax s); assumption.
    + rewrite E, Z.sub_diag. assert (E0 : forall sl, struct_loop f' m 0 sl rest = Ok (rest, sl)) by (intros; destruct f'; reflexivity).
      rewrite E0. cbn [obind]. apply (struct_fields_finish m) in Hvals; [|assumption|assumption].
      rewrite Hvals. reflexivity.
Qed.
