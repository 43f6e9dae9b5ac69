(** * Decoders look only at what they consume *)
From Verif Require Import Base Vlq Types Versioned ByteTypes.
#[local] Open Scope Z_scope.

(** [y] is what [x] becomes when [b] is added to the input. *)
Definition ext {A} (b : list Z) (x y : outcome (list Z * A)) : Prop :=
  match x with Ok (r, v) => y = Ok (r ++ b, v) | Panic => y = Panic | Err _ => True end.
Definition local {A} (p : parser A) : Prop := forall a b, ext b (p a) (p (a ++ b)).

Lemma ext_bind : forall A B b (x y : outcome (list Z * A)) (f g : list Z * A -> outcome (list Z * B)), ext b x y ->
  (forall r v, x = Ok (r, v) -> ext b (f (r, v)) (g (r ++ b, v))) -> ext b (obind x f) (obind y g).
Proof.
  intros A B b [[r v]|e|] y f g Hx Hf; cbn [ext] in Hx; [subst y; cbn [obind]; apply Hf; reflexivity|exact Logic.I|subst y; reflexivity].
Qed.
Lemma tag_ext : forall A b t a (f g : list Z -> outcome (list Z * A)), (forall r, ext b (f r) (g (r ++ b))) ->
  ext b (obind (validate_tag t a) f) (obind (validate_tag t (a ++ b)) g).
Proof.
  intros A b t [|z a] f g Hf; cbn [validate_tag app]; [exact Logic.I|]. destruct (z =? t); [apply Hf|exact Logic.I].
Qed.
Lemma vlq_loop_local : forall m a r k b, ext b (vlq_loop m a r k) (vlq_loop m (a ++ b) r k).
Proof.
  intros m. induction a as [|z a IH]; intros r k b; cbn [vlq_loop app]; [exact Logic.I|].
  destruct (shl_i64 m (Z.land z 127) k) as [s|e|]; cbn [obind]; [|exact Logic.I|reflexivity].
  destruct (Z.land z 128 =? 0); [reflexivity|apply IH].
Qed.
Lemma vlq_local : forall m, local (parse_vlq_int m).
Proof.
  intros m [|z a] b; unfold parse_vlq_int; cbn [app]; [exact Logic.I|].
  apply ext_bind; [destruct (Z.land z 128 =? 0); [reflexivity|apply vlq_loop_local]|].
  intros r v _. cbn [fst snd]. destruct (negb (Z.land z 1 =? 0)); [|reflexivity]. destruct (neg_i64 m v); cbn [obind]; [reflexivity|exact Logic.I|reflexivity].
Qed.
Lemma take_local : forall n, local (take_bytes n).
Proof.
  intros n a b. unfold take_bytes. destruct (Z.of_nat (length a) <? n) eqn:E; [exact Logic.I|]. apply Z.ltb_ge in E.
  replace (Z.of_nat (length (a ++ b)) <? n) with false by (symmetry; apply Z.ltb_ge; rewrite app_length; lia). cbn [ext].
  rewrite skipn_app, firstn_app. replace (Z.to_nat n - length a)%nat with 0%nat by lia. cbn [skipn firstn]. now rewrite app_nil_r.
Qed.
Lemma u8_local : local take_u8.
Proof. intros [|z a] b; [exact Logic.I|reflexivity]. Qed.
Lemma u32_local : local take_u32_be.
Proof. intros [|w [|x [|y [|z a]]]] b; try exact Logic.I. reflexivity. Qed.
Lemma parse_n_local : forall (p : parser val), local p -> forall f f' n a b, (f <= f')%nat -> ext b (parse_n f p n a) (parse_n f' p n (a ++ b)).
Proof.
  intros p Hp. induction f as [|f IH]; intros f' n a b Hf; destruct f' as [|f']; try lia; cbn [parse_n]; destruct (n =? 0); try reflexivity; try exact Logic.I.
  apply ext_bind; [apply Hp|]. intros r v _. apply ext_bind; [apply IH; lia|]. intros r' v' _. reflexivity.
Qed.

Definition slots_local (slots : list slot) : Prop := Forall (fun s => local (snd (fst s))) slots.
Definition step_ext (b : list Z) (x y : step_res) : Prop :=
  match x with
  | SStored r => (exists r', y = SStored r' /\ ext b r r') /\ forall t s, r = Ok (t, s) -> slots_local s
  | _ => y = x
  end.
Lemma step_local : forall slots tag a b, slots_local slots -> step_ext b (struct_step slots tag a) (struct_step slots tag (a ++ b)).
Proof.
  induction slots as [|[[fd p] cur] slots IH]; intros tag a b Hs; cbn [struct_step]; [reflexivity|]. inversion_clear Hs as [|? ? Hp Hs'].
  cbn [fst snd] in Hp. destruct (f_tag fd =? tag).
  - destruct (slot_free (fd, p, cur)); [|reflexivity]. cbn [step_ext]. split.
    + eexists. split; [reflexivity|]. apply ext_bind; [apply Hp|]. intros r v _. reflexivity.
    + intros t s Hr. apply obind_ok in Hr. destruct Hr as ([t' v] & _ & Hr). injection Hr as <- <-. constructor; [exact Hp|exact Hs'].
  - specialize (IH tag a b Hs'). destruct (struct_step slots tag a) as [|n t|r]; cbn [step_ext] in IH; [rewrite IH; reflexivity|rewrite IH; reflexivity|].
    destruct IH as [(r' & E & Hr) Hl]. rewrite E. cbn [step_ext]. split.
    + eexists. split; [reflexivity|]. apply ext_bind; [exact Hr|]. intros t s _. reflexivity.
    + intros t s Hk. apply obind_ok in Hk. destruct Hk as ([t' s'] & Er & Hk). injection Hk as <- <-. constructor; [exact Hp|exact (Hl _ _ Er)].
Qed.
Lemma loop_local : forall m f f' n slots a b, slots_local slots -> (f <= f')%nat -> ext b (struct_loop f m n slots a) (struct_loop f' m n slots (a ++ b)).
Proof.
  intros m. induction f as [|f IH]; intros f' n slots a b Hs Hf; destruct f' as [|f']; try lia; cbn [struct_loop]; destruct (n =? 0); try reflexivity; try exact Logic.I.
  apply ext_bind; [apply vlq_local|]. intros r tag _. pose proof (step_local slots tag r b Hs) as Q.
  destruct (struct_step slots tag r) as [|nm t|x]; cbn [step_ext] in Q; [exact Logic.I|exact Logic.I|].
  destruct Q as [(r' & E & Hr) Hl]. rewrite E. apply ext_bind; [exact Hr|]. intros t s Ht. apply IH; [exact (Hl _ _ Ht)|lia].
Qed.

Lemma find_local : forall (l : list (Z * string * parser val)) tag n p, Forall (fun x => local (snd x)) l -> find_variant l tag = Some (n, p) -> local p.
Proof.
  induction l as [|[[t s] q] l IH]; intros tag n p Hl Hf; cbn [find_variant] in Hf; [discriminate|]. inversion_clear Hl as [|? ? H1 H2].
  destruct (t =? tag); [injection Hf as <- <-; exact H1|exact (IH _ _ _ H2 Hf)].
Qed.
Lemma vparse_local : forall m t, local (vparse m t).
Proof.
  intros m t; induction t as [it| | | |t IH|t IH|l0|tag l0 IH|fs IH] using vty_ind'; intros a b; cbn [vparse].
  - unfold tagged_vlq_int. apply ext_bind; [apply (tag_ext Z b INT_TAG a (parse_vlq_int m) (parse_vlq_int m)); intros; apply vlq_local|].
    intros r v _. destruct (in_ity it v); [reflexivity|exact Logic.I].
  - unfold tagged_blob. apply ext_bind; [|intros; reflexivity]. apply tag_ext. intros r. apply ext_bind; [apply vlq_local|]. intros r' v _. apply take_local.
  - unfold tagged_bool. apply ext_bind; [|intros; reflexivity]. apply tag_ext. intros r. apply ext_bind; [apply u8_local|]. intros; reflexivity.
  - unfold tagged_fourcc. apply ext_bind; [|intros; reflexivity]. apply tag_ext. intros r. apply u32_local.
  - apply tag_ext. intros r. apply ext_bind; [apply u8_local|]. intros r' v _. destruct (negb (v =? 0)); [|reflexivity].
    apply ext_bind; [apply IH|]. intros; reflexivity.
  - apply tag_ext. intros r. apply ext_bind; [apply vlq_local|]. intros r' v _. apply ext_bind; [|intros; reflexivity].
    apply parse_n_local; [exact IH|]. rewrite app_length. lia.
  - apply tag_ext. intros r. apply ext_bind; [apply vlq_local|]. intros r' v _. destruct (find_enum l0 v); [reflexivity|exact Logic.I].
  - apply tag_ext. intros r. apply ext_bind; [apply vlq_local|]. intros r' v _.
    destruct (find_variant (map (fun x => (fst x, vparse m (snd x))) l0) v) as [[n p]|] eqn:E; [|exact Logic.I].
    apply ext_bind; [|intros; reflexivity]. refine (find_local _ _ _ _ _ E _ _). apply Forall_map. exact IH.
  - unfold parse_struct. apply tag_ext. intros r. apply ext_bind; [apply vlq_local|]. intros r' v _. apply ext_bind.
    + apply loop_local; [apply Forall_map; exact IH|rewrite app_length; lia].
    + intros t s _. destruct (struct_finish s); cbn [obind]; [reflexivity|exact Logic.I|reflexivity].
Qed.
