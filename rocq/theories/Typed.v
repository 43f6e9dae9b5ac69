(** * Decoded values have the type they were decoded at *)
From Verif Require Import Base Vlq VlqProofs VlqExact BitSpec BitPacked BitProofs Types Versioned VersionedProofs BitInterp BitFormat BitExact BitTotal.

Section forall2b.
  Context {A B : Type} (f : A -> B -> bool).
  Fixpoint forall2b (l : list A) (l' : list B) : bool :=
    match l, l' with
    | [], [] => true
    | a :: l, b :: l' => f a b && forall2b l l'
    | _, _ => false
    end.
End forall2b.
Lemma forall2b_Forall2 : forall A B (f : A -> B -> bool) l l', forall2b f l l' = true <-> Forall2 (fun a b => f a b = true) l l'.
Proof.
  intros A B f; induction l as [|a l IH]; intros [|b l']; cbn; split; intros E; try discriminate; try (inversion E; fail); auto.
  - apply andb_true_iff in E as [E1 E2]. constructor; [exact E1|now apply IH].
  - inversion E; subst. apply andb_true_iff; split; [assumption|now apply IH].
Qed.

(** [v] is a value of the byte-aligned type [t]. *)
Fixpoint vtyped (t : vty) (v : val) {struct t} : bool :=
  match t, v with
  | TInt it, VInt z => in_ity it z
  | TBlob, VBytes l => forallb in_u8 l
  | TBool, VBool _ => true
  | TFourcc, VInt z => in_u32 z
  | TOpt t', VOpt None => true
  | TOpt t', VOpt (Some w) => vtyped t' w
  | TArray t', VList l => forallb (vtyped t') l
  | TEnum l, VEnum s => existsb (fun x => String.eqb (snd x) s) l
  | TChoice _ l, VChoice s w => existsb (fun x => String.eqb (snd (fst x)) s && vtyped (snd x) w) l
  | TStruct fs, VStruct vs => forall2b (fun f x => String.eqb (f_name f) (fst x) && vtyped (f_ty f) (snd x)) fs vs
  | _, _ => false
  end.

(** Starting and default values have the type of their field. *)
Fixpoint wf_defaults (t : vty) : bool :=
  match t with
  | TInt _ | TBlob | TBool | TFourcc | TEnum _ => true
  | TOpt t' | TArray t' => wf_defaults t'
  | TChoice _ l => forallb (fun x => wf_defaults (snd x)) l
  | TStruct fs => forallb (fun f => wf_defaults (f_ty f) &&
      match f_init f with InitNone => true | InitSomeNone => vtyped (f_ty f) (VOpt None) end &&
      match f_fin f with FinReq => true | FinDefault d => vtyped (f_ty f) d end) fs
  end.

(** [p] returns values satisfying [P] and leaves bytes. *)
Definition pgood (p : parser val) (P : val -> Prop) : Prop :=
  forall l r v, bytes_ok l -> p l = Ok (r, v) -> bytes_ok r /\ P v.

Lemma parse_n_typed : forall (p : parser val) P, pgood p P -> forall f n l r vs, bytes_ok l ->
  parse_n f p n l = Ok (r, vs) -> bytes_ok r /\ Forall P vs.
Proof.
  intros p P Hp; induction f as [|f IH]; intros n l r vs Hl E; cbn [parse_n] in E.
  - destruct (n =? 0); [|discriminate]. injection E as <- <-. auto.
  - destruct (n =? 0). { injection E as <- <-. auto. }
    apply obind_ok in E as ([t v] & E1 & E). apply obind_ok in E as ([t' vs'] & E2 & E). injection E as <- <-.
    destruct (Hp _ _ _ Hl E1) as [Ht Hv]. destruct (IH _ _ _ _ Ht E2) as [Hr Hvs]. auto.
Qed.

Definition slot_typed (f : fld vty) (s : slot) : Prop :=
  let '(fd, p, cur) := s in
  fd = unfld f /\ pgood p (fun v => vtyped (f_ty f) v = true) /\
  match cur with Some v => vtyped (f_ty f) v = true | None => True end.

Lemma struct_step_typed : forall fs slots, Forall2 slot_typed fs slots -> forall tag l r slots', bytes_ok l ->
  struct_step slots tag l = SStored (Ok (r, slots')) -> bytes_ok r /\ Forall2 slot_typed fs slots'.
Proof.
  induction 1 as [|f [[fd p] cur] fs slots Hs Hss IH]; intros tag l r slots' Hl E; cbn [struct_step] in E; [discriminate|].
  destruct (f_tag fd =? tag).
  - destruct (slot_free (fd, p, cur)); [|discriminate]. injection E as E.
    apply obind_ok in E as ([t v] & E1 & E). injection E as <- <-.
    destruct Hs as (Hfd & Hp & Hc). destruct (Hp _ _ _ Hl E1) as [Ht Hv]. split; [exact Ht|]. constructor; [|exact Hss].
    split; [exact Hfd|]. split; [exact Hp|exact Hv].
  - destruct (struct_step slots tag l) as [| |o] eqn:Es; try discriminate. injection E as E.
    apply obind_ok in E as ([t ss] & E1 & E). injection E as <- <-. subst o.
    destruct (IH _ _ _ _ Hl Es) as [Ht Hf]. split; [exact Ht|]. constructor; assumption.
Qed.
Lemma struct_loop_typed : forall m fs f n slots l r slots', Forall2 slot_typed fs slots -> bytes_ok l ->
  struct_loop f m n slots l = Ok (r, slots') -> bytes_ok r /\ Forall2 slot_typed fs slots'.
Proof.
  intros m fs; induction f as [|f IH]; intros n slots l r slots' Hs Hl E; cbn [struct_loop] in E.
  - destruct (n =? 0); [|discriminate]. injection E as <- <-. auto.
  - destruct (n =? 0). { injection E as <- <-. auto. }
    apply obind_ok in E as ([t z] & E1 & E). pose proof (parse_vlq_int_psuffix _ _ _ _ Hl E1) as Hps.
    assert (Ht : bytes_ok t). { eapply suffix_bytes_ok; [apply psuffix_suffix; exact Hps|exact Hl]. }
    destruct (struct_step slots z t) as [| |o] eqn:Es; try discriminate. destruct o as [[t2 s2]| |]; try discriminate. cbn [obind] in E.
    destruct (struct_step_typed _ _ Hs _ _ _ _ Ht Es) as [Ht2 Hs2]. eapply IH; eauto.
Qed.
Lemma struct_finish_typed : forall fs slots vs, Forall2 slot_typed fs slots ->
  Forall (fun f => match f_fin f with FinReq => true | FinDefault d => vtyped (f_ty f) d end = true) fs ->
  struct_finish slots = Ok vs ->
  forall2b (fun f x => String.eqb (f_name f) (fst x) && vtyped (f_ty f) (snd x)) fs vs = true.
Proof.
  intros fs slots vs Hf; revert vs. induction Hf as [|f [[fd p] cur] fs slots Hs Hss IH]; intros vs Hd E; cbn [struct_finish] in E.
  - injection E as <-. reflexivity.
  - apply obind_ok in E as (v & E1 & E). apply obind_ok in E as (vs' & E2 & E). injection E as <-.
    inversion Hd; subst. destruct Hs as (-> & Hp & Hc). cbn [forall2b fst snd unfld f_name]. rewrite String.eqb_refl. cbn [andb].
    apply andb_true_iff; split; [|now apply IH].
    destruct cur as [w|]; [injection E1 as <-; exact Hc|]. cbn [unfld f_fin] in E1. destruct (f_fin f); [discriminate|]. injection E1 as <-. assumption.
Qed.

Lemma forallb_firstn_u8 : forall l n, bytes_ok l -> forallb in_u8 (firstn n l) = true.
Proof.
  intros l n Hl. apply forallb_forall. intros x Hx. assert (Hb : byte_ok x).
  { unfold bytes_ok in Hl. rewrite Forall_forall in Hl. apply Hl. rewrite <- (firstn_skipn n l). apply in_or_app. now left. }
  unfold in_u8, byte_ok in *. apply andb_true_iff; split; [apply Z.leb_le|apply Z.ltb_lt]; lia.
Qed.

Lemma vparse_typed : forall m t, wf_defaults t = true -> pgood (vparse m t) (fun v => vtyped t v = true).
Proof.
  intros m; induction t using vty_ind'; intros Hd inp r v Hl E;
  (split; [eapply suffix_bytes_ok; [apply psuffix_suffix; eapply vparse_psuffix; eassumption|exact Hl]|]); cbn [vparse] in E; cbn [wf_defaults] in Hd.
  - apply obind_ok in E as ([t0 z] & E1 & E). destruct (in_ity t z) eqn:Ei; [|discriminate]. injection E as <- <-. exact Ei.
  - apply obind_ok in E as ([t0 b] & E1 & E). injection E as <- <-. cbn [vtyped].
    unfold tagged_blob in E1. apply obind_ok in E1 as (t1 & E1 & E2). apply validate_tag_ok in E1 as ->.
    apply obind_ok in E2 as ([t2 z] & E2 & E3). apply bytes_ok_cons in Hl as [_ Hl].
    pose proof (parse_vlq_int_psuffix _ _ _ _ Hl E2) as Hps. unfold take_bytes in E3. destruct (_ <? _); [discriminate|].
    injection E3 as <- <-. apply forallb_firstn_u8. eapply suffix_bytes_ok; [apply psuffix_suffix; exact Hps|exact Hl].
  - apply obind_ok in E as ([t0 b] & E1 & E). injection E as <- <-. reflexivity.
  - apply obind_ok in E as ([t0 z] & E1 & E). injection E as <- <-. unfold tagged_fourcc in E1.
    apply obind_ok in E1 as (t1 & E1 & E2). apply validate_tag_ok in E1 as ->. apply bytes_ok_cons in Hl as [_ Hl].
    destruct t1 as [|a [|b [|c [|d t1]]]]; try discriminate. cbn [take_u32_be] in E2. injection E2 as <- <-.
    apply bytes_ok_cons in Hl as [Ha Hl]. apply bytes_ok_cons in Hl as [Hb Hl]. apply bytes_ok_cons in Hl as [Hc Hl]. apply bytes_ok_cons in Hl as [Hdd _].
    unfold byte_ok in *. cbn [vtyped]. unfold in_u32, two32. apply andb_true_iff; split; [apply Z.leb_le|apply Z.ltb_lt]; lia.
  - apply obind_ok in E as (t1 & E1 & E). apply validate_tag_ok in E1 as ->. apply obind_ok in E as ([t2 z] & E2 & E).
    apply take_u8_ok in E2 as ->. apply bytes_ok_cons in Hl as [_ Hl]. apply bytes_ok_cons in Hl as [_ Hl].
    destruct (negb (z =? 0)).
    + apply obind_ok in E as ([t3 w] & E3 & E). injection E as <- <-. cbn [vtyped]. eapply IHt; eauto.
    + injection E as <- <-. reflexivity.
  - apply obind_ok in E as (t1 & E1 & E). apply validate_tag_ok in E1 as ->. apply obind_ok in E as ([t2 z] & E2 & E).
    apply obind_ok in E as ([t3 vs] & E3 & E). injection E as <- <-. apply bytes_ok_cons in Hl as [_ Hl].
    pose proof (parse_vlq_int_psuffix _ _ _ _ Hl E2) as Hps.
    cbn [vtyped]. apply forallb_forall. apply Forall_forall.
    eapply (parse_n_typed (vparse m t)); [apply IHt; exact Hd| |exact E3]. eapply suffix_bytes_ok; [apply psuffix_suffix; exact Hps|exact Hl].
  - apply obind_ok in E as (t1 & E1 & E). apply obind_ok in E as ([t2 z] & E2 & E).
    destruct (find_enum l z) as [n|] eqn:Ef; [|discriminate]. injection E as <- <-. apply find_enum_in in Ef.
    cbn [vtyped]. apply existsb_exists. exists (z, n). split; [exact Ef|]. apply String.eqb_refl.
  - apply obind_ok in E as (t1 & E1 & E). apply validate_tag_ok in E1 as ->. apply obind_ok in E as ([t2 z] & E2 & E).
    destruct (find_variant _ z) as [[n p]|] eqn:Ef; [|discriminate]. apply obind_ok in E as ([t3 w] & E3 & E). injection E as <- <-.
    rewrite find_variant_map in Ef. destruct (find_variant l z) as [[n' t']|] eqn:Ef'; [|discriminate]. cbn in Ef. injection Ef as <- <-.
    apply find_variant_in in Ef'. cbn [vtyped]. apply existsb_exists. exists (z, n', t'). split; [exact Ef'|]. cbn [fst snd]. rewrite String.eqb_refl. cbn [andb].
    rewrite Forall_forall in H. rewrite forallb_forall in Hd. apply bytes_ok_cons in Hl as [_ Hl].
    pose proof (parse_vlq_int_psuffix _ _ _ _ Hl E2) as Hps.
    eapply (H _ Ef' (Hd _ Ef')); [|exact E3]. eapply suffix_bytes_ok; [apply psuffix_suffix; exact Hps|exact Hl].
  - unfold parse_struct in E. apply obind_ok in E as (t1 & E1 & E). apply validate_tag_ok in E1 as ->. apply obind_ok in E as ([t2 z] & E2 & E).
    apply obind_ok in E as ([t3 ss] & E3 & E). apply obind_ok in E as (vs & E4 & E). injection E as <- <-.
    apply bytes_ok_cons in Hl as [_ Hl]. pose proof (parse_vlq_int_psuffix _ _ _ _ Hl E2) as Hps.
    assert (Ht2 : bytes_ok t2) by (eapply suffix_bytes_ok; [apply psuffix_suffix; exact Hps|exact Hl]).
    cbn [vtyped]. eapply struct_finish_typed; [| |exact E4].
    + refine (proj2 (struct_loop_typed m l _ _ _ _ _ _ _ Ht2 E3)). clear - H Hd.
      induction H as [|f fs Hf Hfs IH]; [constructor|]. cbn [forallb] in Hd. apply andb_true_iff in Hd as [Hd1 Hd2].
      apply andb_true_iff in Hd1 as [Hd1 _]. apply andb_true_iff in Hd1 as [Hd0 Hd1].
      cbn [map]. constructor; [|exact (IH Hd2)]. cbn. split; [reflexivity|]. split; [exact (Hf Hd0)|].
      destruct (f_init f); [trivial|exact Hd1].
    + clear - Hd. rewrite forallb_forall in Hd. apply Forall_forall. intros f Hf. specialize (Hd f Hf). apply andb_true_iff in Hd as [_ Hd]. exact Hd.
Qed.

(** ** Bit-packed values *)
Fixpoint btyped (t : bty) (v : val) {struct t} : bool :=
  match t, v with
  | BInt o n, VInt z => if Nat.ltb n 64 then (o <=? z) && (z <? o + 2 ^ Z.of_nat n) else in_i64 z
  | BBool, VBool _ => true
  | BByte, VInt z => in_u8 z
  | BFourcc, VBytes l => forallb in_u8 l && Nat.eqb (length l) 4
  | BNull, VNull => true
  | BUnit, VNull => true
  | BOpt t', VOpt None => true
  | BOpt t', VOpt (Some w) => btyped t' w
  | BOptReread t', VOpt None => true
  | BOptReread t', VOpt (Some w) => btyped t' w
  | BArray n t', VList l => forallb (btyped t') l && (Z.of_nat (length l) <? 2 ^ Z.of_nat n)
  | BBlob _, VBytes l | BFixedBlob _, VBytes l | BBitArray _, VBytes l => forallb in_u8 l
  | BBitInt _, VInt z => in_i64 z
  | BEnum _ l, VEnum s => existsb (fun x => String.eqb (snd x) s) l
  | BChoice _ l, VChoice s w => existsb (fun x => String.eqb (snd (fst x)) s && btyped (snd x) w) l
  | BStruct fs, VStruct vs => forall2b (fun f x => String.eqb (fst f) (fst x) && btyped (snd f) (snd x)) fs vs
  | _, _ => false
  end.

Lemma bytes_ok_u8 : forall l, bytes_ok l -> forallb in_u8 l = true.
Proof. intros l Hl. rewrite <- (firstn_all l). now apply forallb_firstn_u8. Qed.
Lemma blob_value_u8 : forall F l, bytes_ok l -> exists l', blob_value F l = VBytes l' /\ forallb in_u8 l' = true.
Proof.
  intros F l Hl. unfold blob_value. destruct l as [|b l].
  - destruct (f_zero F); eexists; split; reflexivity.
  - eexists; split; [reflexivity|]. now apply bytes_ok_u8.
Qed.
Lemma in_i64_as : forall z, in_i64 (as_i64 z) = true.
Proof. intros z. apply in_i64_true, as_i64_range. Qed.

Lemma after_lt' : forall off l, (after off l < 8)%nat.
Proof. intros. apply Nat.mod_upper_bound. discriminate. Qed.

Lemma benc_typed : forall F t off v l, benc F t off v l -> (off < 8)%nat -> no_overflow t = true -> btyped t v = true.
Proof.
  intros F. apply (benc_mind F
    (fun t off v l _ => (off < 8)%nat -> no_overflow t = true -> btyped t v = true)
    (fun t off vs l _ => (off < 8)%nat -> no_overflow t = true -> forallb (btyped t) vs = true)
    (fun fs off vs l _ => (off < 8)%nat -> forallb (fun x => no_overflow (snd x)) fs = true ->
       forall2b (fun f x => String.eqb (fst f) (fst x) && btyped (snd f) (snd x)) fs vs = true)); intros;
    cbn [btyped forallb]; try reflexivity; auto using in_i64_as.
  - rename H into Ho, H0 into Hn. pose proof (be_value_bound l off Ho) as B. cbn [no_overflow] in Hn. rewrite e in *.
    destruct (Nat.ltb n 64); [|apply in_i64_as]. apply andb_true_iff in Hn as [H1 H2]. apply Z.leb_le in H1, H2.
    rewrite as_i64_id by lia. apply andb_true_iff; split; [apply Z.leb_le|apply Z.ltb_lt]; lia.
  - pose proof (be_value_bound l off H) as B. rewrite e in B. unfold in_u8. apply andb_true_iff; split; [apply Z.leb_le|apply Z.ltb_lt]; cbn in B; lia.
  - apply andb_true_iff; split; [apply bytes_ok_u8, be_bytes_ok; assumption|].
    assert (El : length (be_bytes off l) = 4%nat).
    { do 33 (destruct l as [|? l]; [try discriminate|]); try discriminate. reflexivity. }
    rewrite El. reflexivity.
  - apply H; [apply after_lt'|assumption].
  - apply H; [apply after_lt'|assumption].
  - apply andb_true_iff; split; [apply H; [apply after_lt'|assumption]|].
    pose proof (be_value_bound ln off H0) as B. rewrite e, e0 in B. apply Z.ltb_lt; lia.
  - destruct (blob_value_u8 F l b) as (l' & -> & E). exact E.
  - destruct (blob_value_u8 F l b) as (l' & -> & E). exact E.
  - destruct (blob_value_u8 F (be_bytes (after off ln) l)) as (l' & -> & E); [apply be_bytes_ok, after_lt'|]. exact E.
  - apply existsb_exists. exists (be_value off l, s). split; [assumption|]. apply String.eqb_refl.
  - apply existsb_exists. exists (be_value off ln, s, t). split; [assumption|]. cbn [fst snd]. rewrite String.eqb_refl.
    apply H; [apply after_lt'|]. cbn [no_overflow] in H1. rewrite forallb_forall in H1. exact (H1 _ i).
  - apply andb_true_iff; split; [apply H; assumption|apply H0; [apply after_lt'|assumption]].
  - cbn [forall2b fst snd]. rewrite String.eqb_refl. cbn [forallb snd] in H2. apply andb_true_iff in H2 as [H2 H3].
    apply andb_true_iff; split; [apply H; assumption|apply H0; [apply after_lt'|assumption]].
Qed.

Lemma bparse_typed : forall m t c c' v, wf_bty t = true -> no_overflow t = true -> cursor_ok c ->
  bparse m t c = Ok (c', v) -> btyped t v = true.
Proof.
  intros m t c c' v Hwf Hn Hc E. destruct (bparse_sound m t Hwf c c' v Hc E) as (l & _ & _ & B).
  eapply benc_typed; [exact B| |exact Hn]. apply Hc.
Qed.
