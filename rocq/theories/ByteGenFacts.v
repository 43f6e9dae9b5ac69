(** * Facts about the byte-aligned half of the generator *)
From Verif Require Import Base Vlq VlqSpec VlqProofs Types Versioned VersionedSpec VersionedPrim VlqExact VersionedProofs VersionedEncode Generator ByteGen ByteGenSpec.
#[local] Open Scope string_scope.
#[local] Open Scope Z_scope.
#[local] Open Scope list_scope.

(** Decoders that are descriptors. *)
Fixpoint code_of (t : vty) : ycode :=
  match t with
  | TInt it => CInt it
  | TBlob => CBlob
  | TBool => CBool
  | TFourcc => CFourcc
  | TOpt t' => COpt (code_of t')
  | TArray t' => CArray (code_of t')
  | TEnum l => CEnum l
  | TChoice tag l => CChoice tag (map (fun x => (fst x, code_of (snd x))) l)
  | TStruct fs => CStruct (map (fun f => mkfld (f_name f) (f_tag f) (f_dup f) (f_init f) (f_fin f) (code_of (f_ty f))) fs)
  end.

Lemma parse_n_ext : forall (p q : parser val), (forall l, p l = q l) -> forall f n l, parse_n f p n l = parse_n f q n l.
Proof.
  intros p q E f; induction f as [|f IH]; intros n l; cbn [parse_n]; destruct (n =? 0); auto.
  rewrite E. destruct (q l) as [[r v]| |]; cbn [obind]; auto. rewrite IH. reflexivity.
Qed.

Definition slot_same (s s' : slot) : Prop := fst (fst s) = fst (fst s') /\ snd s = snd s' /\ forall l, snd (fst s) l = snd (fst s') l.

Definition step_same (a b : step_res) : Prop :=
  match a, b with
  | SUnknown, SUnknown => True
  | SDuplicate n t, SDuplicate n' t' => n = n' /\ t = t'
  | SStored (Ok (r, ss)), SStored (Ok (r', ss')) => r = r' /\ Forall2 slot_same ss ss'
  | SStored (Err e), SStored (Err e') => e = e'
  | SStored Panic, SStored Panic => True
  | _, _ => False
  end.

Lemma step_ext : forall ss ss', Forall2 slot_same ss ss' -> forall tag l, step_same (struct_step ss tag l) (struct_step ss' tag l).
Proof.
  intros ss ss' Hs; induction Hs as [|[[fd p] cur] [[fd' p'] cur'] ss ss' (H1 & H2 & H3) Hr IH]; intros tag l; [exact Logic.I|].
  cbn [fst snd] in H1, H2, H3. subst fd' cur'. cbn [struct_step]. destruct (f_tag fd =? tag).
  - change (slot_free (fd, p', cur)) with (slot_free (fd, p, cur)). destruct (slot_free (fd, p, cur)); [|split; reflexivity].
    cbn [step_same]. rewrite H3. destruct (p' l) as [[r v]| |]; cbn [obind]; auto. split; [reflexivity|]. constructor; [|assumption].
    repeat split; auto.
  - specialize (IH tag l). destruct (struct_step ss tag l) as [| |[[r x]| |]], (struct_step ss' tag l) as [| |[[r' x']| |]]; cbn in IH |- *; auto; try contradiction.
    destruct IH as [-> IH]. split; [reflexivity|]. constructor; [|assumption]. repeat split; auto.
Qed.

Lemma loop_ext : forall m f n ss ss' l, Forall2 slot_same ss ss' ->
  match struct_loop f m n ss l, struct_loop f m n ss' l with
  | Ok (r, x), Ok (r', x') => r = r' /\ Forall2 slot_same x x'
  | Err e, Err e' => e = e'
  | Panic, Panic => True
  | _, _ => False
  end.
Proof.
  intros m; induction f as [|f IH]; intros n ss ss' l Hs; cbn [struct_loop]; destruct (n =? 0); auto.
  destruct (parse_vlq_int m l) as [[r tag]| |]; cbn [obind]; auto.
  pose proof (step_ext ss ss' Hs tag r) as S. destruct (struct_step ss tag r) as [| |[[r1 x]| |]], (struct_step ss' tag r) as [| |[[r1' x']| |]]; cbn in S; try contradiction; cbn [obind]; auto; try congruence.
  - destruct S as [-> ->]. reflexivity.
  - destruct S as [-> S]. apply IH; assumption.
Qed.

Lemma finish_ext : forall ss ss', Forall2 slot_same ss ss' -> struct_finish ss = struct_finish ss'.
Proof.
  intros ss ss' Hs; induction Hs as [|[[fd p] cur] [[fd' p'] cur'] ss ss' (H1 & H2 & H3) Hr IH]; [reflexivity|].
  cbn [fst snd] in H1, H2. subst. cbn [struct_finish]. rewrite IH. reflexivity.
Qed.

Lemma parse_struct_ext : forall m ss ss' l, Forall2 slot_same ss ss' -> parse_struct m ss l = parse_struct m ss' l.
Proof.
  intros m ss ss' l Hs. unfold parse_struct. destruct (validate_tag STRUCT_TAG l) as [r| |]; cbn [obind]; auto.
  destruct (parse_vlq_int m r) as [[r1 n]| |]; cbn [obind]; auto.
  pose proof (loop_ext m (S (length r1)) (as_u64 n) ss ss' r1 Hs) as L.
  destruct (struct_loop (S (length r1)) m (as_u64 n) ss r1) as [[r2 x]| |], (struct_loop (S (length r1)) m (as_u64 n) ss' r1) as [[r2' x']| |]; try contradiction; cbn [obind]; auto; try congruence.
  - destruct L as [-> L]. rewrite (finish_ext _ _ L). reflexivity.
Qed.

Lemma yrun_code_of : forall m t l, yrun m (code_of t) l = vparse m t l.
Proof.
  intros m t; induction t as [it| | | |t IH|t IH|vs|tag vs IH|fs IH] using vty_ind'; intros l; cbn [code_of yrun vparse]; try reflexivity.
  - destruct (validate_tag OPT_TAG l) as [r| |]; cbn [obind]; auto. destruct (take_u8 r) as [[r1 b]| |]; cbn [obind]; auto.
    rewrite IH. reflexivity.
  - destruct (validate_tag ARRAY_TAG l) as [r| |]; cbn [obind]; auto. destruct (parse_vlq_int m r) as [[r1 n]| |]; cbn [obind]; auto.
    rewrite (parse_n_ext _ _ IH). reflexivity.
  - destruct (validate_tag tag l) as [r| |]; cbn [obind]; auto. destruct (parse_vlq_int m r) as [[r1 z]| |]; cbn [obind]; auto.
    rewrite map_map. cbn [fst snd].
    assert (E : match find_variant (map (fun x => (fst x, yrun m (code_of (snd x)))) vs) z, find_variant (map (fun x => (fst x, vparse m (snd x))) vs) z with
                | Some (n, p), Some (n', p') => n = n' /\ forall l, p l = p' l | None, None => True | _, _ => False end).
    { clear - IH. induction vs as [|[[z' n] t] vs IHv]; [exact Logic.I|]. inversion IH as [|a b Ha Hb]; subst. cbn [map fst snd find_variant].
      destruct (z' =? z); [split; [reflexivity|exact Ha]|]. apply IHv; assumption. }
    destruct (find_variant (map (fun x => (fst x, yrun m (code_of (snd x)))) vs) z) as [[n p]|], (find_variant (map (fun x => (fst x, vparse m (snd x))) vs) z) as [[n' p']|]; try contradiction; auto.
    destruct E as [-> E]. rewrite E. reflexivity.
  - apply parse_struct_ext. rewrite map_map. cbn [f_ty]. clear - IH. induction fs as [|f fs IHf]; cbn [map]; constructor; inversion IH; subst; auto.
    split; [reflexivity|]. split; [reflexivity|]. cbn [fst snd init_slot]. assumption.
Qed.

Fixpoint ty_of (k : ycode) : vty :=
  match k with
  | CInt it => TInt it
  | CBool => TBool
  | CFourcc => TFourcc
  | COpt k' => TOpt (ty_of k')
  | CArray k' => TArray (ty_of k')
  | CEnum l => TEnum l
  | CChoice tag l => TChoice tag (map (fun x => (fst x, ty_of (snd x))) l)
  | CStruct fs => TStruct (map (fun f => mkfld (f_name f) (f_tag f) (f_dup f) (f_init f) (f_fin f) (ty_of (f_ty f))) fs)
  | CBlob | CUnit | CBare _ => TBlob
  end.

Lemma ty_of_code_of : forall t, ty_of (code_of t) = t.
Proof.
  intros t; induction t as [it| | | |t IH|t IH|vs|tag vs IH|fs IH] using vty_ind'; cbn [code_of ty_of]; f_equal; auto.
  - rewrite map_map. cbn [fst snd]. induction IH as [|[zn t] vs Ht _ IHv]; [reflexivity|]. cbn [map fst snd] in *. rewrite Ht, IHv. reflexivity.
  - rewrite map_map. cbn [f_name f_tag f_dup f_init f_fin f_ty]. induction IH as [|[xn xt xd xi xf xy] fs Ht _ IHv]; [reflexivity|]. cbn [map f_name f_tag f_dup f_init f_fin f_ty] in *. rewrite Ht, IHv. reflexivity.
Qed.

(** ** What names are converted to *)

Lemma int_morph : forall x, In x int_names -> exists it, from_nnet_name (fst (fst x)) = Ok (mkmorph (PInt it) false false) /\
  forall z, - two63 < z < two63 -> (snd (fst x) <= z <= snd x <-> in_ity it z = true).
Proof.
  intros x H. repeat (destruct H as [<-|H]; [eexists; split; [vm_compute; reflexivity|];
    intros z Hr; cbn [fst snd]; cbn [in_ity]; unfold in_u8, in_u32, in_u64, in_i32, in_i64, two32, two63, two64 in *; lia|]). contradiction H.
Qed.

Lemma among_in : forall n l, among n l = true -> In n l.
Proof. intros n l H. apply existsb_exists in H. destruct H as (x & Hx & E). apply String.eqb_eq in E. subst. exact Hx. Qed.

Lemma text_morph : forall n, among n text_names = true -> from_nnet_name n = Ok (mkmorph PBlob false false).
Proof. intros n H. apply among_in in H. repeat (destruct H as [<-|H]; [vm_compute; reflexivity|]). contradiction H. Qed.

Lemma texts_morph : forall n, among n text_list_names = true -> from_nnet_name n = Ok (mkmorph PBlob true false).
Proof. intros n H. apply among_in in H. repeat (destruct H as [<-|H]; [vm_compute; reflexivity|]). contradiction H. Qed.

Lemma own_morph : forall n, among n own_names = true -> from_nnet_name n = Ok (mkmorph (PNamed n) false false).
Proof. intros n H. apply among_in in H. repeat (destruct H as [<-|H]; [vm_compute; reflexivity|]). contradiction H. Qed.

Lemma yenc_resolved : forall t v bs, yenc t v bs -> yenc (resolved t) v bs.
Proof.
  intros t; induction t; intros v bs H; cbn [resolved]; auto. inversion H as [| |  | | | | | |n' t' v' bs' H'| | | | |]; subst; auto.
  destruct H0 as [E|[E|[E|[]]]]; discriminate.
Qed.

Lemma yenc_text : forall t v bs, is_text t = true -> yenc t v bs -> venc true TBlob v bs.
Proof.
  intros t v bs Ht H. apply yenc_resolved in H. unfold is_text in Ht. revert Ht. generalize (resolved t) v bs H.
  clear t v bs H. intros t v bs H. destruct H; intros Ht; try discriminate Ht. constructor; assumption.
Qed.

Lemma yenc_texts : forall t v bs, is_texts t = true -> yenc t v bs -> venc true (TArray TBlob) v bs.
Proof.
  intros t v bs Ht H. apply yenc_resolved in H. unfold is_texts in Ht. revert Ht. generalize (resolved t) v bs H.
  clear t v bs H. intros t v bs H. destruct H as [| t l g Hi| | | | | |dyn t g vs bss Hg Hf| | | | | |]; intros Ht; try discriminate Ht.
  - destruct Hi as [<-|[<-|[<-|[]]]]; discriminate.
  - constructor; [assumption|]. eapply Forall2_impl'; [|exact Hf]. intros a b Hab. exact (yenc_text t a b Ht Hab).
Qed.

Lemma int_names_range : forall x, In x int_names -> - two63 < snd (fst x) /\ snd x < two63.
Proof. intros x H. repeat (destruct H as [<-|H]; [split; reflexivity|]). contradiction H. Qed.

Lemma vlq_number_rep : forall z g, - two63 < z < two63 -> vlq_number z g -> vlq_rep true z g.
Proof.
  intros z g Hr (H1 & H2 & H3 & H4). split; [assumption|]. split; [assumption|]. split; [assumption|]. split; [|assumption].
  rewrite vlq_value_hd in H4. pose proof (vlq_magnitude_nonneg g). destruct (Z.odd (hd 0 g)); lia.
Qed.

Lemma int_named_ok : forall n t, int_named n t = true ->
  exists it, from_nnet_name n = Ok (mkmorph (PInt it) false false) /\ forall v bs, yenc t v bs -> venc true (TInt it) v bs.
Proof.
  intros n t Ht. unfold int_named in Ht. destruct (resolved t) as [lo hi| | | | | | | | | | | | | |] eqn:Er; try discriminate Ht.
  apply existsb_exists in Ht. destruct Ht as (x & Hx & E). apply andb_true_iff in E. destruct E as [E E3]. apply andb_true_iff in E. destruct E as [E1 E2].
  apply String.eqb_eq in E1. subst n. destruct (int_morph x Hx) as (it & Em & Ei). exists it. split; [exact Em|].
  intros v bs H. apply yenc_resolved in H. rewrite Er in H. inversion H as [lo' hi' z g Hz Hg|t' l g Hi| | | | | | | | | | | |]; subst.
  - assert (Hr : - two63 < z < two63) by (pose proof (int_names_range x Hx); lia).
    constructor; [apply Ei; [exact Hr|lia]|]. apply vlq_number_rep; assumption.
  - destruct Hi as [E|[E|[E|[]]]]; discriminate.
Qed.

(** ** Sizes *)

Fixpoint ysize (t : ytype) : nat :=
  match t with
  | YArray _ t' | YOpt t' | YUser _ t' => S (ysize t')
  | YEvents vs => S (fold_right (fun x n => match snd x with Some t' => ysize t' | None => 0%nat end + n)%nat 0%nat vs)
  | YChoice vs => S (fold_right (fun x n => ysize (snd x) + n)%nat 0%nat vs)
  | YStruct _ fs => S (fold_right (fun x n => ysize (snd x) + n)%nat 0%nat fs)
  | _ => 1%nat
  end.

Lemma fold_in : forall A (f : A -> nat) l x, In x l -> (f x <= fold_right (fun y n => f y + n) 0 l)%nat.
Proof. intros A f l x; induction l as [|y l IH]; intros H; [contradiction|]. destruct H as [->|H]; cbn [fold_right]; [lia|]. specialize (IH H). lia. Qed.

Definition written_ok (t : ytype) : Prop :=
  exists k, ygen t = Ok (code_of k) /\ wf_vty k = true /\ forall v bs, yenc t v bs -> venc true k v bs.
Definition below (t : ytype) : Prop := forall t', (ysize t' < ysize t)%nat -> yplain t' = true -> written_ok t'.

Lemma yenc_user_inv : forall n t v bs, yenc (YUser n t) v bs -> yenc t v bs.
Proof. intros n t v bs H. inversion H as [|t' l g Hi| | | | | | |n' t' v' bs' H'| | | | |]; subst; [|assumption]. destruct Hi as [E|[E|[E|[]]]]; discriminate. Qed.

Lemma one_ok : forall t, below t -> plain_one yplain t = true ->
  exists k, convert ygen t = Ok (code_of k, false, false) /\ wf_vty k = true /\ forall v bs, yenc t v bs -> venc true k v bs.
Proof.
  intros t Hb H. destruct t as [| | | | | | | | | |n t| | | |]; try discriminate H.
  - exists TBlob. split; [reflexivity|]. split; [reflexivity|]. intros v bs. apply yenc_text. reflexivity.
  - exists TBlob. split; [reflexivity|]. split; [reflexivity|]. intros v bs. apply yenc_text. reflexivity.
  - exists TBool. split; [reflexivity|]. split; [reflexivity|]. intros v bs He. inversion He as [|t' l g Hi| | | | | | | | | | | |]; subst; [|constructor; assumption]. destruct Hi as [E|[E|[E|[]]]]; discriminate.
  - exists TFourcc. split; [reflexivity|]. split; [reflexivity|]. intros v bs He. inversion He as [|t' l g Hi| | | | | | | | | | | |]; subst; [|constructor; assumption]. destruct Hi as [E|[E|[E|[]]]]; discriminate.
  - cbn [plain_one] in H. unfold plain_named in H. apply orb_true_iff in H. destruct H as [H|H]; [apply orb_true_iff in H; destruct H as [H|H]|].
    + destruct (int_named_ok n t H) as (it & Em & He). exists (TInt it). unfold convert. cbn [type_name]. rewrite Em. cbn [obind mo_parser mo_vec mo_opt parser_code].
      split; [reflexivity|]. split; [reflexivity|]. intros v bs Hv. apply He. exact (yenc_user_inv _ _ _ _ Hv).
    + apply andb_true_iff in H. destruct H as [Hn Ht]. exists TBlob. unfold convert. cbn [type_name]. rewrite (text_morph n Hn). cbn [obind mo_parser mo_vec mo_opt parser_code].
      split; [reflexivity|]. split; [reflexivity|]. intros v bs Hv. apply (yenc_text t); [assumption|]. exact (yenc_user_inv _ _ _ _ Hv).
    + apply andb_true_iff in H. destruct H as [Hn Ht]. destruct (Hb t) as (k & Eg & Hw & He); [cbn [ysize]; lia|assumption|].
      exists k. unfold convert. cbn [type_name]. rewrite (own_morph n Hn). cbn [obind mo_parser mo_vec mo_opt parser_code named_in fst snd].
      rewrite String.eqb_refl, Eg. cbn [obind]. split; [reflexivity|]. split; [assumption|]. intros v bs Hv. apply He. exact (yenc_user_inv _ _ _ _ Hv).
Qed.

Lemma array_enc : forall dyn e k v bs, (forall v bs, yenc e v bs -> venc true k v bs) -> yenc (YArray dyn e) v bs -> venc true (TArray k) v bs.
Proof.
  intros dyn e k v bs He H. inversion H as [|t' l g Hi| | | | | |d' t' g vs bss Hg Hf| | | | | |]; subst.
  - destruct Hi as [E|[E|[E|[]]]]; discriminate.
  - constructor; [assumption|]. eapply Forall2_impl'; [|exact Hf]. exact He.
Qed.

Lemma many_ok : forall t, below t -> plain_many yplain t = true ->
  exists k, wf_vty k = true /\ (forall v bs, yenc t v bs -> venc true (TArray k) v bs) /\
    match t with YArray false e => element_code ygen e = Ok (code_of k) | _ => convert ygen t = Ok (code_of k, true, false) end.
Proof.
  intros t Hb H. destruct t as [| | | | | | | |dyn e| |n t| | | |]; try discriminate H.
  - cbn [plain_many] in H. destruct dyn; [discriminate|]. destruct e as [| | | | | | | | | |n t| | | |]; try discriminate H.
    destruct (one_ok (YUser n t)) as (k & Ec & Hw & He); [intros t' Ht'; apply Hb; cbn [ysize] in *; lia|exact H|].
    exists k. split; [assumption|]. split; [intros v bs; apply array_enc; assumption|]. cbn [element_code]. rewrite Ec. reflexivity.
  - cbn [plain_many] in H. apply orb_true_iff in H. destruct H as [H|H].
    + apply andb_true_iff in H. destruct H as [Hn Ht]. exists TBlob. split; [reflexivity|].
      split; [intros v bs Hv; apply (yenc_texts t); [assumption|]; exact (yenc_user_inv _ _ _ _ Hv)|].
      unfold convert. cbn [type_name]. rewrite (texts_morph n Hn). reflexivity.
    + apply andb_true_iff in H. destruct H as [Hn Ht]. apply String.eqb_eq in Hn. subst n.
      destruct t as [| | | | | | | |dyn e| | | | | |]; try discriminate Ht. destruct e as [| | | | | | | | | |n' e| | | |]; try discriminate Ht.
      apply andb_true_iff in Ht. destruct Ht as [Hn Ht]. apply String.eqb_eq in Hn. subst n'.
      destruct (Hb e) as (k & Eg & Hw & He); [cbn [ysize]; lia|assumption|].
      exists k. split; [assumption|]. split.
      * intros v bs Hv. apply yenc_user_inv in Hv. apply (array_enc dyn (YUser "NNet.Game.SPlayerDetails" e)); [|assumption].
        intros v' bs' Hv'. apply He. exact (yenc_user_inv _ _ _ _ Hv').
      * unfold convert. cbn [type_name]. change (from_nnet_name "NNet.Game.CPlayerDetailsArray") with (Ok (mkmorph (PNamed "NNet.Game.SPlayerDetails") true false)).
        cbn [obind mo_parser mo_vec mo_opt parser_code named_in fst snd]. rewrite String.eqb_refl, Eg. reflexivity.
Qed.

Definition starts_as (t : ytype) : finit := match t with YOpt _ => InitSomeNone | _ => InitNone end.

Lemma opt_enc : forall e k v bs, (forall v bs, yenc e v bs -> venc true k v bs) -> yenc (YOpt e) v bs -> venc true (TOpt k) v bs.
Proof.
  intros e k v bs He H. inversion H as [|t' l g Hi| | | | |t' x v' bs' Hx Hn Hv| | | | | | |]; subst.
  - destruct Hi as [E|[E|[E|[]]]]; discriminate.
  - constructor.
  - constructor; auto.
Qed.

Lemma field_ok : forall t, below t -> plain_field yplain t = true ->
  exists k, field_code ygen t = Ok (starts_as t, code_of k) /\ wf_vty k = true /\ forall v bs, yenc t v bs -> venc true k v bs.
Proof.
  intros t Hb H. assert (D : (exists e, t = YOpt e) \/ (forall e, t <> YOpt e)) by (destruct t; [right|right|right|right|right|right|right|right|right|left; eauto|right|right|right|right|right]; discriminate).
  destruct D as [[e ->]|D].
  - assert (Hb' : below e) by (intros t' Ht'; apply Hb; cbn [ysize]; lia). cbn [plain_field] in H. apply orb_true_iff in H. destruct H as [H|H].
    + destruct (one_ok e Hb' H) as (k & Ec & Hw & He). exists (TOpt k).
      split; [|split; [exact Hw|intros v bs; apply opt_enc; assumption]].
      destruct e; try discriminate H; cbn [field_code]; rewrite Ec; reflexivity.
    + destruct (many_ok e Hb' H) as (k & Hw & He & Ec). exists (TOpt (TArray k)).
      split; [|split; [exact Hw|intros v bs; apply opt_enc; assumption]].
      destruct e as [| | | | | | | |[]| | | | | |]; try discriminate H; cbn [field_code]; rewrite Ec; reflexivity.
  - assert (H' : plain_one yplain t || plain_many yplain t = true) by (destruct t; try exact H; exfalso; eapply D; reflexivity).
    clear H. apply orb_true_iff in H'. destruct H' as [H|H].
    + destruct (one_ok t Hb H) as (k & Ec & Hw & He). exists k. split; [|split; assumption].
      destruct t; try discriminate H; cbn [field_code]; rewrite Ec; reflexivity.
    + destruct (many_ok t Hb H) as (k & Hw & He & Ec). exists (TArray k). split; [|split; assumption].
      destruct t as [| | | | | | | |[]| | | | | |]; try discriminate H; cbn [field_code]; rewrite Ec; reflexivity.
Qed.

(** ** Declarations *)

Definition ty_in (r : outcome ycode) : vty := match r with Ok k => ty_of k | _ => TBlob end.
Definition good (r : outcome ycode) (t : ytype) : Prop :=
  r = Ok (code_of (ty_in r)) /\ wf_vty (ty_in r) = true /\ forall v bs, yenc t v bs -> venc true (ty_in r) v bs.

Lemma good_intro : forall r t k, r = Ok (code_of k) -> wf_vty k = true -> (forall v bs, yenc t v bs -> venc true k v bs) -> good r t.
Proof. intros r t k -> Hw He. unfold good, ty_in. rewrite ty_of_code_of. auto. Qed.

Lemma good_decl : forall t, written_ok t -> good (ygen t) t.
Proof. intros t (k & E & Hw & He). exact (good_intro _ _ k E Hw He). Qed.

Lemma good_variant : forall t, below t -> plain_one yplain t = true -> good (variant_code ygen t) t.
Proof.
  intros t Hb H. destruct (one_ok t Hb H) as (k & Ec & Hw & He). apply (good_intro _ _ k); auto.
  destruct t; try discriminate H; cbn [variant_code]; rewrite Ec; reflexivity.
Qed.

Definition field_res (t : ytype) : outcome ycode := do (_, k) <- field_code ygen t; Ok k.

Lemma good_field : forall t, below t -> plain_field yplain t = true ->
  good (field_res t) t /\ field_code ygen t = Ok (starts_as t, code_of (ty_in (field_res t))).
Proof.
  intros t Hb H. destruct (field_ok t Hb H) as (k & Ec & Hw & He). unfold field_res. rewrite Ec. cbn [obind]. split.
  - apply (good_intro _ _ k); auto.
  - unfold ty_in. rewrite ty_of_code_of. reflexivity.
Qed.

(** The descriptor of a field. *)
Definition fld_of (f : string * option Z * ytype) : fld vty :=
  let tag := match snd (fst f) with Some z => z | None => 0 end in
  mkfld (fst (fst f)) tag tag (starts_as (snd f)) FinReq (ty_in (field_res (snd f))).

Definition events_code (vs : list (Z * string * option ytype)) : outcome (list (Z * string * ycode)) :=
  (fix go (l : list (Z * string * option ytype)) : outcome (list (Z * string * ycode)) :=
    match l with
    | [] => Ok []
    | (n, o) :: l' =>
        do k <- match o with Some t' => ygen t' | None => Ok CUnit end;
        do ks <- go l'; Ok ((n, k) :: ks)
    end) vs.
Definition choice_code (vs : list (Z * string * ytype)) : outcome (list (Z * string * ycode)) :=
  (fix go (l : list (Z * string * ytype)) : outcome (list (Z * string * ycode)) :=
    match l with
    | [] => Ok []
    | (n, t') :: l' =>
        match t' with
        | YNull => go l'
        | _ => do k <- variant_code ygen t'; do ks <- go l'; Ok ((n, k) :: ks)
        end
    end) vs.
Definition fields_code (fs : list (string * option Z * ytype)) : outcome (list (fld ycode)) :=
  (fix go (l : list (string * option Z * ytype)) : outcome (list (fld ycode)) :=
    match l with
    | [] => Ok []
    | (n, tag, t') :: l' =>
        do f <- tagged_field n tag (field_code ygen t');
        do ks <- go l'; Ok (f :: ks)
    end) fs.

Definition event_ty (o : option ytype) : vty := match o with Some t => ty_in (ygen t) | None => TBlob end.

Lemma events_code_ok : forall vs, Forall (fun x => exists t, snd x = Some t /\ good (ygen t) t) vs ->
  events_code vs = Ok (map (fun x => (fst x, code_of (snd x))) (map (fun x => (fst x, event_ty (snd x))) vs)).
Proof.
  intros vs Hs; induction Hs as [|[n o] vs (t & Et & Hg) Hs IH]; [reflexivity|].
  cbn [snd] in Et. subst o. unfold events_code in *. destruct Hg as (Hg & _).
  cbn [map fst snd event_ty]. rewrite IH. destruct (ygen t) as [k| |]; try discriminate. cbn [obind ty_in]. cbn [ty_in] in Hg.
  assert (E : k = code_of (ty_of k)) by congruence. rewrite <- E. reflexivity.
Qed.

Lemma choice_code_ok : forall vs, Forall (fun x => snd x <> YNull /\ good (variant_code ygen (snd x)) (snd x)) vs ->
  choice_code vs = Ok (map (fun x => (fst x, code_of (snd x))) (map (fun x => (fst x, ty_in (variant_code ygen (snd x)))) vs)).
Proof.
  intros vs Hs; induction Hs as [|[n t] vs (Hn & Hg) Hs IH]; [reflexivity|].
  cbn [snd] in Hn, Hg. destruct Hg as (Hg & _). unfold choice_code in *. cbn [map fst snd].
  set (r := variant_code ygen t) in *. 
  transitivity (do k <- r; do ks <- Ok (map (fun x : Z * string * vty => (fst x, code_of (snd x))) (map (fun x : Z * string * ytype => (fst x, ty_in (variant_code ygen (snd x)))) vs)); Ok ((n, k) :: ks)).
  - destruct t; try (exfalso; apply Hn; reflexivity); fold r; rewrite <- IH; reflexivity.
  - destruct r as [k| |]; try discriminate. cbn [obind ty_in]. cbn [ty_in] in Hg.
    assert (E : k = code_of (ty_of k)) by congruence. rewrite <- E. reflexivity.
Qed.

Lemma fields_code_ok : forall fs, Forall (fun f => (exists z, snd (fst f) = Some z) /\
    field_code ygen (snd f) = Ok (starts_as (snd f), code_of (ty_in (field_res (snd f))))) fs ->
  fields_code fs = Ok (map (fun f => mkfld (f_name f) (f_tag f) (f_dup f) (f_init f) (f_fin f) (code_of (f_ty f))) (map fld_of fs)).
Proof.
  intros fs Hs; induction Hs as [|[[n o] t] fs ((z & Ez) & Ef) Hs IH]; [reflexivity|].
  cbn [fst snd] in Ez, Ef. subst o. unfold fields_code in *. rewrite Ef, IH.
  cbn [map]. unfold fld_of at 2. cbn [fst snd tagged_field obind f_name f_tag f_dup f_init f_fin f_ty]. reflexivity.
Qed.

Definition w_of (w : ywritten) : written := mkw (fld_of (yw_fld w)) (yw_tag w) (yw_val w) (yw_bytes w).

Lemma fld_inj : forall fs, NoDup (map (fun f : string * option Z * ytype => match snd (fst f) with Some z => z | None => 0 end) fs) ->
  forall f g, In f fs -> In g fs -> f_tag (fld_of f) = f_tag (fld_of g) -> f = g.
Proof.
  induction fs as [|x fs IH]; intros Hnd f g Hf Hg E; [contradiction|].
  cbn [map] in Hnd. inversion Hnd as [|a b Ha Hb]; subst. destruct Hf as [->|Hf], Hg as [->|Hg].
  - reflexivity.
  - exfalso. apply Ha. cbn [fld_of f_tag] in E. rewrite E. apply (in_map (fun f : string * option Z * ytype => match snd (fst f) with Some z => z | None => 0 end)). assumption.
  - exfalso. apply Ha. cbn [fld_of f_tag] in E. rewrite <- E. apply (in_map (fun f : string * option Z * ytype => match snd (fst f) with Some z => z | None => 0 end)). assumption.
  - apply IH; assumption.
Qed.

Lemma map_NoDup_inj : forall A B (f : A -> B) l, (forall x y, In x l -> In y l -> f x = f y -> x = y) -> NoDup l -> NoDup (map f l).
Proof.
  intros A B f l; induction l as [|x l IH]; intros Hi Hn; cbn [map]; [constructor|]. inversion Hn as [|a b Ha Hb]; subst. constructor.
  - intros Hin. apply in_map_iff in Hin. destruct Hin as (y & E & Hy). apply Ha. rewrite (Hi x y); auto; [left; reflexivity|right; assumption].
  - apply IH; [|assumption]. intros a b H1 H2. apply Hi; right; assumption.
Qed.

Lemma struct_enc : forall consts fs v bs,
  NoDup (map (fun f : string * option Z * ytype => match snd (fst f) with Some z => z | None => 0 end) fs) ->
  (forall f, In f fs -> forall v bs, yenc (snd f) v bs -> venc true (f_ty (fld_of f)) v bs) ->
  yenc (YStruct consts fs) v bs -> venc true (TStruct (map fld_of fs)) v bs.
Proof.
  intros consts fs v bs Hnd He H. inversion H as [|t' l g Hi| | | | | | | | | | | |consts' fs' ws g vals Hg Hws Hn Hv]; subst.
  { destruct Hi as [E|[E|[E|[]]]]; discriminate. }
  rewrite Forall_forall in Hws.
  assert (Hinj : forall w w', In w ws -> In w' ws -> f_tag (fld_of (yw_fld w)) = f_tag (fld_of (yw_fld w')) -> yw_fld w = yw_fld w').
  { intros w w' Hw Hw' E. apply (fld_inj fs Hnd); [apply (Hws w Hw)|apply (Hws w' Hw')|exact E]. }
  assert (Hnt : NoDup (map (fun w => f_tag (w_fld w)) (map w_of ws))).
  { rewrite map_map. cbn [w_of w_fld]. rewrite <- (map_map yw_fld (fun f => f_tag (fld_of f))). apply map_NoDup_inj; [|exact Hn].
    intros x y Hx Hy E. apply in_map_iff in Hx. destruct Hx as (w & <- & Hw). apply in_map_iff in Hy. destruct Hy as (w' & <- & Hw'). apply Hinj; assumption. }
  replace (concat (map (fun w => yw_tag w ++ yw_bytes w) ws)) with (concat (map (fun w => w_tag w ++ w_bytes w) (map w_of ws)))
    by (rewrite map_map; reflexivity).
  constructor.
  - rewrite map_length. exact Hg.
  - apply Forall_forall. intros w' Hw'. apply in_map_iff in Hw'. destruct Hw' as (w & <- & Hw). destruct (Hws w Hw) as (Hin & (z & Ez & Hz) & Hb).
    cbn [w_of w_fld w_tag w_val w_bytes]. split; [apply in_map; assumption|]. split; [|apply He; assumption].
    cbn [fld_of f_tag]. rewrite Ez. exact Hz.
  - exact Hnt.
  - assert (G : forall gs vs, incl gs fs -> Forall2 (fun f nv => fst nv = fst (fst f) /\ yfield_value ws f (snd nv)) gs vs ->
      Forall2 (fun f (nv : string * val) => fst nv = f_name f /\ field_value (map w_of ws) f (snd nv)) (map fld_of gs) vs).
    { intros gs vs Hinc Hgs. induction Hgs as [|f nv gs vs [Hname Hval] Hgs IH]; cbn [map]; constructor; [|apply IH; intros x Hx; apply Hinc; right; assumption].
      split; [exact Hname|]. assert (Hf : In f fs) by (apply Hinc; left; reflexivity).
      destruct Hval as [(w & Hw & Ef & Ev)|(Habs & (t & Et) & Ev)].
      - left. destruct (in_split _ _ Hw) as (p & q & Ews). exists (map w_of p), (w_of w), (map w_of q).
        split; [rewrite Ews, map_app; reflexivity|]. split; [cbn [w_of w_fld]; congruence|]. split; [exact Ev|].
        intros w' Hw' E. rewrite Ews in Hnt. rewrite !map_app in Hnt. cbn [map] in Hnt. apply NoDup_app_notin in Hnt. destruct Hnt as [_ Hnt].
        apply Hnt. cbn [w_of w_fld]. rewrite Ef, <- E. apply in_map_iff. exists w'. auto.
      - right. split.
        + intros w' Hw' E. apply in_map_iff in Hw'. destruct Hw' as (w & <- & Hw). cbn [w_of w_fld] in E.
          apply (Habs w Hw). apply (fld_inj fs Hnd); [apply (Hws w Hw)|assumption|exact E].
        + unfold absent_value. cbn [fld_of f_init f_fin]. rewrite Et. cbn [starts_as]. congruence. }
    apply G; [apply incl_refl|exact Hv].
Qed.

Lemma generated : forall t, yplain t = true -> written_ok t.
Proof.
  assert (G : forall n t, (ysize t < n)%nat -> yplain t = true -> written_ok t).
  { induction n as [|n IHn]; intros t Hs Hp; [lia|].
    assert (Hb : below t) by (intros t' Ht'; apply IHn; lia).
    assert (Hsub : forall t', (ysize t' <= n)%nat -> (ysize t' < ysize t)%nat -> below t') by (intros t' _ Ht' u Hu; apply Hb; lia).
    destruct t as [lo hi| | | | | | | |dyn e| | |vs|vs|vs|consts fs]; try discriminate Hp.
    - exists (TInt II64). split; [reflexivity|]. split; [reflexivity|]. intros v bs H.
      inversion H as [lo' hi' z g Hz Hg|t' l g Hi| | | | | | | | | | | |]; subst; [|destruct Hi as [E|[E|[E|[]]]]; discriminate].
      cbn [yplain] in Hp. assert (Hr : - two63 < z < two63) by lia.
      constructor; [cbn [in_ity]; unfold in_i64, two63 in *; lia|]. apply vlq_number_rep; assumption.
    - destruct e as [| | | | | | | | | |u e| | | |]; try discriminate Hp. cbn [yplain] in Hp.
      destruct (Hb e) as (k & Eg & Hw & He); [cbn [ysize]; lia|assumption|]. exists (TArray k).
      split; [cbn [ygen]; rewrite Eg; reflexivity|]. split; [exact Hw|]. intros v bs. apply array_enc.
      intros v' bs' Hv'. apply He. exact (yenc_user_inv _ _ _ _ Hv').
    - exists (TEnum vs). split; [reflexivity|]. split; [exact Hp|]. intros v bs H.
      inversion H as [|t' l g Hi| | | | | | | |l z s g Hin Hg| | | |]; subst; [destruct Hi as [E|[E|[E|[]]]]; discriminate|]. econstructor; eassumption.
    - cbn [yplain] in Hp. apply andb_true_iff in Hp. destruct Hp as [Hnd Hp]. rewrite forallb_forall in Hp.
      assert (Hg : Forall (fun x => exists t, snd x = Some t /\ good (ygen t) t) vs).
      { apply Forall_forall. intros x Hx. specialize (Hp x Hx). destruct (snd x) as [t|] eqn:Ex; [|discriminate]. exists t. split; [reflexivity|].
        apply good_decl. apply Hb; [|assumption]. cbn [ysize].
        pose proof (fold_in _ (fun x : Z * string * option ytype => match snd x with Some t' => ysize t' | None => 0%nat end) vs x Hx) as F. cbn beta in F. rewrite Ex in F. lia. }
      exists (TChoice INT_TAG (map (fun x => (fst x, event_ty (snd x))) vs)). split; [|split].
      + cbn [ygen]. change (obind (events_code vs) (fun ks => Ok (CChoice INT_TAG ks)) = Ok (code_of (TChoice INT_TAG (map (fun x => (fst x, event_ty (snd x))) vs)))).
        rewrite (events_code_ok vs Hg). reflexivity.
      + cbn [wf_vty]. rewrite map_map. cbn [fst snd]. rewrite Hnd. cbn [andb]. apply forallb_forall. intros y Hy. apply in_map_iff in Hy. destruct Hy as (x & <- & Hx).
        rewrite Forall_forall in Hg. destruct (Hg x Hx) as (t & Et & Hgt). cbn [snd]. rewrite Et. apply Hgt.
      + intros v bs H. rewrite Forall_forall in Hg. inversion H as [|t' l g Hi| | | | | | | | |l z s t' v' g bs' Hin Hgv Hv|l z s g Hin Hgv| |]; subst; [destruct Hi as [E|[E|[E|[]]]]; discriminate| |].
        * destruct (Hg _ Hin) as (t & Et & Hgt). cbn [snd] in Et. injection Et as ->.
          econstructor; [|exact Hgv|apply Hgt; exact Hv]. apply in_map_iff. exists (z, s, Some t). split; [reflexivity|exact Hin].
        * destruct (Hg _ Hin) as (t & Et & Hgt). discriminate.
    - cbn [yplain] in Hp. apply andb_true_iff in Hp. destruct Hp as [Hnd Hp]. rewrite forallb_forall in Hp.
      assert (Hg : Forall (fun x => snd x <> YNull /\ good (variant_code ygen (snd x)) (snd x)) vs).
      { apply Forall_forall. intros x Hx. specialize (Hp x Hx). split; [intros E; rewrite E in Hp; discriminate|]. apply good_variant; [|assumption].
        pose proof (fold_in _ (fun x : Z * string * ytype => ysize (snd x)) vs x Hx) as F. cbn beta in F. apply Hsub; cbn [ysize] in *; lia. }
      exists (TChoice CHOICE_TAG (map (fun x => (fst x, ty_in (variant_code ygen (snd x)))) vs)). split; [|split].
      + cbn [ygen]. change (obind (choice_code vs) (fun ks => Ok (CChoice CHOICE_TAG ks)) = Ok (code_of (TChoice CHOICE_TAG (map (fun x => (fst x, ty_in (variant_code ygen (snd x)))) vs)))).
        rewrite (choice_code_ok vs Hg). reflexivity.
      + cbn [wf_vty]. rewrite map_map. cbn [fst snd]. rewrite Hnd. cbn [andb]. apply forallb_forall. intros y Hy. apply in_map_iff in Hy. destruct Hy as (x & <- & Hx).
        rewrite Forall_forall in Hg. apply (Hg x Hx).
      + intros v bs H. rewrite Forall_forall in Hg. inversion H as [|t' l g Hi| | | | | | | | | | |l z s t' v' g bs' Hin Hgv Hv|]; subst; [destruct Hi as [E|[E|[E|[]]]]; discriminate|].
        econstructor; [|exact Hgv|apply (Hg _ Hin); exact Hv]. apply in_map_iff. exists (z, s, t'). split; [reflexivity|exact Hin].
    - cbn [yplain] in Hp. apply andb_true_iff in Hp. destruct Hp as [Hp Hf]. apply andb_true_iff in Hp. destruct Hp as [Hp Hnd]. apply andb_true_iff in Hp. destruct Hp as [Hc Ht].
      rewrite forallb_forall in Hf, Ht.
      assert (Hg : Forall (fun f => (exists z, snd (fst f) = Some z) /\ good (field_res (snd f)) (snd f) /\
        field_code ygen (snd f) = Ok (starts_as (snd f), code_of (ty_in (field_res (snd f))))) fs).
      { apply Forall_forall. intros f Hin. specialize (Hf f Hin). specialize (Ht f Hin). split; [destruct (snd (fst f)) as [z|]; [eauto|discriminate]|].
        apply good_field; [|assumption]. pose proof (fold_in _ (fun x : string * option Z * ytype => ysize (snd x)) fs f Hin) as F. cbn beta in F. apply Hsub; cbn [ysize] in *; lia. }
      exists (TStruct (map fld_of fs)). split; [|split].
      + assert (E : ygen (YStruct consts fs) = obind (fields_code fs) (fun ks => Ok (CStruct ks))).
        { destruct consts as [|[|consts]]; [|destruct fs; [discriminate Hc|reflexivity]|destruct fs; reflexivity].
          destruct fs as [|[[s [z|]] t] [|f fs]]; try reflexivity. specialize (Ht _ (or_introl eq_refl)). discriminate Ht. }
        rewrite E, fields_code_ok; [reflexivity|]. eapply Forall_impl; [|exact Hg]. intros f (H1 & _ & H2). auto.
      + cbn [wf_vty]. rewrite map_map. cbn [fld_of f_tag]. rewrite Hnd. cbn [andb]. apply forallb_forall. intros y Hy. apply in_map_iff in Hy. destruct Hy as (f & <- & Hx).
        rewrite Forall_forall in Hg. destruct (Hg f Hx) as (_ & (_ & Hw & _) & _). exact Hw.
      + intros v bs. apply struct_enc; [apply nodupb_NoDup; exact Hnd|]. intros f Hin. rewrite Forall_forall in Hg. destruct (Hg f Hin) as (_ & (_ & _ & He) & _). exact He. }
  intros t. apply (G (S (ysize t)) t). lia.
Qed.

Lemma byte_generated_reads : forall t, yplain t = true -> exists k, ygen t = Ok k /\ yreads k t.
Proof.
  intros t H. destruct (generated t H) as (k & Eg & Hw & He). exists (code_of k). split; [exact Eg|].
  intros m v bs rest Hv. rewrite yrun_code_of. apply (vparse_complete true); auto.
Qed.

(** Events some of which carry nothing. *)
Lemma events_run : forall vs, nodupb (map (fun x => fst (fst x)) vs) = true ->
  (forall x t, In x vs -> snd x = Some t -> yplain t = true) ->
  exists ks, ygen (YEvents vs) = Ok (CChoice INT_TAG ks) /\
    (forall z n o, In (z, n, o) vs -> exists k, In (z, n, k) ks /\ match o with Some t => yreads k t | None => k = CUnit end) /\
    map fst ks = map fst vs.
Proof.
  intros vs _ Hp. cbn [ygen]. change ((fix go (l : list (Z * string * option ytype)) : outcome (list (Z * string * ycode)) :=
    match l with [] => Ok [] | (n, o) :: l' => do k <- match o with Some t' => ygen t' | None => Ok CUnit end; do ks <- go l'; Ok ((n, k) :: ks) end) vs) with (events_code vs).
  assert (G : exists ks, events_code vs = Ok ks /\ (forall z n o, In (z, n, o) vs -> exists k, In (z, n, k) ks /\ match o with Some t => yreads k t | None => k = CUnit end) /\ map fst ks = map fst vs).
  { induction vs as [|[[z n] o] vs IH]; [exists []; split; [reflexivity|split; [intros z n o []|reflexivity]]|].
    destruct IH as (ks & E & Hk & Hm); [intros x t Hx; apply Hp; right; assumption|].
    assert (Hk1 : exists k, match o with Some t' => ygen t' | None => Ok CUnit end = Ok k /\ match o with Some t => yreads k t | None => k = CUnit end).
    { destruct o as [t|]; [|exists CUnit; auto]. apply byte_generated_reads. apply (Hp (z, n, Some t)); [left|]; reflexivity. }
    destruct Hk1 as (k & E1 & Hk1). exists ((z, n, k) :: ks). unfold events_code in *. rewrite E1, E. cbn [obind]. split; [reflexivity|]. split.
    - intros z' n' o' [H|H]; [injection H as <- <- <-; exists k; split; [left; reflexivity|assumption]|].
      destruct (Hk _ _ _ H) as (k' & Hin & Hr). exists k'. split; [right; assumption|assumption].
    - cbn [map fst]. rewrite Hm. reflexivity. }
  destruct G as (ks & E & Hk & Hm). exists ks. rewrite E. auto.
Qed.

Lemma byte_events_reads : forall vs, nodupb (map (fun x => fst (fst x)) vs) = true ->
  (forall x t, In x vs -> snd x = Some t -> yplain t = true) ->
  exists k, ygen (YEvents vs) = Ok k /\ yreads k (YEvents vs).
Proof.
  intros vs Hnd Hp. destruct (events_run vs Hnd Hp) as (ks & Eg & Hk & Hm). exists (CChoice INT_TAG ks). split; [exact Eg|].
  assert (Hnd' : NoDup (map (fun x => fst (fst x)) ks)).
  { rewrite <- (map_map fst fst), Hm, map_map. apply nodupb_NoDup. exact Hnd. }
  assert (Hf : forall m z n k, In (z, n, k) ks -> find_variant (map (fun x => (fst x, yrun m (snd x))) ks) z = Some (n, yrun m k)).
  { intros m z n k Hin. apply find_variant_nodup; [rewrite map_map; cbn [fst]; exact Hnd'|]. apply in_map_iff. exists (z, n, k). auto. }
  intros m v bs rest H. cbn [yrun].
  inversion H as [|t' l g Hi| | | | | | | | |l z s t' v' g bs' Hin Hgv Hv|l z s g Hin Hgv| |]; subst; [destruct Hi as [E|[E|[E|[]]]]; discriminate| |].
  - destruct (Hk _ _ _ Hin) as (k & Hik & Hr). cbn [app]. change (validate_tag INT_TAG (INT_TAG :: (g ++ bs') ++ rest)) with (Ok ((g ++ bs') ++ rest)).
    cbn [obind]. rewrite <- app_assoc. rewrite (parse_vlq_int_lax _ _ _ _ (vlq_rep_lax _ _ _ Hgv)). cbn [obind].
    rewrite (Hf m _ _ _ Hik). rewrite (Hr m v' bs' rest Hv). reflexivity.
  - destruct (Hk _ _ _ Hin) as (k & Hik & ->). cbn [app]. change (validate_tag INT_TAG (INT_TAG :: g ++ rest)) with (Ok (g ++ rest)).
    cbn [obind]. rewrite (parse_vlq_int_lax _ _ _ _ (vlq_rep_lax _ _ _ Hgv)). cbn [obind].
    rewrite (Hf m _ _ _ Hik). reflexivity.
Qed.

(** ** A field that is an integer *)

Lemma int_field_iff : forall n a b tag lo hi, In (n, a, b) int_names -> - two63 < tag < two63 -> - two63 < lo -> lo <= hi -> hi < two63 ->
  exists k, ygen (YStruct 0 [("x", Some tag, YUser n (YInt lo hi))]) = Ok k /\
    (yreads k (YStruct 0 [("x", Some tag, YUser n (YInt lo hi))]) <-> a <= lo /\ hi <= b).
Proof.
  intros n a b tag lo hi Hin Htag Hlo Hle Hhi. destruct (int_morph _ Hin) as (it & Em & Ei). cbn [fst snd] in Em, Ei.
  assert (Eg : ygen (YStruct 0 [("x", Some tag, YUser n (YInt lo hi))]) = Ok (CStruct [mkfld "x" tag tag InitNone FinReq (CInt it)])).
  { cbn [ygen field_code]. unfold convert. cbn [type_name]. rewrite Em. reflexivity. }
  eexists. split; [exact Eg|]. split.
  - intros Hr.
    assert (Hz : forall z, lo <= z <= hi -> a <= z <= b).
    { intros z Hz. apply Ei; [lia|].
      pose (w := mkyw ("x", Some tag, YUser n (YInt lo hi)) (vlq_encode tag) (VInt z) (INT_TAG :: vlq_encode z)).
      assert (Hz' : - two63 < z < two63) by lia.
      specialize (Hr Checked (VStruct [("x", VInt z)]) (STRUCT_TAG :: vlq_encode 1 ++ concat (map (fun w => yw_tag w ++ yw_bytes w) [w])) []).
      rewrite app_nil_r in Hr. assert (He : yenc (YStruct 0 [("x", Some tag, YUser n (YInt lo hi))]) (VStruct [("x", VInt z)])
        (STRUCT_TAG :: vlq_encode 1 ++ concat (map (fun w => yw_tag w ++ yw_bytes w) [w]))).
      { constructor.
        - apply vlq_rep_encode. unfold two63. cbn [length Z.of_nat Pos.of_succ_nat]. lia.
        - constructor; [|constructor]. cbn [w yw_fld yw_tag yw_val yw_bytes fst snd]. split; [left; reflexivity|]. split.
          + exists tag. split; [reflexivity|]. apply vlq_rep_encode. exact Htag.
          + constructor. constructor; [exact Hz|]. destruct (vlq_rep_encode z Hz') as (H1 & H2 & H3 & _ & H4). repeat split; assumption.
        - cbn [map]. constructor; [intros []|constructor].
        - constructor; [|constructor]. cbn [fst snd]. split; [reflexivity|]. left. exists w. split; [left; reflexivity|]. split; reflexivity. }
      specialize (Hr He). cbn [yrun map f_ty] in Hr. unfold parse_struct in Hr. cbn [app] in Hr.
      change (validate_tag STRUCT_TAG (STRUCT_TAG :: ?l)) with (Ok l) in Hr.
      apply obind_ok in Hr. destruct Hr as (tl & E1 & Hr). injection E1 as <-.
      assert (E2 : forall r, parse_vlq_int Checked (2 :: r) = Ok (r, 1)).
      { intros r. change (2 :: r) with (vlq_encode 1 ++ r). apply parse_vlq_int_lax. apply vlq_rep_weaken. apply vlq_rep_encode. unfold two63. lia. }
      rewrite E2 in Hr. cbn [obind] in Hr. change (as_u64 1) with 1 in Hr. cbn [map concat w yw_tag yw_bytes] in Hr. rewrite app_nil_r in Hr.
      cbn [struct_loop] in Hr. change (1 =? 0) with false in Hr. cbn [obind] in Hr.
      assert (E3 : forall r, parse_vlq_int Checked (vlq_encode tag ++ r) = Ok (r, tag)).
      { intros r. apply parse_vlq_int_lax. apply vlq_rep_weaken. apply vlq_rep_encode. exact Htag. }
      rewrite E3 in Hr. cbn [obind] in Hr. unfold init_slot in Hr. cbn [struct_step unfld f_tag f_init slot_free] in Hr. rewrite Z.eqb_refl in Hr.
      assert (E4 : tagged_vlq_int Checked (INT_TAG :: vlq_encode z) = Ok ([], z)).
      { unfold tagged_vlq_int. change (validate_tag INT_TAG (INT_TAG :: vlq_encode z)) with (Ok (vlq_encode z)). cbn [obind].
        rewrite <- (app_nil_r (vlq_encode z)). apply parse_vlq_int_lax. apply vlq_rep_weaken. apply vlq_rep_encode. exact Hz'. }
      cbn [yrun] in Hr. rewrite E4 in Hr. cbn [obind] in Hr. destruct (in_ity it z); [reflexivity|discriminate Hr]. }
    split; [apply (Hz lo)|apply (Hz hi)]; lia.
  - intros Hab.
    destruct (byte_generated_reads (YStruct 0 [("x", Some tag, YUser n (YInt lo hi))])) as (k & Ek & Hk).
    + cbn [yplain length Nat.eqb andb negb forallb map fst snd nodupb existsb plain_field plain_one plain_many].
      assert (E : int_named n (YInt lo hi) = true).
      { unfold int_named. cbn [resolved]. apply existsb_exists. exists (n, a, b). split; [exact Hin|]. cbn [fst snd]. rewrite String.eqb_refl.
        cbn [andb]. apply andb_true_iff. lia. }
      unfold plain_named. rewrite E. reflexivity.
    + rewrite Eg in Ek. injection Ek as <-. exact Hk.
Qed.

(** ** A choice some of whose variants carry nothing *)

Definition not_null (x : Z * string * ytype) : bool := match snd x with YNull => false | _ => true end.

Lemma choice_code_filter : forall vs, choice_code vs = choice_code (filter not_null vs).
Proof.
  induction vs as [|[n t] vs IH]; [reflexivity|]. cbn [filter not_null snd]. destruct t; unfold choice_code in *; rewrite IH; reflexivity.
Qed.

Lemma choice_null_iff : forall vs, nodupb (map (fun x => fst (fst x)) vs) = true ->
  (forall z n t, In (z, n, t) vs -> - two63 < z < two63 /\ (t = YNull \/ plain_one yplain t = true)) ->
  exists k, ygen (YChoice vs) = Ok k /\ (yreads k (YChoice vs) <-> forall z n, ~ In (z, n, YNull) vs).
Proof.
  intros vs Hnd Hv. pose (ws := filter not_null vs).
  assert (Hg : Forall (fun x => snd x <> YNull /\ good (variant_code ygen (snd x)) (snd x)) ws).
  { apply Forall_forall. intros [[z n] t] Hx. apply filter_In in Hx. destruct Hx as [Hx Hn]. cbn [snd]. split; [intros ->; discriminate|].
    destruct (Hv z n t Hx) as [_ [->|Hp]]; [discriminate|]. apply good_variant; [|assumption]. intros t' _ Hp'. apply generated; assumption. }
  pose proof (choice_code_ok ws Hg) as Ec. unfold ws in Ec. rewrite <- choice_code_filter in Ec. fold ws in Ec.
  pose (ks := map (fun x => (fst x, code_of (snd x))) (map (fun x => (fst x, ty_in (variant_code ygen (snd x)))) ws)). fold ks in Ec.
  assert (Eg : ygen (YChoice vs) = Ok (CChoice CHOICE_TAG ks)).
  { cbn [ygen]. change (obind (choice_code vs) (fun ks => Ok (CChoice CHOICE_TAG ks)) = Ok (CChoice CHOICE_TAG ks)). rewrite Ec. reflexivity. }
  exists (CChoice CHOICE_TAG ks). split; [exact Eg|]. split.
  - intros Hr z n Hin. destruct (Hv z n YNull Hin) as [Hz _].
    specialize (Hr Checked (VChoice n VNull) (CHOICE_TAG :: vlq_encode z ++ []) []). rewrite app_nil_r in Hr.
    assert (He : yenc (YChoice vs) (VChoice n VNull) (CHOICE_TAG :: vlq_encode z ++ [])).
    { econstructor; [exact Hin|apply vlq_rep_encode; exact Hz|constructor]. }
    rewrite app_nil_r in He.
    specialize (Hr He). cbn [yrun] in Hr. apply obind_ok in Hr. destruct Hr as (tl & E1 & Hr). apply validate_tag_ok in E1. injection E1 as <-.
    rewrite (parse_vlq_int_lax Checked (vlq_encode z) [] z) in Hr by (apply vlq_rep_weaken; apply vlq_rep_encode; exact Hz). cbn [obind] in Hr.
    destruct (find_variant (map (fun x => (fst x, yrun Checked (snd x))) ks) z) as [[s p]|] eqn:Ef; [|discriminate].
    apply find_variant_in in Ef. apply in_map_iff in Ef. destruct Ef as (x & Ex & Hx). injection Ex as Ez _.
    unfold ks in Hx. rewrite map_map in Hx. cbn [fst snd] in Hx. apply in_map_iff in Hx. destruct Hx as ([[z' n'] t'] & <- & Hx). cbn [fst] in Ez.
    injection Ez as -> ->. unfold ws in Hx. apply filter_In in Hx. destruct Hx as [Hx Hn'].
    apply nodupb_NoDup in Hnd. clear - Hnd Hin Hx Hn'.
    assert (E : (z, n, YNull) = (z, s, t')); [|injection E as _ <-; discriminate].
    revert Hnd Hin Hx. clear Hn'. induction vs as [|y vs IH]; intros Hnd H1 H2; [contradiction|]. cbn [map] in Hnd. inversion Hnd as [|p q Hp Hq]; subst.
    destruct H1 as [->|H1], H2 as [H2|H2].
    + exact H2.
    + exfalso. apply Hp. apply in_map_iff. exists (z, s, t'). auto.
    + exfalso. subst y. apply Hp. apply in_map_iff. exists (z, n, YNull). auto.
    + apply IH; assumption.
  - intros Hno. destruct (byte_generated_reads (YChoice vs)) as (k & Ek & Hk).
    + cbn [yplain]. rewrite Hnd. cbn [andb]. apply forallb_forall. intros [[z n] t] Hx. cbn [snd]. destruct (Hv z n t Hx) as [_ [->|Hp]]; [exfalso; exact (Hno _ _ Hx)|exact Hp].
    + rewrite Eg in Ek. injection Ek as <-. exact Hk.
Qed.

(** A struct of one constant has no field to read. *)
Lemma bare_reads : exists k, ygen (YStruct 1 []) = Ok k /\ yreads k (YStruct 1 []).
Proof.
  eexists. split; [reflexivity|]. intros m v bs rest H. remember (YStruct 1 []) as t eqn:Et. destruct H as [ |t' l g Hin| | | | | | | | | | | |consts fs ws g vals Hg Hw Hd Hv]; try discriminate.
  1:{ subst t'. cbn in Hin. intuition discriminate. }
  injection Et as -> ->.
  destruct ws as [|w ws]; [|inversion Hw as [|a b Hx _]; subst; destruct Hx as [[] _]]. inversion Hv; subst.
  cbn [map concat yrun]. rewrite app_nil_r. change ((STRUCT_TAG :: g) ++ rest) with (STRUCT_TAG :: (g ++ rest)).
  unfold validate_tag. rewrite Z.eqb_refl. cbn [obind]. rewrite (parse_vlq_int_lax _ _ _ _ (vlq_rep_lax _ _ _ Hg)). reflexivity.
Qed.
