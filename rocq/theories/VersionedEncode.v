(** * A reference encoder for the versioned format

    Used for the executable round-trip statement and for examples.  It is one
    particular writer: all fields of a struct are written, in declaration
    order, integers in their shortest form.  [None] means the value is not of
    the type. *)
From Verif Require Import Base VlqSpec Vlq VlqProofs Types Versioned VersionedSpec VlqExact VersionedProofs VersionedExact.

Definition opt_bind {A B} (x : option A) (f : A -> option B) : option B :=
  match x with Some a => f a | None => None end.

Fixpoint find_name {A} (l : list (Z * string * A)) (s : string) : option (Z * A) :=
  match l with
  | [] => None
  | (z, n, a) :: l' => if String.eqb n s then Some (z, a) else find_name l' s
  end.
Fixpoint find_ename (l : list (Z * string)) (s : string) : option Z :=
  match l with
  | [] => None
  | (z, n) :: l' => if String.eqb n s then Some z else find_ename l' s
  end.

Fixpoint all_some {A} (l : list (option A)) : option (list A) :=
  match l with
  | [] => Some []
  | x :: l' => opt_bind x (fun a => opt_bind (all_some l') (fun r => Some (a :: r)))
  end.

Definition small (z : Z) : bool := (- two63 <? z) && (z <? two63).

Definition enc_num (z : Z) : option (list Z) := if small z then Some (vlq_encode z) else None.

(** The fields of a struct against the fields of a value. *)
Fixpoint enc_fields (fs : list (fld vty * (val -> option (list Z)))) (vals : list (string * val)) : option (list written) :=
  match fs, vals with
  | [], [] => Some []
  | (f, e) :: fs', (n, v) :: vals' =>
      if String.eqb n (f_name f) then
        opt_bind (enc_num (f_tag f)) (fun t => opt_bind (e v) (fun b =>
          opt_bind (enc_fields fs' vals') (fun ws => Some (mkw f t v b :: ws))))
      else None
  | _, _ => None
  end.

Fixpoint vencode (t : vty) (v : val) {struct t} : option (list Z) :=
  match t, v with
  | TInt it, VInt z => if in_ity it z then opt_bind (enc_num z) (fun g => Some (INT_TAG :: g)) else None
  | TBlob, VBytes l =>
      if forallb in_u8 l then opt_bind (enc_num (Z.of_nat (length l))) (fun g => Some (BLOB_TAG :: g ++ l)) else None
  | TBool, VBool b => Some [BOOL_TAG; if b then 1 else 0]
  | TFourcc, VInt z =>
      if in_u32 z then Some [FOURCC_TAG; z / 2 ^ 24; z / 2 ^ 16 mod 256; z / 2 ^ 8 mod 256; z mod 256] else None
  | TOpt _, VOpt None => Some [OPT_TAG; 0]
  | TOpt t', VOpt (Some v') => opt_bind (vencode t' v') (fun b => Some (OPT_TAG :: 1 :: b))
  | TArray t', VList vs =>
      opt_bind (enc_num (Z.of_nat (length vs))) (fun g =>
      opt_bind (all_some (map (vencode t') vs)) (fun bss => Some (ARRAY_TAG :: g ++ concat bss)))
  | TEnum l, VEnum n => opt_bind (find_ename l n) (fun z => opt_bind (enc_num z) (fun g => Some (INT_TAG :: g)))
  | TChoice tag l, VChoice n v' =>
      opt_bind (find_name (map (fun x => (fst x, vencode (snd x))) l) n) (fun ze =>
      opt_bind (enc_num (fst ze)) (fun g => opt_bind (snd ze v') (fun b => Some (tag :: g ++ b))))
  | TStruct fs, VStruct vals =>
      opt_bind (enc_fields (map (fun f => (f, vencode (f_ty f))) fs) vals) (fun ws =>
      opt_bind (enc_num (Z.of_nat (length ws))) (fun g =>
        Some (STRUCT_TAG :: g ++ concat (map (fun w => w_tag w ++ w_bytes w) ws))))
  | _, _ => None
  end.

(** ** The encoder is a writer of the strict format *)
Lemma opt_bind_some : forall A B (x : option A) (f : A -> option B) b,
  opt_bind x f = Some b -> exists a, x = Some a /\ f a = Some b.
Proof. intros A B [a|] f b H; cbn in H; [eauto|discriminate]. Qed.
#[local] Arguments opt_bind : simpl never.

Ltac inv_ob := repeat match goal with
  | H : opt_bind _ _ = Some _ |- _ => apply opt_bind_some in H; destruct H as (? & ? & H); cbn beta in H
  end.

Lemma enc_num_rep : forall z g, enc_num z = Some g -> vlq_rep true z g.
Proof.
  intros z g H. unfold enc_num, small in H. destruct ((- two63 <? z) && (z <? two63)) eqn:E; [|discriminate].
  injection H as <-. apply andb_true_iff in E. rewrite !Z.ltb_lt in E. apply vlq_rep_encode. lia.
Qed.

Lemma all_some_map : forall A B (f : A -> option B) l r, all_some (map f l) = Some r -> Forall2 (fun a b => f a = Some b) l r.
Proof.
  intros A B f; induction l as [|a l IH]; intros r H; cbn in H.
  - injection H as <-. constructor.
  - inv_ob. injection H as <-. constructor; auto.
Qed.

Lemma find_ename_in : forall l n z, find_ename l n = Some z -> In (z, n) l.
Proof.
  induction l as [|[z' n'] l IH]; intros n z H; cbn in H; [discriminate|].
  destruct (String.eqb_spec n' n) as [->|E]; [injection H as ->; left; reflexivity|right; auto].
Qed.

Lemma find_name_in : forall A B (f : A -> B) (l : list (Z * string * A)) n z b,
  find_name (map (fun x => (fst x, f (snd x))) l) n = Some (z, b) -> exists a, In (z, n, a) l /\ b = f a.
Proof.
  intros A B f; induction l as [|[[z' n'] a] l IH]; intros n z b H; cbn in H; [discriminate|].
  destruct (String.eqb_spec n' n) as [->|E].
  - injection H as <- <-. exists a. split; [left; reflexivity|reflexivity].
  - destruct (IH _ _ _ H) as (a' & Hin & ->). exists a'. split; [right; assumption|reflexivity].
Qed.

Lemma enc_fields_ok : forall (fs : list (fld vty)) vals ws,
  (forall f v b, In f fs -> vencode (f_ty f) v = Some b -> venc true (f_ty f) v b) ->
  enc_fields (map (fun f => (f, vencode (f_ty f))) fs) vals = Some ws ->
  map w_fld ws = fs /\
  Forall (fun w => vlq_rep true (f_tag (w_fld w)) (w_tag w) /\ venc true (f_ty (w_fld w)) (w_val w) (w_bytes w)) ws /\
  Forall2 (fun w nv => fst nv = f_name (w_fld w) /\ snd nv = w_val w) ws vals.
Proof.
  induction fs as [|f fs IH]; intros vals ws He H; destruct vals as [|[n v] vals]; cbn in H; try discriminate.
  - injection H as <-. repeat split; constructor.
  - destruct (String.eqb_spec n (f_name f)) as [->|]; [|discriminate]. inv_ob. injection H as <-.
    match goal with Hx : enc_fields _ _ = Some _ |- _ => apply IH in Hx; [destruct Hx as (Hm1 & Hm2 & Hm3)|intros; apply He; [right|]; assumption] end.
    cbn [map w_fld]. rewrite Hm1. repeat split.
    + constructor; [|assumption]. cbn. split; [apply enc_num_rep; assumption|apply He; [left; reflexivity|assumption]].
    + constructor; [cbn; auto|assumption].
Qed.

Lemma Forall2_impl' : forall A B (R S : A -> B -> Prop) l l',
  (forall a b, R a b -> S a b) -> Forall2 R l l' -> Forall2 S l l'.
Proof. intros A B R S l l' Hi H; induction H; constructor; auto. Qed.

Lemma Forall2_map_l : forall A B C (R : B -> C -> Prop) (f : A -> B) l l',
  Forall2 (fun a c => R (f a) c) l l' -> Forall2 R (map f l) l'.
Proof. intros A B C R f l l' H; induction H; cbn; constructor; auto. Qed.

Lemma vencode_venc : forall t, wf_vty t = true -> forall v bs, vencode t v = Some bs -> venc true t v bs.
Proof.
  intros t; induction t as [it| | | |t IH|t IH|l0|tag l0 IH|fs IH] using vty_ind';
    intros Hwf v bs H; cbn [vencode] in H; destruct v; try discriminate.
  - destruct (in_ity it z) eqn:E; [|discriminate]. inv_ob. injection H as <-. constructor; [assumption|apply enc_num_rep; assumption].
  - destruct (forallb in_u8 l) eqn:E; [|discriminate]. inv_ob. injection H as <-. constructor; [|apply enc_num_rep; assumption].
    apply Forall_forall. rewrite forallb_forall in E. intros y Hy. specialize (E y Hy). unfold in_u8 in E.
    apply andb_true_iff in E. unfold byte_ok. lia.
  - injection H as <-. constructor; destruct b; unfold byte_ok; try lia; split; intros; congruence.
  - destruct (in_u32 z) eqn:E; [|discriminate]. injection H as <-. unfold in_u32, two32 in E. apply andb_true_iff in E.
    change (2 ^ 24) with 16777216. change (2 ^ 16) with 65536. change (2 ^ 8) with 256.
    replace (VInt z) with (VInt (z / 16777216 * 2 ^ 24 + z / 65536 mod 256 * 2 ^ 16 + z / 256 mod 256 * 2 ^ 8 + z mod 256)).
    + constructor. repeat constructor; dlia.
    + f_equal. change (2 ^ 24) with 16777216. change (2 ^ 16) with 65536. change (2 ^ 8) with 256. dlia.
  - cbn in Hwf. destruct o as [v|].
    + inv_ob. injection H as <-. constructor; [unfold byte_ok; lia|lia|auto].
    + injection H as <-. constructor.
  - cbn in Hwf. inv_ob. injection H as <-. constructor; [apply enc_num_rep; assumption|].
    match goal with Hx : all_some _ = Some _ |- _ => apply all_some_map in Hx; eapply Forall2_impl'; [|exact Hx] end.
    intros a b Hab. apply IH; assumption.
  - inv_ob. injection H as <-. econstructor; [apply find_ename_in; eassumption|apply enc_num_rep; assumption].
  - cbn in Hwf. apply andb_true_iff in Hwf. destruct Hwf as [_ Hwf]. rewrite forallb_forall in Hwf. rewrite Forall_forall in IH.
    apply opt_bind_some in H. destruct H as ([z e] & Hf & H). inv_ob. injection H as <-.
    apply find_name_in in Hf. destruct Hf as (t & Hin & ->). cbn [fst snd] in *.
    econstructor; [eassumption|apply enc_num_rep; eassumption|].
    apply (IH _ Hin (Hwf _ Hin)). assumption.
  - cbn in Hwf. apply andb_true_iff in Hwf. destruct Hwf as [Hnd Hwf]. apply nodupb_NoDup in Hnd.
    rewrite forallb_forall in Hwf. rewrite Forall_forall in IH. inv_ob. injection H as <-.
    match goal with Hx : enc_fields _ _ = Some ?w |- _ => rename w into ws; apply enc_fields_ok in Hx;
       [destruct Hx as (Hm1 & Hm2 & Hm3)|intros f v b Hin Hv; apply IH; auto] end.
    assert (Hnd' : NoDup (map (fun w => f_tag (w_fld w)) ws)).
    { rewrite <- Hm1 in Hnd. rewrite map_map in Hnd. exact Hnd. }
    constructor.
    + apply enc_num_rep; assumption.
    + apply Forall_forall. intros w Hw. rewrite Forall_forall in Hm2. destruct (Hm2 w Hw).
      split; [rewrite <- Hm1; apply in_map; assumption|auto].
    + exact Hnd'.
    + rewrite <- Hm1. apply Forall2_map_l.
      assert (G : forall p q, ws = p ++ q -> forall vs,
        Forall2 (fun w nv => fst nv = f_name (w_fld w) /\ snd nv = w_val w) q vs ->
        Forall2 (fun w (nv : string * val) => fst nv = f_name (w_fld w) /\ field_value ws (w_fld w) (snd nv)) q vs).
      { intros p q; revert p; induction q as [|w q IHq]; intros p E vs Hvs; inversion Hvs as [|a b c d [Hn Hv] Hr]; subst; constructor.
        - split; [assumption|]. left. exists p, w, q. repeat split; auto. intros w' Hw' Et.
          rewrite map_app in Hnd'. cbn [map] in Hnd'. apply NoDup_app_notin in Hnd'. destruct Hnd' as [_ Hnd'].
          apply Hnd'. rewrite <- Et. apply in_map_iff. exists w'. auto.
        - apply (IHq (p ++ [w])); [rewrite <- app_assoc; reflexivity|assumption]. }
      apply (G [] ws eq_refl); assumption.
Qed.

Lemma vencode_round_trip : forall m t v bs rest, wf_vty t = true ->
  vencode t v = Some bs -> vparse m t (bs ++ rest) = Ok (rest, v).
Proof. intros m t v bs rest Hwf H. apply (vparse_complete true); [assumption|]. apply vencode_venc; assumption. Qed.
