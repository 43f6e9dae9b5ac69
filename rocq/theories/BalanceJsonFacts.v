(** * Balance units as JSON: proofs *)
From Coq Require Import Permutation.
From Verif Require Import Base F32 F32Facts BalanceJson BalanceJsonSpec.
#[local] Open Scope string_scope.
#[local] Open Scope Z_scope.
#[local] Open Scope list_scope.

(** ** f32 to f64 and back *)
Lemma exact_round_any : forall prec emax s mx ex m e,
  fexp prec emax (digs m + e) = e -> e <= emax - prec -> ex <= e -> Z.pos mx = Z.pos m * 2 ^ (e - ex) ->
  binary_round_aux prec emax s (Z.pos mx) ex loc_Exact = S754_finite s m e.
Proof.
  intros prec emax s mx ex m e Hc He Hx Em.
  assert (Hd : digs mx = digs m + (e - ex)) by (apply digs_mul_pow; [lia|exact Em]).
  unfold binary_round_aux, shr_fexp. rewrite Zdigits2_pos, Hd.
  replace (digs m + (e - ex) + ex) with (digs m + e) by lia. rewrite Hc.
  assert (Es : shr (shr_record_of_loc (Z.pos mx) loc_Exact) ex (e - ex) = (Build_shr_record (Z.pos m) false false, e)).
  { unfold shr. cbn [shr_record_of_loc]. destruct (e - ex) as [|k|k] eqn:Ek; [| |lia].
    - rewrite Em. replace (2 ^ 0) with 1 by reflexivity. rewrite Z.mul_1_r. f_equal. lia.
    - rewrite Em, iter_pos_iter, iter_shr by lia. f_equal. lia. }
  rewrite Es. cbn [shr_m loc_of_shr_record shr_r shr_s round_nearest_even].
  rewrite Zdigits2_pos, Hc, Z.sub_diag. cbn [shr shr_record_of_loc shr_m].
  replace (e <=? emax - prec) with true by (symmetry; apply Z.leb_le; lia).
  reflexivity.
Qed.
Lemma f64_exact : forall s m e, f32_valid (S754_finite s m e) = true ->
  exists mz ez, f64_of_f32 (S754_finite s m e) = S754_finite s mz ez /\ ez <= e /\ Z.pos mz = Z.pos m * 2 ^ (e - ez).
Proof.
  intros s m e H. apply valid_finite in H as [Hc He]. rewrite fexp_eq in Hc. pose proof (digs_pos m) as Hm.
  unfold f64_of_f32, binary_round. change (Z.pos (digits2_pos m)) with (digs m).
  assert (F : forall z, fexp 53 1024 z = Z.max (z - 53) (-1074)) by reflexivity. rewrite F.
  replace (Z.max (digs m + e - 53) (-1074)) with (digs m + e - 53) by lia. unfold shl_align.
  destruct (digs m + e - 53 - e) as [|d|d] eqn:E; [lia|lia|].
  set (mz := shift_pos d m). exists mz, (digs m + e - 53).
  assert (Emz : Z.pos mz = Z.pos m * 2 ^ (e - (digs m + e - 53))).
  { unfold mz. rewrite shift_pos_correct. replace (e - (digs m + e - 53)) with (Z.pos d) by lia. rewrite Z.pow_pos_fold. lia. }
  assert (Ed : digs mz = 53) by (rewrite (digs_mul_pow m mz (e - (digs m + e - 53))); [lia|lia|exact Emz]).
  split; [|split; [lia|exact Emz]].
  apply exact_round_any; [rewrite F; lia|lia|lia|]. rewrite Z.sub_diag. lia.
Qed.
Lemma f64_back : forall x, f32_valid x = true -> f32_of_f64 (f64_of_f32 x) = x.
Proof.
  intros [s|s| |s m e] H; try reflexivity. destruct (f64_exact s m e H) as (mz & ez & -> & Hz & Em).
  apply valid_finite in H as [Hc He]. unfold f32_of_f64, binary_round.
  assert (Ed : digs mz = digs m + (e - ez)) by (apply digs_mul_pow; [lia|exact Em]).
  change (Z.pos (digits2_pos mz)) with (digs mz). rewrite Ed. replace (digs m + (e - ez) + ez) with (digs m + e) by lia. rewrite Hc.
  unfold shl_align. destruct (e - ez) as [|d|d] eqn:E; [| |lia].
  - apply exact_round_any; [exact Hc|unfold f32_emax, f32_prec; lia|lia|]. rewrite Em. f_equal. f_equal. lia.
  - apply exact_round_any; [exact Hc|unfold f32_emax, f32_prec; lia|lia|]. rewrite Em. f_equal. f_equal. lia.
Qed.

(** ** Objects *)
Lemma compare_eq : forall a b, String.compare a b = Eq -> a = b.
Proof. exact String.compare_eq_iff. Qed.
Lemma jvalues_cons : forall k e m, jvalues k (e :: m) = if String.eqb (fst e) k then snd e :: jvalues k m else jvalues k m.
Proof. intros k e m. unfold jvalues. cbn [filter]. destruct (String.eqb (fst e) k); reflexivity. Qed.
Lemma jvalues_insert_other : forall k k' j m, k' <> k -> jvalues k (jinsert k' j m) = jvalues k m.
Proof.
  intros k k' j m Hn. assert (E : String.eqb k' k = false) by (apply String.eqb_neq; exact Hn). induction m as [|[a b] m IH]; cbn [jinsert].
  - rewrite jvalues_cons. cbn [fst]. rewrite E. reflexivity.
  - destruct (String.compare k' a) eqn:C.
    + apply compare_eq in C. subst a. rewrite !jvalues_cons. cbn [fst]. rewrite E. reflexivity.
    + rewrite jvalues_cons. cbn [fst]. rewrite E. reflexivity.
    + rewrite !jvalues_cons, IH. reflexivity.
Qed.
Lemma jvalues_insert_new : forall k j m, jvalues k m = [] -> jvalues k (jinsert k j m) = [j].
Proof.
  intros k j m. induction m as [|[a b] m IH]; intros Hn; cbn [jinsert].
  - rewrite jvalues_cons. cbn [fst snd]. rewrite String.eqb_refl. reflexivity.
  - rewrite jvalues_cons in Hn. cbn [fst snd] in Hn. destruct (String.eqb a k) eqn:E; [discriminate|]. destruct (String.compare k a) eqn:C.
    + apply compare_eq in C. subst a. rewrite String.eqb_refl in E. discriminate.
    + rewrite !jvalues_cons. cbn [fst snd]. rewrite String.eqb_refl, E, Hn. reflexivity.
    + rewrite jvalues_cons. cbn [fst snd]. rewrite E. apply IH. exact Hn.
Qed.

(** Types whose field names differ and whose options are not of options. *)
Fixpoint tidy (t : jty) : bool :=
  match t with
  | TStr | TInt _ _ | TF32 => true
  | TOpt t' => match t' with TOpt _ => false | _ => tidy t' end
  | TVec t' => tidy t'
  | TObj fs => (fix names (l : list (string * (jty * option jval))) : bool := match l with [] => true | f :: l' => negb (existsb (fun g => String.eqb (fst g) (fst f)) l') && names l' end) fs
      && forallb (fun f => tidy (fst (snd f))) fs
  end.
Section Induction.
  Variable P : jty -> Prop.
  Hypothesis Hs : P TStr.
  Hypothesis Hi : forall lo hi, P (TInt lo hi).
  Hypothesis Hf : P TF32.
  Hypothesis Ho : forall t, P t -> P (TOpt t).
  Hypothesis Hv : forall t, P t -> P (TVec t).
  Hypothesis Hr : forall fs, Forall (fun f => P (fst (snd f))) fs -> P (TObj fs).
  Fixpoint jty_rect' (t : jty) : P t :=
    match t with
    | TStr => Hs | TInt lo hi => Hi lo hi | TF32 => Hf
    | TOpt t' => Ho t' (jty_rect' t') | TVec t' => Hv t' (jty_rect' t')
    | TObj fs => Hr fs ((fix go (l : list (string * (jty * option jval))) : Forall (fun f => P (fst (snd f))) l :=
        match l with [] => Forall_nil _ | f :: l' => Forall_cons f (jty_rect' (fst (snd f))) (go l') end) fs)
    end.
End Induction.

Definition put_fields := fix go (fs : list (string * (jty * option jval))) (vs : list jval) (m : list (string * json)) : list (string * json) :=
  match fs, vs with
  | (k, (t', _)) :: fs', w :: vs' => go fs' vs' (jinsert k (to_value t' w) m)
  | _, _ => m
  end.
Section Rows.
Context {rows : bool}.
Definition get_fields (m : list (string * json)) := fix go (fs : list (string * (jty * option jval))) : option (list jval) :=
  match fs with
  | [] => Some []
  | (k, (t', d)) :: fs' =>
      match match jvalues k m with [] => missing t' d | [j'] => read_json rows t' j' | _ => None end, go fs' with
      | Some v, Some vs => Some (v :: vs)
      | _, _ => None
      end
  end.
Lemma to_obj : forall fs vs, to_value (TObj fs) (XObj vs) = JObj (put_fields fs vs []). Proof. reflexivity. Qed.
Lemma from_obj : forall fs m, read_json rows (TObj fs) (JObj m) = option_map XObj (get_fields m fs). Proof. reflexivity. Qed.
Lemma get_fields_ext : forall m m' fs, (forall k, In k (map fst fs) -> jvalues k m = jvalues k m') -> get_fields m fs = get_fields m' fs.
Proof.
  intros m m' fs. induction fs as [|[k [t d]] fs IH]; intros E; [reflexivity|]. cbn [get_fields map fst] in *. rewrite (E k (or_introl eq_refl)). fold (get_fields m) (get_fields m').
  rewrite IH; [reflexivity|]. intros k' Hk. apply E. now right.
Qed.
Lemma put_other : forall fs vs m k, ~ In k (map fst fs) -> jvalues k (put_fields fs vs m) = jvalues k m.
Proof.
  induction fs as [|[k0 [t d]] fs IH]; intros vs m k Hn; [destruct vs; reflexivity|]. destruct vs as [|v vs]; [reflexivity|]. cbn [put_fields map fst] in *. fold put_fields.
  rewrite IH by (intros K; apply Hn; now right). apply jvalues_insert_other. intros ->. apply Hn. now left.
Qed.

(** What a type other than an option gives is not null. *)
Lemma to_value_not_null : forall t v, (match t with TOpt _ => false | _ => true end) = true -> has_type t v -> finite v -> to_value t v <> JNull.
Proof.
  intros t v Ht Hh Hf. destruct Hh; try discriminate; cbn [to_value]; try discriminate.
  inversion Hf as [| |x' H1 H2| | | |]; subst. destruct x; try discriminate; [destruct (H2 s); reflexivity|congruence].
Qed.
Lemma names_tidy : forall fs, tidy (TObj fs) = true -> NoDup (map fst fs) /\ Forall (fun f => tidy (fst (snd f)) = true) fs.
Proof.
  intros fs H. cbn [tidy] in H. apply andb_true_iff in H as [H1 H2]. split.
  - clear H2. induction fs as [|f fs IH]; cbn [map]; [constructor|]. apply andb_true_iff in H1 as [A B]. constructor; [|now apply IH].
    intros K. apply in_map_iff in K as (g & E & Hg). apply negb_true_iff in A. assert (existsb (fun g => String.eqb (fst g) (fst f)) fs = true); [|congruence].
    apply existsb_exists. exists g. split; [exact Hg|]. apply String.eqb_eq. exact E.
  - apply Forall_forall. intros f Hf. eapply forallb_forall in H2; eassumption.
Qed.

Lemma json_round_trip : forall t, tidy t = true -> forall v, has_type t v -> finite v -> read_json rows t (to_value t v) = Some v.
Proof.
  induction t as [|lo hi| |t IH|t IH|fs IH] using jty_rect'; intros Ht v Hh Hf.
  - inversion Hh; subst. reflexivity.
  - inversion Hh as [|a b z Hz| | | | |]; subst. cbn [to_value read_json]. replace ((lo <=? z) && (z <=? hi)) with true; [reflexivity|]. symmetry. apply andb_true_iff. split; apply Z.leb_le; lia.
  - inversion Hh as [| |x Hx| | | |]; subst. inversion Hf as [| |x' H1 H2| | | |]; subst. cbn [to_value].
    destruct x as [s|s| |s m e]; [reflexivity|destruct (H2 s); reflexivity|congruence|].
    cbn [read_json]. rewrite f64_back by exact Hx. reflexivity.
  - inversion Hh as [| | |t0|t0 w Hw| |]; subst; [reflexivity|]. inversion Hf as [| | | |w' Hfw| |]; subst.
    assert (Hn : match t with TOpt _ => false | _ => true end = true) by (destruct t; cbn [tidy] in Ht; congruence). assert (Ht' : tidy t = true) by (destruct t; cbn [tidy] in Ht; try exact Ht; discriminate).
    cbn [to_value read_json]. pose proof (to_value_not_null t w Hn Hw Hfw) as Hj. rewrite (IH Ht' w Hw Hfw). cbn [option_map]. destruct (to_value t w); congruence.
  - inversion Hh as [| | | | |t0 l Hl|]; subst. inversion Hf as [| | | | |l' Hfl|]; subst. cbn [to_value read_json].
    assert (E : all_some (read_json rows t) (map (to_value t) l) = Some l); [|rewrite E; reflexivity].
    clear Hh Hf. induction Hl as [|x l Hx Hl IHl]; [reflexivity|]. inversion Hfl; subst. cbn [map all_some]. rewrite (IH Ht x) by assumption. rewrite IHl by assumption. reflexivity.
  - inversion Hh as [| | | | | |fs0 vs Hv]; subst. inversion Hf as [| | | | | |l' Hfl]; subst. rewrite to_obj, from_obj. apply names_tidy in Ht as [Hd Htd].
    assert (E : forall m, (forall k, In k (map fst fs) -> jvalues k m = []) -> get_fields (put_fields fs vs m) fs = Some vs); [|rewrite E; [reflexivity|intros; reflexivity]].
    clear Hh Hf. induction Hv as [|[k [t d]] v fs vs Hv0 Hv IHv]; intros m Hm; [reflexivity|].
    inversion IH as [|? ? Ik If]; subst. inversion Htd as [|? ? Tk Tf]; subst. inversion Hfl as [|? ? Fk Ff]; subst. cbn [map fst] in Hd. inversion Hd as [|? ? Dk Df]; subst. cbn [fst snd] in *.
    cbn [get_fields]. fold (get_fields (put_fields ((k, (t, d)) :: fs) (v :: vs) m)). cbn [put_fields]. fold put_fields.
    rewrite put_other by exact Dk. rewrite jvalues_insert_new by (apply Hm; now left). rewrite (Ik Tk v Hv0 Fk).
    rewrite IHv; auto. intros k' Hk'. rewrite jvalues_insert_other; [apply Hm; now right|]. intros ->. contradiction.
Qed.
Lemma unit_tidy : tidy j_unit = true. Proof. vm_compute. reflexivity. Qed.
Lemma unit_round_trip : forall v, is_unit v -> finite v -> read_json rows j_unit (to_value j_unit v) = Some v.
Proof. intros v H F. exact (json_round_trip j_unit unit_tidy v H F). Qed.

(** The order of the fields and unknown fields do not matter. *)
Lemma jvalues_unknown : forall k k' j m, k' <> k -> jvalues k ((k', j) :: m) = jvalues k m.
Proof. intros k k' j m Hn. rewrite jvalues_cons. cbn [fst]. apply String.eqb_neq in Hn. rewrite Hn. reflexivity. Qed.
Lemma jvalues_perm : forall k m m', Permutation m m' -> Permutation (jvalues k m) (jvalues k m').
Proof.
  intros k m m' Hp. unfold jvalues. apply Permutation_map. induction Hp; cbn [filter]; repeat match goal with |- context [String.eqb ?a ?b] => destruct (String.eqb a b) end; eauto using perm_nil, perm_skip, perm_swap, perm_trans.
Qed.
Lemma from_order : forall fs m m', Permutation m m' -> read_json rows (TObj fs) (JObj m) = read_json rows (TObj fs) (JObj m').
Proof.
  intros fs m m' Hp. rewrite !from_obj. f_equal. induction fs as [|[k [t d]] fs IH]; [reflexivity|]. cbn [get_fields]. fold (get_fields m) (get_fields m'). rewrite IH.
  pose proof (jvalues_perm k m m' Hp) as K. destruct (jvalues k m) as [|x [|y l]].
  - apply Permutation_nil in K. rewrite K. reflexivity.
  - apply Permutation_length_1_inv in K. rewrite K. reflexivity.
  - pose proof (Permutation_length K) as L. destruct (jvalues k m') as [|x' [|y' l']]; try discriminate. reflexivity.
Qed.
Lemma from_unknown : forall fs k j m, ~ In k (map fst fs) -> read_json rows (TObj fs) (JObj ((k, j) :: m)) = read_json rows (TObj fs) (JObj m).
Proof. intros fs k j m Hn. rewrite !from_obj. f_equal. apply get_fields_ext. intros k' Hk. apply jvalues_unknown. intros ->. contradiction. Qed.
End Rows.
