(** * Arrays in place of objects: read as objects with the names of the table *)
From Verif Require Import Base F32 BalanceJson BalanceJsonSpec BalanceJsonFacts BalanceJsonNear UnitFileSpec UnitFileFacts.
#[local] Open Scope string_scope.
#[local] Open Scope Z_scope.
#[local] Open Scope list_scope.

(** How many fields an array must have. *)
Fixpoint least_of (fs : list (string * (jty * option jval))) : nat :=
  match fs with [] => 0%nat | f :: fs' => match least_of fs', snd (snd f) with O, Some _ => 0%nat | n, _ => Datatypes.S n end end.
Fixpoint members_eqb (a b : list member) : bool := match a, b with [], [] => true | x :: a', y :: b' => member_eqb x y && members_eqb a' b' | _, _ => false end.
Fixpoint distinct (l : list string) : bool := match l with [] => true | x :: l' => negb (existsb (String.eqb x) l') && distinct l' end.
Fixpoint in_table (t : jty) (p : list string) : bool :=
  match t with
  | TOpt t' => in_table t' p
  | TVec t' => match t' with TObj _ => in_table t' p | _ => false end
  | TObj fs => members_eqb (members_at p) (map rule_of fs) && (least_at p =? least_of fs)%nat && distinct (map fst fs) && forallb (fun f => in_table (fst (snd f)) (p ++ [fst f])) fs
  | _ => true
  end.
Lemma member_eqb_ok : forall a b, member_eqb a b = true -> a = b.
Proof. intros a b E. assert (X : rule_eqb ([], a) ([], b) = true) by (unfold rule_eqb; cbn [fst snd keys_eqb]; exact E). apply rule_eqb_ok in X. congruence. Qed.
Lemma members_eqb_ok : forall a b, members_eqb a b = true -> a = b.
Proof. induction a as [|x a IH]; intros [|y b] E; try discriminate; [reflexivity|]. cbn in E. apply andb_prop in E as [A B]. apply member_eqb_ok in A. subst. f_equal. auto. Qed.
Lemma distinct_ok : forall l, distinct l = true -> NoDup l.
Proof.
  induction l as [|x l IH]; intros E; [constructor|]. cbn [distinct] in E. apply andb_prop in E as [A B]. constructor; [|auto]. intros H. apply Bool.negb_true_iff in A.
  assert (X : existsb (String.eqb x) l = true) by (apply existsb_exists; exists x; split; [exact H|apply String.eqb_refl]). congruence.
Qed.

Definition row_of (p : list string) := fix go (ms : list member) (l : list json) {struct l} : list (string * json) :=
  match l, ms with
  | x :: l', r :: ms' => (me_name r, with_names (me_kind r) (p ++ [me_name r]) x) :: go ms' l'
  | _, _ => []
  end.
Lemma names_row : forall p l, with_names Object p (JArr l) = if ((least_at p <=? length l) && (length l <=? length (members_at p)))%nat then JObj (row_of p (members_at p) l) else JBool false.
Proof. reflexivity. Qed.
Lemma names_obj : forall p m, with_names Object p (JObj m) = JObj (map (fun e => (fst e, match member_named (fst e) p with Some r => with_names (me_kind r) (p ++ [fst e]) (snd e) | None => snd e end)) m).
Proof. reflexivity. Qed.
Lemma names_null : forall k p j, with_names k p j = JNull -> j = JNull.
Proof. intros k p j E. destruct k, j; cbn [with_names] in E; try discriminate; try reflexivity. destruct (_ && _); discriminate. Qed.
Lemma named_member : forall fs f, NoDup (map fst fs) -> In f fs -> find (fun e => String.eqb (me_name e) (fst f)) (map rule_of fs) = Some (rule_of f).
Proof.
  induction fs as [|g fs IH]; intros f D H; [destruct H|]. inversion D as [|? ? N D']; subst. cbn [map find]. cbn [rule_of me_name]. destruct (String.eqb_spec (fst g) (fst f)) as [E|E].
  - destruct H as [->|H]; [reflexivity|]. exfalso. apply N. rewrite E. now apply in_map.
  - destruct H as [->|H]; [congruence|]. exact (IH f D' H).
Qed.
Lemma values_map : forall (g : string -> json -> json) k m, jvalues k (map (fun e => (fst e, g (fst e) (snd e))) m) = map (g k) (jvalues k m).
Proof.
  intros g k m. unfold jvalues. induction m as [|[k' x] m IH]; [reflexivity|]. cbn [map filter fst snd]. destruct (String.eqb_spec k' k) as [->|_]; [cbn [map snd]; now rewrite IH|exact IH].
Qed.
Lemma fields_say : forall (a b : bool) m m' fs, (forall f, In f fs -> match jvalues (fst f) m with [] => missing (fst (snd f)) (snd (snd f)) | [j'] => read_json a (fst (snd f)) j' | _ => None end
    = match jvalues (fst f) m' with [] => missing (fst (snd f)) (snd (snd f)) | [j'] => read_json b (fst (snd f)) j' | _ => None end) ->
  get_fields (rows := a) m fs = get_fields (rows := b) m' fs.
Proof.
  intros a b m m' fs. induction fs as [|[k [t d]] fs IH]; intros H; [reflexivity|]. cbn [get_fields]. fold (get_fields (rows := a) m) (get_fields (rows := b) m'). rewrite IH by (intros f Hf; apply H; now right).
  pose proof (H _ (or_introl eq_refl)) as Q. cbn [fst snd] in Q. rewrite Q. reflexivity.
Qed.
Lemma values_row_other : forall p k ms l, ~ In k (map me_name ms) -> jvalues k (row_of p ms l) = [].
Proof.
  intros p k ms. induction ms as [|r ms IH]; intros [|x l] N; try reflexivity. cbn [row_of map In] in *. fold (row_of p). unfold jvalues. cbn [filter fst]. destruct (String.eqb_spec (me_name r) k) as [E|_]; [tauto|]. apply IH. tauto.
Qed.
Lemma fields_skip : forall (a : bool) k x m fs, ~ In k (map fst fs) -> get_fields (rows := a) ((k, x) :: m) fs = get_fields (rows := a) m fs.
Proof.
  intros a k x m fs N. apply fields_say. intros f Hf. unfold jvalues. cbn [filter fst]. destruct (String.eqb_spec k (fst f)) as [->|_]; [exfalso; apply N; now apply in_map|reflexivity].
Qed.
Lemma names_of_rules : forall fs, map me_name (map rule_of fs) = map fst fs.
Proof. intros fs. rewrite map_map. now apply map_ext. Qed.
Lemma row_read : forall p fs, NoDup (map fst fs) -> (forall f, In f fs -> forall j, read_json true (fst (snd f)) j = read_json false (fst (snd f)) (with_names (snd (kind_of (fst (snd f)))) (p ++ [fst f]) j)) ->
  forall l, pos_fields fs l = if ((least_of fs <=? length l) && (length l <=? length fs))%nat then get_fields (rows := false) (row_of p (map rule_of fs) l) fs else None.
Proof.
  intros p fs. induction fs as [|[k [t d]] fs IH]; intros D H l; [destruct l; reflexivity|]. inversion D as [|? ? N D']; subst. specialize (IH D' (fun f Hf => H f (or_intror Hf))).
  cbn [pos_fields]. fold pos_fields. destruct l as [|x l].
  - cbn [tl]. rewrite (IH []). cbn [least_of snd length]. destruct (least_of fs) as [|n]; destruct d as [y|]; cbn [Nat.leb andb]; try reflexivity.
  - cbn [tl length]. rewrite (IH l). assert (L : ((least_of ((k, (t, d)) :: fs) <=? S (length l)) = (least_of fs <=? length l))%nat).
    { cbn [least_of snd]. destruct (least_of fs) as [|n]; [destruct d; destruct (length l); reflexivity|]. reflexivity. }
    cbn [Nat.leb]. fold (Nat.leb (length l) (length fs)). rewrite L. destruct ((least_of fs <=? length l)%nat && (length l <=? length fs)%nat); [|destruct (read_json true t x); reflexivity].
    cbn [map row_of]. fold (row_of p). cbn [rule_of me_name me_kind fst snd get_fields]. fold (get_fields (rows := false) ((k, with_names (snd (kind_of t)) (p ++ [k]) x) :: row_of p (map rule_of fs) l)).
    rewrite fields_skip by exact N. unfold jvalues. cbn [filter fst]. rewrite String.eqb_refl. cbn [map snd].
    pose proof (values_row_other p k (map rule_of fs) l) as C. rewrite names_of_rules in C. specialize (C N). unfold jvalues in C. rewrite C.
    pose proof (H _ (or_introl eq_refl) x) as Q. cbn [fst snd] in Q. rewrite Q. reflexivity.
Qed.
Lemma leaf_names : forall t p j, (match t with TStr | TInt _ _ | TF32 => true | _ => false end) = true -> read_json true t j = read_json false t (with_names (snd (kind_of t)) p j).
Proof. intros t p j E. destruct t; try discriminate; destruct j; reflexivity. Qed.
Lemma read_named : forall t, forall p, in_table t p = true -> forall j, read_json true t j = read_json false t (with_names (snd (kind_of t)) p j).
Proof.
  apply (jty_rect' (fun t => forall p, in_table t p = true -> forall j, read_json true t j = read_json false t (with_names (snd (kind_of t)) p j))); try (intros; now apply leaf_names).
  - intros t IH p W j. cbn [in_table] in W. cbn [kind_of snd]. destruct (with_names (snd (kind_of t)) p j) eqn:E; try (cbn [read_json]; rewrite <- E, <- (IH p W j); destruct j; try reflexivity; destruct (snd (kind_of t)); discriminate).
    apply names_null in E. now subst.
  - intros t IH p W j. destruct t as [| | | | |fs]; try discriminate. cbn [in_table] in W. specialize (IH p W). cbn [kind_of snd]. destruct j as [| | | | |l|]; try reflexivity. cbn [with_names].
    change (option_map XVec (all_some (read_json true (TObj fs)) l) = option_map XVec (all_some (read_json false (TObj fs)) (map (with_names Object p) l))). f_equal.
    clear W. induction l as [|x l IHl]; [reflexivity|]. cbn [all_some map]. rewrite IHl, (IH x). reflexivity.
  - intros fs IH p W j. cbn [in_table] in W. apply andb_prop in W as [W C]. apply andb_prop in W as [W D]. apply andb_prop in W as [A B]. apply members_eqb_ok in A. apply Nat.eqb_eq in B. apply distinct_ok in D. rewrite forallb_forall in C. rewrite Forall_forall in IH.
    cbn [kind_of snd]. destruct j as [| | | | |l|m]; try reflexivity.
    + rewrite from_arr, names_row, A, B, map_length. rewrite (row_read p fs D); [|intros f Hf; apply (IH f Hf); exact (C f Hf)]. destruct (_ && _); [now rewrite from_obj|reflexivity].
    + rewrite names_obj, !from_obj. f_equal. apply fields_say. intros f Hf. rewrite (values_map (fun k x => match member_named k p with Some r => with_names (me_kind r) (p ++ [k]) x | None => x end)).
      unfold member_named. rewrite A, (named_member fs f D Hf). cbn [rule_of me_kind]. destruct (jvalues (fst f) m) as [|x [|y l]]; try reflexivity. cbn [map]. exact (IH f Hf _ (C f Hf) x).
Qed.
Lemma unit_by_name : forall j, from_value j_unit j = read_json false j_unit (by_name j).
Proof. intros j. apply (read_named j_unit []). vm_compute. reflexivity. Qed.
Lemma all_readable : forall j, (exists v, from_value j_unit j = Some v) <-> unit_json (by_name j).
Proof. intros j. rewrite unit_by_name. apply strict_readable. Qed.

(** ** No such array: nothing changes *)
Lemma plain_value : forall fs m f x, plainly (TObj fs) (JObj m) -> In f fs -> In x (jvalues (fst f) m) -> plainly (fst (snd f)) x.
Proof.
  intros fs m f x [_ H] Hf Hx. split.
  - assert (A : plain_rule ([], rule_of f) (JObj m)) by (apply H; [apply rules_obj; exists f; auto|now left]). apply (A m x); [now left|exact Hx].
  - intros r y Hr Hy. assert (A : plain_rule (fst f :: fst r, snd r) (JObj m)) by (apply H; [apply rules_obj; exists f; split; [exact Hf|right; exists r; auto]|now left]).
    destruct r as [p e]. apply (plain_cons _ _ _ _ A). apply in_flat_map. eauto.
Qed.
Lemma named_in : forall k fs r, find (fun e => String.eqb (me_name e) k) (map rule_of fs) = Some r -> exists f, In f fs /\ fst f = k /\ r = rule_of f.
Proof. intros k fs r E. apply find_some in E as [H E]. apply in_map_iff in H as (f & <- & Hf). exists f. split; [exact Hf|]. split; [now apply String.eqb_eq|reflexivity]. Qed.
Lemma map_same : forall A (f : A -> A) l, (forall x, In x l -> f x = x) -> map f l = l.
Proof. intros A f l H. rewrite <- (map_id l) at 2. now apply map_ext_in. Qed.
Lemma plain_named : forall t p, in_table t p = true -> forall j, plainly t j -> with_names (snd (kind_of t)) p j = j.
Proof.
  apply (jty_rect' (fun t => forall p, in_table t p = true -> forall j, plainly t j -> with_names (snd (kind_of t)) p j = j)); try (intros; destruct j; reflexivity).
  - intros t IH p W j P. cbn [in_table] in W. apply plain_opt in P. cbn [kind_of snd]. auto.
  - intros t IH p W j P. destruct t as [| | | | |fs]; try discriminate. cbn [in_table] in W. cbn [kind_of snd]. destruct j as [| | | | |l|]; try reflexivity. cbn [with_names]. f_equal. apply map_same. intros x Hx. apply (IH p W). eapply plain_element; eauto.
  - intros fs IH p W j P. cbn [in_table] in W. apply andb_prop in W as [W C]. apply andb_prop in W as [W D]. apply andb_prop in W as [A B]. apply members_eqb_ok in A. rewrite forallb_forall in C. rewrite Forall_forall in IH.
    cbn [kind_of snd]. destruct j as [| | | | |l|m]; try reflexivity; [destruct P as [P _]; destruct (P l eq_refl)|]. rewrite names_obj. f_equal. apply map_same. intros [k x] Hx. cbn [fst snd]. f_equal.
    unfold member_named. rewrite A. destruct (find _ _) as [r|] eqn:E; [|reflexivity]. apply named_in in E as (f & Hf & <- & ->). cbn [rule_of me_kind]. apply (IH f Hf _ (C f Hf)). eapply plain_value; eauto.
    unfold jvalues. apply in_map_iff. exists (fst f, x). split; [reflexivity|]. apply filter_In. split; [exact Hx|]. apply String.eqb_refl.
Qed.
Lemma objects_named : forall j, objects_only j -> by_name j = j.
Proof. intros j O. apply (plain_named j_unit []); [vm_compute; reflexivity|]. now apply objects_plain. Qed.
