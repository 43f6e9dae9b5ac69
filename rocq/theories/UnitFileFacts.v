(** * A JSON value is read as a unit exactly if it keeps to the rules *)
From Verif Require Import Base F32 BalanceJson BalanceJsonSpec BalanceJsonFacts BalanceJsonNear UnitFileSpec.
#[local] Open Scope string_scope.
#[local] Open Scope Z_scope.
#[local] Open Scope list_scope.

Definition readable (t : jty) (j : json) : Prop := exists v, read_json false t j = Some v.
(** A member of the type [t]: whether it may be null, and its kind. *)
Fixpoint kind_of (t : jty) : bool * kind :=
  match t with
  | TStr => (false, Text) | TInt lo hi => (false, Whole lo hi) | TF32 => (false, Number)
  | TOpt t' => (true, snd (kind_of t')) | TVec _ => (false, Objects) | TObj _ => (false, Object)
  end.
Definition rule_of (f : string * (jty * option jval)) : member :=
  mk_member (fst f) (match missing (fst (snd f)) (snd (snd f)) with Some _ => false | None => true end) (fst (kind_of (fst (snd f)))) (snd (kind_of (fst (snd f)))).
Fixpoint rules (t : jty) : list (list string * member) :=
  match t with
  | TOpt t' | TVec t' => rules t'
  | TObj fs => (fix go (l : list (string * (jty * option jval))) : list (list string * member) :=
      match l with [] => [] | f :: l' => ([], rule_of f) :: map (fun r => (fst f :: fst r, snd r)) (rules (fst (snd f))) ++ go l' end) fs
  | _ => []
  end.
(** Lists are lists of objects. *)
Fixpoint of_objects (t : jty) : bool :=
  match t with
  | TOpt t' => of_objects t'
  | TVec t' => match t' with TObj _ => of_objects t' | _ => false end
  | TObj fs => forallb (fun f => of_objects (fst (snd f))) fs
  | _ => true
  end.
Definition kept (r : list string * member) (j : json) : Prop := forall m, In (JObj m) (at_path (fst r) j) -> keeps m (snd r).
Definition may_be (nk : bool * kind) (j : json) : Prop := (fst nk = true /\ j = JNull) \/ fits (snd nk) j.
Definition obeys (t : jty) (j : json) : Prop := may_be (kind_of t) j /\ forall r x, In r (rules t) -> In x (elements j) -> kept r x.

Lemma kept_cons : forall k p e m, kept (k :: p, e) (JObj m) <-> forall x, In x (flat_map elements (jvalues k m)) -> kept (p, e) x.
Proof.
  intros k p e m. unfold kept. cbn [fst snd at_path]. split.
  - intros H x Hx m' Hm. apply H. apply in_flat_map. eauto.
  - intros H m' Hm. apply in_flat_map in Hm as (x & Hx & Hm). exact (H x Hx m' Hm).
Qed.
Lemma kept_null : forall r, kept r JNull.
Proof. intros [[|k p] e] m H; cbn in H; [destruct H as [H|[]]; discriminate|destruct H]. Qed.

Lemma rules_obj : forall fs r, In r (rules (TObj fs)) <-> exists f, In f fs /\ (r = ([], rule_of f) \/ exists r', In r' (rules (fst (snd f))) /\ r = (fst f :: fst r', snd r')).
Proof.
  intros fs r. cbn [rules]. induction fs as [|f fs IH].
  - split; [intros []|intros (f & [] & _)].
  - split.
    + intros [H|H]; [exists f; split; [now left|]; now left|]. apply in_app_or in H as [H|H].
      * apply in_map_iff in H as (r' & <- & H). exists f. split; [now left|]. right. eauto.
      * apply IH in H as (g & Hg & H). exists g. split; [now right|exact H].
    + intros (g & [->|Hg] & [->|(r' & Hr & ->)]).
      * now left.
      * right. apply in_or_app. left. apply in_map_iff. exists r'. auto.
      * right. apply in_or_app. right. apply IH. exists g. eauto.
      * right. apply in_or_app. right. apply IH. exists g. split; [exact Hg|]. right. eauto.
Qed.
(** A field of an object. *)
Definition field_ok (m : list (string * json)) (f : string * (jty * option jval)) : Prop :=
  match jvalues (fst f) m with [] => missing (fst (snd f)) (snd (snd f)) <> None | [j] => readable (fst (snd f)) j | _ => False end.
Lemma readable_obj : forall fs j, readable (TObj fs) j <-> exists m, j = JObj m /\ Forall (field_ok m) fs.
Proof.
  intros fs j. unfold readable. split.
  - intros (v & E). destruct j as [|b|z|x|s|l|m]; try discriminate. exists m. split; [reflexivity|]. rewrite from_obj in E. destruct (get_fields (rows:=false) m fs) as [vs|] eqn:G; [|discriminate]. clear E v.
    revert vs G. induction fs as [|[k [t d]] fs IH]; intros vs G; [constructor|]. cbn [get_fields] in G.
    destruct (match jvalues k m with [] => missing t d | [j'] => read_json false t j' | _ => None end) as [v|] eqn:E; [|discriminate]. fold (get_fields (rows:=false) m fs) in G. destruct (get_fields (rows:=false) m fs) as [vs'|] eqn:G'; [|discriminate].
    constructor; [|eapply IH; eauto]. unfold field_ok, readable. cbn [fst snd]. destruct (jvalues k m) as [|j [|? ?]]; [congruence|eauto|discriminate].
  - intros (m & -> & H). rewrite from_obj. assert (K : exists vs, get_fields (rows:=false) m fs = Some vs); [|destruct K as (vs & ->); cbn; eauto].
    induction H as [|[k [t d]] fs Hf _ (vs & IH)]; [cbn; eauto|]. cbn [get_fields]. fold (get_fields (rows:=false) m fs). rewrite IH. unfold field_ok, readable in Hf. cbn [fst snd] in Hf.
    destruct (jvalues k m) as [|j [|? ?]]; [destruct (missing t d); [eauto|congruence]| |destruct Hf]. destruct Hf as (v & ->). eauto.
Qed.
Lemma readable_vec : forall t j, readable (TVec t) j <-> exists l, j = JArr l /\ Forall (readable t) l.
Proof.
  intros t j. unfold readable. split.
  - intros (v & E). cbn [read_json] in E. destruct j as [|b|z|x|s|l|m]; try discriminate. exists l. split; [reflexivity|]. apply Forall_forall. intros x Hx.
    destruct (all_some (read_json false t) l) as [ys|] eqn:El; [|discriminate]. eapply all_some_In; eauto.
  - intros (l & -> & H). cbn [read_json]. assert (K : exists ys, all_some (read_json false t) l = Some ys); [|destruct K as (ys & ->); cbn; eauto].
    induction H as [|x l (y & Hy) _ (ys & IH)]; cbn [all_some]; [eauto|]. rewrite Hy, IH. eauto.
Qed.
Lemma readable_opt : forall t j, readable (TOpt t) j <-> j = JNull \/ readable t j.
Proof.
  intros t j. unfold readable. split.
  - intros (v & E). exact (opt_value _ _ _ E).
  - intros [->|(v & E)]; [cbn; eauto|]. destruct j; cbn [read_json]; rewrite ?E; cbn; eauto.
Qed.
Lemma obj_obeys : forall fs, Forall (fun f => forall j, readable (fst (snd f)) j <-> obeys (fst (snd f)) j) fs -> forall j, readable (TObj fs) j <-> obeys (TObj fs) j.
Proof.
  intros fs IH j. rewrite readable_obj. rewrite Forall_forall in IH. split.
  - intros (m & -> & H). rewrite Forall_forall in H. split; [right; cbn; eauto|]. intros r x Hr [<-|[]]. apply rules_obj in Hr as (f & Hf & Hr). specialize (H f Hf). unfold field_ok in H. destruct Hr as [->|(r' & Hr & ->)].
    + intros m' Hm. cbn [fst snd at_path] in *. destruct Hm as [Hm|[]]. injection Hm as <-. unfold keeps, rule_of. cbn [me_name me_must me_null me_kind].
      destruct (jvalues (fst f) m) as [|j [|? ?]]; [left; destruct (missing _ _); [auto|congruence]| |destruct H]. right. exists j. split; [reflexivity|]. apply (IH f Hf) in H as [H _]. exact H.
    + apply kept_cons. intros x Hx. destruct (jvalues (fst f) m) as [|j [|? ?]]; [destruct Hx| |destruct H]. cbn [flat_map] in Hx. rewrite app_nil_r in Hx. apply (IH f Hf) in H as [_ H]. apply H; [destruct r'; exact Hr|exact Hx].
  - intros [K H]. destruct K as [[K _]|K]; [discriminate|]. cbn in K. destruct K as (m & ->). exists m. split; [reflexivity|]. apply Forall_forall. intros f Hf.
    assert (A : keeps m (rule_of f)). { assert (A := H ([], rule_of f) (JObj m)). apply A; [apply rules_obj; eauto|now left|now left]. }
    unfold field_ok. unfold keeps, rule_of in A. cbn [me_name me_must me_null me_kind] in A. destruct A as [[E A]|(j & E & A)]; rewrite E; [intros X; rewrite X in A; discriminate|].
    apply (IH f Hf). split; [exact A|]. intros r x Hr Hx. assert (B : kept (fst f :: fst r, snd r) (JObj m)) by (apply H; [apply rules_obj; exists f; split; [exact Hf|right; exists r; auto]|now left]).
    destruct r as [p e]. apply (proj1 (kept_cons _ _ _ _)) with (x := x) in B; [exact B|]. rewrite E. cbn [flat_map]. rewrite app_nil_r. exact Hx.
Qed.
Lemma readable_obeys : forall t, of_objects t = true -> forall j, readable t j <-> obeys t j.
Proof.
  apply (jty_rect' (fun t => of_objects t = true -> forall j, readable t j <-> obeys t j)).
  - intros _ j. unfold readable, obeys, may_be. cbn [kind_of fst snd fits rules read_json In]. split.
    + intros (v & E). destruct j; try discriminate. split; [right; eauto|intros ? ? []].
    + intros [[[? _]|(s & ->)] _]; [discriminate|eauto].
  - intros lo hi _ j. unfold readable, obeys, may_be. cbn [kind_of fst snd fits rules read_json In]. split.
    + intros (v & E). destruct j; try discriminate. destruct (Z.leb_spec lo z); [|discriminate]. destruct (Z.leb_spec z hi); [|discriminate]. split; [right; eauto|intros ? ? []].
    + intros [[[? _]|(z & -> & Hz)] _]; [discriminate|]. destruct (Z.leb_spec lo z); [|lia]. destruct (Z.leb_spec z hi); [|lia]. cbn. eauto.
  - intros _ j. unfold readable, obeys, may_be. cbn [kind_of fst snd fits rules read_json In]. split.
    + intros (v & E). destruct j; try discriminate; (split; [right; eauto|intros ? ? []]).
    + intros [[[? _]|[(x & ->)|(z & ->)]] _]; [discriminate|eauto|eauto].
  - intros t IH W j. rewrite readable_opt, (IH W j). unfold obeys, may_be. cbn [kind_of fst snd rules]. split.
    + intros [->|[[[_ ->]|K] H]]; [|auto|auto]. split; [auto|]. intros r x _ [<-|[]]. apply kept_null.
    + intros [[[_ ->]|K] H]; auto.
  - intros t IH W j. rewrite readable_vec. destruct t as [| | | | |fs]; try discriminate. cbn [of_objects] in W. specialize (IH W). unfold obeys, may_be. cbn [kind_of fst snd fits].
    change (rules (TVec (TObj fs))) with (rules (TObj fs)). split.
    + intros (l & -> & H). rewrite Forall_forall in H. split.
      * right. exists l. split; [reflexivity|]. apply Forall_forall. intros x Hx. destruct (proj1 (readable_obj _ _) (H x Hx)) as (m & -> & _). eauto.
      * intros r x Hr Hx. cbn [elements] in Hx. pose proof (H x Hx) as R. destruct (proj1 (readable_obj _ _) R) as (m & -> & _). apply (proj1 (IH _)) in R as [_ R]. apply R; [exact Hr|now left].
    + intros [[[X _]|(l & -> & K)] H]; [discriminate|]. exists l. split; [reflexivity|]. rewrite Forall_forall in *. intros x Hx. destruct (K x Hx) as (m & ->). apply IH. split; [right; cbn; eauto|].
      intros r y Hr [<-|[]]. exact (H r _ Hr Hx).
  - intros fs IH W j. apply obj_obeys. cbn [of_objects] in W. rewrite forallb_forall in W. rewrite Forall_forall in *. intros f Hf. exact (IH f Hf (W f Hf)).
Qed.

(** ** The rules for a unit are those of the table *)
Definition kind_eqb (a b : kind) : bool :=
  match a, b with Text, Text | Number, Number | Object, Object | Objects, Objects => true | Whole l h, Whole l' h' => (l =? l') && (h =? h') | _, _ => false end.
Definition member_eqb (a b : member) : bool :=
  String.eqb (me_name a) (me_name b) && Bool.eqb (me_must a) (me_must b) && Bool.eqb (me_null a) (me_null b) && kind_eqb (me_kind a) (me_kind b).
Fixpoint keys_eqb (a b : list string) : bool := match a, b with [], [] => true | x :: a', y :: b' => String.eqb x y && keys_eqb a' b' | _, _ => false end.
Definition rule_eqb (a b : list string * member) : bool := keys_eqb (fst a) (fst b) && member_eqb (snd a) (snd b).
Lemma kind_eqb_ok : forall a b, kind_eqb a b = true -> a = b.
Proof. intros [|l h| | |] [|l' h'| | |] E; try discriminate; try reflexivity. cbn in E. apply andb_prop in E as [A B]. apply Z.eqb_eq in A, B. now subst. Qed.
Lemma keys_eqb_ok : forall a b, keys_eqb a b = true -> a = b.
Proof. induction a as [|x a IH]; intros [|y b] E; try discriminate; [reflexivity|]. cbn in E. apply andb_prop in E as [A B]. apply String.eqb_eq in A. subst. f_equal. auto. Qed.
Lemma rule_eqb_ok : forall a b, rule_eqb a b = true -> a = b.
Proof.
  intros [p [n m u k]] [p' [n' m' u' k']] E. unfold rule_eqb, member_eqb in E. cbn in E. apply andb_prop in E as [A E]. apply andb_prop in E as [E B]. apply andb_prop in E as [E C]. apply andb_prop in E as [D E].
  apply keys_eqb_ok in A. apply kind_eqb_ok in B. apply String.eqb_eq in D. apply Bool.eqb_prop in C, E. now subst.
Qed.
Definition table_rules : list (list string * member) := flat_map (fun pm => flat_map (fun p => map (fun e => (p, e)) (snd pm)) (fst pm)) unit_objects.
Lemma table_in : forall p e, In (p, e) table_rules <-> exists paths members, In (paths, members) unit_objects /\ In p paths /\ In e members.
Proof.
  intros p e. unfold table_rules. rewrite in_flat_map. split.
  - intros ([ps ms] & H & K). apply in_flat_map in K as (q & Hq & K). apply in_map_iff in K as (e' & X & K). injection X as -> ->. eauto 6.
  - intros (ps & ms & H & Hp & He). exists (ps, ms). split; [exact H|]. apply in_flat_map. exists p. split; [exact Hp|]. apply in_map_iff. eauto.
Qed.
Lemma sub_rules : forall a b, forallb (fun x => existsb (rule_eqb x) b) a = true -> forall x, In x a -> In x b.
Proof. intros a b H x Hx. rewrite forallb_forall in H. apply H in Hx. apply existsb_exists in Hx as (y & Hy & E). apply rule_eqb_ok in E. now subst. Qed.
Lemma same_rules : forall r, In r (rules j_unit) <-> In r table_rules.
Proof. intros r. split; apply sub_rules; vm_compute; reflexivity. Qed.
Lemma strict_readable : forall j, (exists v, read_json false j_unit j = Some v) <-> unit_json j.
Proof.
  intros j. change (readable j_unit j <-> unit_json j). rewrite (readable_obeys j_unit) by (vm_compute; reflexivity). unfold obeys, unit_json, may_be.
  change (kind_of j_unit) with (false, Object). cbn [fst snd fits]. split.
  - intros [[[X _]|(m & ->)] H]; [discriminate|]. split; [eauto|]. intros ps ms p m' e Ht Hp He Hm. eapply (H (p, e)); [apply same_rules, table_in; eauto|now left|exact Hm].
  - intros [(m & ->) H]. split; [eauto|]. intros [p e] x Hr [<-|[]]. intros m' Hm. apply same_rules, table_in in Hr as (ps & ms & A & B & C). eapply H; eauto.
Qed.


(** ** Arrays in place of objects *)
Definition plain_rule (r : list string * member) (x : json) : Prop := forall m y, In (JObj m) (at_path (fst r) x) -> In y (jvalues (me_name (snd r)) m) -> no_array (me_kind (snd r)) y.
Definition plainly (t : jty) (j : json) : Prop := no_array (snd (kind_of t)) j /\ forall r x, In r (rules t) -> In x (elements j) -> plain_rule r x.
Lemma plain_cons : forall k p e m, plain_rule (k :: p, e) (JObj m) -> forall x, In x (flat_map elements (jvalues k m)) -> plain_rule (p, e) x.
Proof. intros k p e m H x Hx m' y Hm. apply H. cbn [fst at_path]. apply in_flat_map. eauto. Qed.
Lemma plain_field : forall fs m f j, plainly (TObj fs) (JObj m) -> In f fs -> jvalues (fst f) m = [j] -> plainly (fst (snd f)) j.
Proof.
  intros fs m f j [_ H] Hf E. split.
  - assert (A : plain_rule ([], rule_of f) (JObj m)) by (apply H; [apply rules_obj; exists f; auto|now left]). apply (A m j); [now left|]. cbn [snd rule_of me_name]. rewrite E. now left.
  - intros r x Hr Hx. assert (A : plain_rule (fst f :: fst r, snd r) (JObj m)) by (apply H; [apply rules_obj; exists f; split; [exact Hf|right; exists r; auto]|now left]).
    destruct r as [p e]. apply (plain_cons _ _ _ _ A). rewrite E. cbn [flat_map]. rewrite app_nil_r. exact Hx.
Qed.
Lemma plain_element : forall fs l x, plainly (TVec (TObj fs)) (JArr l) -> In x l -> plainly (TObj fs) x.
Proof.
  intros fs l x [A H] Hx. cbn [kind_of snd no_array] in A. split; [intros l' ->; exact (A l _ l' eq_refl Hx eq_refl)|].
  intros r y Hr Hy. apply H; [exact Hr|]. destruct x as [|b|z|w|s|l'|m]; cbn [elements In] in *; try (destruct Hy as [<-|[]]; exact Hx). destruct (A l _ l' eq_refl Hx eq_refl).
Qed.
Lemma plain_opt : forall t j, plainly (TOpt t) j <-> plainly t j.
Proof. intros t j. reflexivity. Qed.
Lemma rows_do_not_matter : forall t, of_objects t = true -> forall j, plainly t j -> read_json true t j = read_json false t j.
Proof.
  apply (jty_rect' (fun t => of_objects t = true -> forall j, plainly t j -> read_json true t j = read_json false t j)); try reflexivity.
  - intros t IH W j P. apply plain_opt in P. destruct j; cbn [read_json]; try reflexivity; rewrite (IH W _ P); reflexivity.
  - intros t IH W j P. destruct t as [| | | | |fs]; try discriminate. cbn [of_objects] in W. specialize (IH W). destruct j as [| | | | |l|]; try reflexivity. change (option_map XVec (all_some (read_json true (TObj fs)) l) = option_map XVec (all_some (read_json false (TObj fs)) l)). f_equal.
    assert (Q : forall x, In x l -> plainly (TObj fs) x) by (intros x; apply plain_element; exact P). clear P. induction l as [|x l IHl]; [reflexivity|]. cbn [all_some]. rewrite (IH x) by (apply Q; now left). rewrite IHl by (intros y Hy; apply Q; now right). reflexivity.
  - intros fs IH W j P. cbn [of_objects] in W. rewrite forallb_forall in W. rewrite Forall_forall in IH. destruct j as [| | | | |l|m]; try reflexivity; [destruct P as [P _]; destruct (P l eq_refl)|]. rewrite !from_obj. f_equal.
    assert (Q : forall f x, In f fs -> jvalues (fst f) m = [x] -> read_json true (fst (snd f)) x = read_json false (fst (snd f)) x) by (intros f x Hf E; apply (IH f Hf (W f Hf)); eapply plain_field; eauto).
    clear P W IH. induction fs as [|[k [t d]] fs IH]; [reflexivity|]. cbn [get_fields]. fold (get_fields (rows:=true) m) (get_fields (rows:=false) m). rewrite IH by (intros f x Hf; apply Q; now right).
    specialize (Q _ (match jvalues k m with x :: _ => x | [] => JNull end) (or_introl eq_refl)). cbn [fst snd] in Q. destruct (jvalues k m) as [|x [|? ?]]; [reflexivity| |reflexivity]. now rewrite Q.
Qed.
Lemma objects_plain : forall j, objects_only j -> plainly j_unit j.
Proof.
  intros j [A H]. split; [exact A|]. intros [p e] x Hr Hx m y Hm Hy. apply same_rules, table_in in Hr as (ps & ms & Ht & Hp & He). destruct j as [|b|z|w|s|l|m0]; cbn [elements] in Hx; try (destruct Hx as [<-|[]]; eapply H; eauto; fail).
  destruct (A l eq_refl).
Qed.
Lemma unit_strict : forall j, objects_only j -> from_value j_unit j = read_json false j_unit j.
Proof. intros j H. apply rows_do_not_matter; [vm_compute; reflexivity|exact (objects_plain j H)]. Qed.
Lemma json_objects : forall j, unit_json j -> objects_only j.
Proof.
  intros j [(m & ->) H]. split; [intros l; discriminate|]. intros ps ms p m' e x Ht Hp He Hm Hx. destruct (H ps ms p m' e Ht Hp He Hm) as [[E _]|(y & E & K)]; rewrite E in Hx; [destruct Hx|]. destruct Hx as [->|[]].
  destruct K as [[_ ->]|K]; [destruct (me_kind e); cbn; try exact Logic.I; intros; discriminate|]. destruct (me_kind e); try exact Logic.I.
  - destruct K as (m'' & ->). intros l; discriminate.
  - destruct K as (l & -> & K). rewrite Forall_forall in K. intros l0 z l' X Hz Hl. injection X as <-. destruct (K z Hz) as (m'' & Q). congruence.
Qed.
Lemma unit_readable : forall j, (exists v, from_value j_unit j = Some v) /\ objects_only j <-> unit_json j.
Proof.
  intros j. split.
  - intros [(v & E) O]. apply strict_readable. exists v. now rewrite <- (unit_strict j O).
  - intros U. pose proof (json_objects j U) as O. split; [|exact O]. apply strict_readable in U as (v & E). exists v. now rewrite (unit_strict j O).
Qed.

Definition pos_fields := fix pos (fs : list (string * (jty * option jval))) (l : list json) : option (list jval) :=
  match fs with
  | [] => match l with [] => Some [] | _ => None end
  | (_, (t', d)) :: fs' =>
      match match l with [] => d | j' :: _ => read_json true t' j' end, pos fs' (tl l) with
      | Some v, Some vs => Some (v :: vs)
      | _, _ => None
      end
  end.
Lemma from_arr : forall fs l, read_json true (TObj fs) (JArr l) = option_map XObj (pos_fields fs l).
Proof. reflexivity. Qed.
Lemma fields_other : forall k x m fs, ~ In k (map fst fs) -> get_fields (rows := true) ((k, x) :: m) fs = get_fields (rows := true) m fs.
Proof.
  intros k x m fs N. induction fs as [|[k' [t d]] fs IH]; [reflexivity|]. cbn [get_fields]. fold (get_fields (rows := true) m) (get_fields (rows := true) ((k, x) :: m)). cbn [map fst In] in N. rewrite IH by tauto.
  unfold jvalues. cbn [filter fst]. destruct (String.eqb_spec k k') as [->|_]; [tauto|reflexivity].
Qed.
Lemma combine_other : forall k (ks : list string) (l : list json), ~ In k ks -> jvalues k (combine ks l) = [].
Proof.
  intros k ks. induction ks as [|k' ks IH]; intros [|x l] N; try reflexivity. cbn [combine In] in *. unfold jvalues. cbn [filter fst]. destruct (String.eqb_spec k' k) as [->|_]; [tauto|]. apply IH. tauto.
Qed.
Lemma pos_named : forall fs l, NoDup (map fst fs) -> (length l <= length fs)%nat -> forallb (fun f => match snd (snd f) with Some _ => true | None => false end) (skipn (length l) fs) = true ->
  pos_fields fs l = get_fields (rows := true) (combine (map fst fs) l) fs.
Proof.
  induction fs as [|[k [t d]] fs IH]; intros l D L S; [destruct l; [reflexivity|inversion L]|]. inversion D as [|? ? N D']; subst. cbn [map fst] in N.
  destruct l as [|x l].
  - cbn [pos_fields tl]. cbn [skipn length forallb snd] in S. apply andb_prop in S as [S1 S2]. fold pos_fields. rewrite (IH [] D') by (cbn [length skipn]; (lia || exact S2)).
    cbn [map combine get_fields]. fold (get_fields (rows := true) []). cbn [jvalues filter map]. assert (X : forall ks, combine ks (@nil json) = @nil (string * json)) by (intros []; reflexivity). rewrite X.
    destruct d; [reflexivity|discriminate].
  - cbn [pos_fields tl]. fold pos_fields. cbn [length] in *. cbn [skipn] in S. rewrite (IH l D') by (assumption || lia). cbn [map fst combine get_fields]. fold (get_fields (rows := true) ((k, x) :: combine (map fst fs) l)).
    rewrite (fields_other _ _ _ _ N). unfold jvalues. cbn [filter fst]. rewrite String.eqb_refl. fold (jvalues k (combine (map fst fs) l)). cbn [map snd].
    pose proof (combine_other k (map fst fs) l N) as C. unfold jvalues in C. rewrite C. reflexivity.
Qed.
Lemma pos_long : forall fs l, (length fs < length l)%nat -> pos_fields fs l = None.
Proof.
  induction fs as [|[k [t d]] fs IH]; intros [|x l] L; cbn [length] in L; try lia; [reflexivity|]. cbn [pos_fields tl]. fold pos_fields. rewrite (IH l) by lia. destruct (read_json true t x); reflexivity.
Qed.
Lemma pos_short : forall fs l, existsb (fun f => match snd (snd f) with Some _ => false | None => true end) (skipn (length l) fs) = true -> pos_fields fs l = None.
Proof.
  induction fs as [|[k [t d]] fs IH]; intros l E; [destruct l; discriminate|]. cbn [pos_fields]. fold pos_fields. destruct l as [|x l]; cbn [tl length skipn existsb snd] in *.
  - destruct d as [y|]; [|reflexivity]. cbn [orb] in E. rewrite (IH []) by exact E. reflexivity.
  - rewrite (IH l E). destruct (read_json true t x); reflexivity.
Qed.
Lemma unit_arrays : forall l, from_value j_unit (JArr l) =
  if ((12 <=? length l) && (length l <=? 21))%nat then from_value j_unit (JObj (combine (match unit_objects with (_, ms) :: _ => map me_name ms | [] => [] end) l)) else None.
Proof.
  intros l. change (match unit_objects with (_, ms) :: _ => map me_name ms | [] => [] end) with (map (fun f : string * (jty * option jval) => fst f) (match j_unit with TObj fs => fs | _ => [] end)).
  unfold j_unit. match goal with |- read_json true (TObj ?x) _ = _ => set (fs := x) end. rewrite from_arr, from_obj.
  assert (Lf : length fs = 21%nat) by reflexivity.
  assert (ND : NoDup (map fst fs)). { unfold fs, fld, dfl. cbn [map fst]. repeat (constructor; [cbn [In]; intuition discriminate|]). constructor. }
  destruct (Nat.leb_spec 12 (length l)) as [A|A]; cbn [andb].
  - destruct (Nat.leb_spec (length l) 21) as [B|B].
    + f_equal. apply pos_named; [exact ND|lia|]. clear ND.
      assert (S : forallb (fun f : string * (jty * option jval) => match snd (snd f) with Some _ => true | None => false end) (skipn 12 fs) = true) by reflexivity.
      replace (length l) with (12 + (length l - 12))%nat by lia. rewrite <- BitProofs.skipn_skipn'. rewrite forallb_forall in S |- *. intros f Hf. apply S. rewrite <- (firstn_skipn (length l - 12) (skipn 12 fs)). apply in_or_app. now right.
    + rewrite pos_long by lia. reflexivity.
  - rewrite pos_short; [reflexivity|]. clear ND. do 12 (destruct l as [|? l]; [reflexivity|]). cbn [length] in A. lia.
Qed.
