(** * Facts about the loops and handlers of the state machine *)
From Verif Require Import Base F32 Tags Events Maps Balance Lobby Convert State.
#[local] Open Scope Z_scope.
#[local] Open Scope list_scope.

(** [units'] is [units] with every unit changed by [h]. *)
Definition acts (h : Z -> sc2_unit -> sc2_unit) (units units' : list (Z * sc2_unit)) : Prop :=
  forall i, mget i units' = option_map (h i) (mget i units).
(** The index of [i] is among the units named by [tags]. *)
Definition named (tags : list Z) (i : Z) : bool := existsb (fun t => unit_tag_index t =? i) tags.
Definition on_named (tags : list Z) (f : sc2_unit -> sc2_unit) (i : Z) (u : sc2_unit) : sc2_unit :=
  if named tags i then f u else u.

Lemma named_In : forall tags i, named tags i = true <-> exists t, In t tags /\ unit_tag_index t = i.
Proof.
  intros tags i. unfold named. rewrite existsb_exists. split; intros (t & Ht & E); exists t; split; auto; [apply Z.eqb_eq, E|apply Z.eqb_eq; exact E].
Qed.
Lemma named_map : forall tags i, named tags i = true <-> In i (map unit_tag_index tags).
Proof. intros tags i. rewrite named_In, in_map_iff. split; intros (t & A & B); exists t; auto. Qed.
Lemma acts_id : forall units, acts (fun _ u => u) units units.
Proof. intros units i. destruct (mget i units); reflexivity. Qed.
Lemma acts_comp : forall h h' a b c, acts h a b -> acts h' b c -> acts (fun i u => h' i (h i u)) a c.
Proof. intros h h' a b c H1 H2 i. rewrite H2, H1. destruct (mget i a); reflexivity. Qed.
Lemma acts_ext : forall h h' a b, (forall i u, h i u = h' i u) -> acts h a b -> acts h' a b.
Proof. intros h h' a b E H1 i. rewrite H1. destruct (mget i a); [cbn; rewrite E|]; reflexivity. Qed.

Lemma stored_units_app : forall units a b, stored_units units (a ++ b) = stored_units units a ++ stored_units units b.
Proof. intros units a b. induction a as [|i a IH]; [reflexivity|]. cbn [app stored_units]. destruct (mget i units); rewrite IH; reflexivity. Qed.
Lemma stored_units_In : forall units ids u, In u (stored_units units ids) <-> exists i, In i ids /\ mget i units = Some u.
Proof.
  intros units ids u. induction ids as [|i ids IH]; cbn [stored_units].
  - split; [intros []|intros (i & [] & _)].
  - destruct (mget i units) as [w|] eqn:E; cbn [In]; rewrite IH; split.
    + intros [->|(j & Hj & Ej)]; [exists i; auto|exists j; auto].
    + intros (j & [->|Hj] & Ej); [left; congruence|right; exists j; auto].
    + intros (j & Hj & Ej). exists j. auto.
    + intros (j & [->|Hj] & Ej); [congruence|exists j; auto].
Qed.

(** One step of a loop over named units. *)
Lemma on_named_step : forall f tags t units u units',
  (forall u, f (f u) = f u) -> mget (unit_tag_index t) units = Some u ->
  acts (on_named tags f) (mset (unit_tag_index t) (f u) units) units' ->
  acts (on_named (t :: tags) f) units units'.
Proof.
  intros f tags t units u units' Hf Hu Ha i. rewrite Ha, mget_mset. unfold on_named, named. cbn [existsb].
  destruct (Z.eqb_spec (unit_tag_index t) i) as [<-|Hn].
  - rewrite Hu. cbn [option_map orb]. destruct (existsb _ tags); rewrite ?Hf; reflexivity.
  - reflexivity.
Qed.
Lemma on_named_skip : forall f tags t units units',
  mget (unit_tag_index t) units = None ->
  acts (on_named tags f) units units' -> acts (on_named (t :: tags) f) units units'.
Proof.
  intros f tags t units units' Hu Ha i. rewrite Ha. unfold on_named, named. cbn [existsb].
  destruct (Z.eqb_spec (unit_tag_index t) i) as [<-|Hn]; [|reflexivity]. rewrite Hu. reflexivity.
Qed.

(** ** [target_loop] *)
Lemma target_loop_acts : forall f tags units units' l, (forall u, f (f u) = f u) ->
  target_loop f tags units = (units', l) ->
  acts (on_named tags f) units units' /\ l = stored_units units' (map unit_tag_index tags).
Proof.
  intros f. induction tags as [|t tags IH]; intros units units' l Hf Hl; cbn [target_loop] in Hl.
  - injection Hl as <- <-. split; [apply acts_id|reflexivity].
  - destruct (mget (unit_tag_index t) units) as [u|] eqn:Hu.
    + destruct (target_loop f tags (mset (unit_tag_index t) (f u) units)) as [w l'] eqn:E.
      injection Hl as <- <-. apply IH in E as [A ->]; [|exact Hf].
      pose proof (on_named_step f tags t units u w Hf Hu A) as B. split; [exact B|].
      cbn [map stored_units]. rewrite B, Hu. cbn [option_map]. unfold on_named, named. cbn [existsb].
      rewrite Z.eqb_refl. reflexivity.
    + apply IH in Hl as [A ->]; [|exact Hf]. pose proof (on_named_skip f tags t units units' Hu A) as B. split; [exact B|].
      cbn [map stored_units]. rewrite B, Hu. reflexivity.
Qed.

(** ** [select_loop] *)
Definition select_one (gl : Z) (sel : bool) (k : f32) (u : sc2_unit) : sc2_unit :=
  set_loop gl (if Bool.eqb (su_selected u) sel then u else set_selected sel (f32_mul (su_radius u) k) u).
Lemma select_one_idem : forall gl sel k u, select_one gl sel k (select_one gl sel k u) = select_one gl sel k u.
Proof.
  intros gl sel k u. unfold select_one. destruct (Bool.eqb (su_selected u) sel) eqn:E; cbn [su_selected set_loop set_selected].
  - rewrite E. reflexivity.
  - rewrite Bool.eqb_reflx. reflexivity.
Qed.
Lemma select_loop_acts : forall gl sel k tags units units' ids,
  select_loop gl sel k tags units = (units', ids) ->
  acts (on_named tags (select_one gl sel k)) units units' /\ NoDup ids /\
  (forall i, In i ids <-> named tags i = true /\ exists u, mget i units = Some u /\ su_selected u = negb sel).
Proof.
  intros gl sel k. induction tags as [|t tags IH]; intros units units' ids Hl; cbn [select_loop] in Hl.
  - injection Hl as <- <-. split; [apply acts_id|]. split; [constructor|]. intros i. cbn. split; [intros []|intros [Hx _]; discriminate Hx].
  - pose proof (select_one_idem gl sel k) as Hf.
    destruct (mget (unit_tag_index t) units) as [u|] eqn:Hu.
    2:{ apply IH in Hl as (A & B & C). split; [exact (on_named_skip _ tags t units units' Hu A)|]. split; [exact B|].
        intros i. rewrite C. cbn [named existsb]. destruct (Z.eqb_spec (unit_tag_index t) i) as [<-|Hn]; [|reflexivity].
        cbn [orb]. rewrite Hu. split; [intros [_ (w & Hw & _)]; discriminate|intros [_ (w & Hw & _)]; discriminate]. }
    destruct (Bool.eqb (su_selected u) sel) eqn:E.
    + assert (E1 : set_loop gl u = select_one gl sel k u) by (unfold select_one; rewrite E; reflexivity).
      rewrite E1 in Hl. apply IH in Hl as (A & B & C). split; [exact (on_named_step _ tags t units u units' Hf Hu A)|].
      split; [exact B|]. intros i. rewrite C, mget_mset. unfold named. cbn [existsb].
      destruct (Z.eqb_spec (unit_tag_index t) i) as [<-|Hn]; [|reflexivity]. cbn [orb].
      apply Bool.eqb_prop in E. rewrite Hu. split.
      * intros [_ (w & Hw & Ew)]. injection Hw as <-. unfold select_one in Ew. rewrite E, Bool.eqb_reflx in Ew. cbn in Ew.
        rewrite E in Ew. destruct sel; discriminate.
      * intros [_ (w & Hw & Ew)]. injection Hw as <-. rewrite E in Ew. destruct sel; discriminate.
    + assert (E1 : set_loop gl (set_selected sel (f32_mul (su_radius u) k) u) = select_one gl sel k u) by (unfold select_one; rewrite E; reflexivity).
      rewrite E1 in Hl. destruct (select_loop gl sel k tags (mset (unit_tag_index t) (select_one gl sel k u) units)) as [w ids'] eqn:El.
      injection Hl as <- <-. apply IH in El as (A & B & C). split; [exact (on_named_step _ tags t units u w Hf Hu A)|].
      assert (Es : su_selected (select_one gl sel k u) = sel) by (unfold select_one; rewrite E; reflexivity).
      split.
      * constructor; [|exact B]. rewrite C, mget_mset, Z.eqb_refl. intros [_ (x & Hx & Ex)]. injection Hx as <-.
        rewrite Es in Ex. destruct sel; discriminate.
      * intros i. cbn [In]. rewrite C, mget_mset. unfold named. cbn [existsb].
        destruct (Z.eqb_spec (unit_tag_index t) i) as [<-|Hn]; cbn [orb].
        -- split; [intros _|auto]. split; [reflexivity|]. exists u. split; [exact Hu|].
           destruct (su_selected u), sel; (discriminate E || reflexivity).
        -- split; [intros [Hx|Hx]; [contradiction|exact Hx]|intros Hx; right; exact Hx].
Qed.

(** ** [cmd_loop] *)
(** The command as it is stored in a unit of the selection. *)
Definition with_ability (b : balance) (unit_name : string) (cmd : cmd_event) : cmd_event :=
  match cm_abil cmd with
  | None => cmd
  | Some a => mk_cmd (cm_flags cmd) (Some (mk_abil (ab_link a) (get_indexed_ability_command_name b unit_name (ab_link a) (ab_index a)) (ab_index a) (ab_data a)))
                (cm_data cmd) (cm_sequence cmd) (cm_other cmd) (cm_group cmd)
  end.
Definition commanded (b : balance) (gl : Z) (other : option string) (cmd : cmd_event) (u : sc2_unit) : sc2_unit :=
  let c := ucmd_of (with_ability b (su_name u) cmd) in
  set_loop gl (set_cmd (mk_ucmd (uc_flags c) (uc_abil c) (uc_data c) (uc_sequence c) (uc_other c) other (uc_group c)) u).
Lemma with_ability_twice : forall b n n' cmd, with_ability b n (with_ability b n' cmd) = with_ability b n cmd.
Proof. intros b n n' [f [[l s i d]|] x y z w]; reflexivity. Qed.
Lemma commanded_with : forall b gl o n cmd u, commanded b gl o (with_ability b n cmd) u = commanded b gl o cmd u.
Proof. intros. unfold commanded. rewrite with_ability_twice. reflexivity. Qed.
Lemma commanded_idem : forall b gl o cmd u, commanded b gl o cmd (commanded b gl o cmd u) = commanded b gl o cmd u.
Proof. reflexivity. Qed.
Lemma on_named_ext : forall f g tags a b, (forall u, f u = g u) -> acts (on_named tags f) a b -> acts (on_named tags g) a b.
Proof. intros f g tags a b E. apply acts_ext. intros i u. unfold on_named. rewrite E. reflexivity. Qed.
Lemma cmd_loop_none : forall b gl o tags cmd units, cm_abil cmd = None -> cmd_loop b gl o tags cmd units = (units, (cmd, [])).
Proof.
  intros b gl o. induction tags as [|t tags IH]; intros cmd units Hn; cbn [cmd_loop]; [reflexivity|].
  rewrite Hn. destruct (mget _ units); apply IH, Hn.
Qed.
(** The name of the last registered unit of the selection. *)
Fixpoint last_name (units : list (Z * sc2_unit)) (tags : list Z) (n : option string) : option string :=
  match tags with
  | [] => n
  | t :: tags' => last_name units tags' (match mget (unit_tag_index t) units with Some u => Some (su_name u) | None => n end)
  end.
Lemma last_name_ext : forall units units' tags n,
  (forall i, option_map su_name (mget i units) = option_map su_name (mget i units')) -> last_name units tags n = last_name units' tags n.
Proof.
  intros units units'. induction tags as [|t tags IH]; intros n E; cbn [last_name]; [reflexivity|].
  rewrite IH by exact E. f_equal. specialize (E (unit_tag_index t)).
  destruct (mget _ units), (mget _ units'); cbn in E; congruence.
Qed.
Lemma cmd_loop_acts : forall b gl o tags cmd units units' cmd' l, cm_abil cmd <> None ->
  cmd_loop b gl o tags cmd units = (units', (cmd', l)) ->
  acts (on_named tags (commanded b gl o cmd)) units units' /\ l = stored_units units' (map unit_tag_index tags) /\
  cmd' = match last_name units tags None with Some n => with_ability b n cmd | None => cmd end.
Proof.
  intros b gl o. 
  assert (Hmain : forall tags cmd units units' cmd' l, cm_abil cmd <> None ->
    cmd_loop b gl o tags cmd units = (units', (cmd', l)) ->
    acts (on_named tags (commanded b gl o cmd)) units units' /\ l = stored_units units' (map unit_tag_index tags) /\
    (forall n cmd0, cmd = with_ability b n cmd0 -> Some cmd' = option_map (fun n => with_ability b n cmd0) (last_name units tags (Some n))) /\
    cmd' = match last_name units tags None with Some n => with_ability b n cmd | None => cmd end).
  { induction tags as [|t tags IH]; intros cmd units units' cmd' l Hc Hl; cbn [cmd_loop] in Hl.
    - injection Hl as <- <- <-. split; [apply acts_id|]. split; [reflexivity|]. split; [|reflexivity]. intros n cmd0 ->. reflexivity.
    - destruct (mget (unit_tag_index t) units) as [u|] eqn:Hu.
      2:{ apply IH in Hl as (A & B & C & D); [|exact Hc]. pose proof (on_named_skip _ tags t units units' Hu A) as A'.
          split; [exact A'|]. split; [|cbn [last_name]; rewrite Hu; split; assumption].
          cbn [map stored_units]. rewrite A', Hu. exact B. }
      destruct (cm_abil cmd) as [a|] eqn:Ea; [|contradiction].
      assert (Ew : mk_cmd (cm_flags cmd) (Some (mk_abil (ab_link a) (get_indexed_ability_command_name b (su_name u) (ab_link a) (ab_index a)) (ab_index a) (ab_data a)))
                (cm_data cmd) (cm_sequence cmd) (cm_other cmd) (cm_group cmd) = with_ability b (su_name u) cmd)
        by (unfold with_ability; rewrite Ea; reflexivity).
      cbv zeta in Hl. rewrite Ew in Hl.
      change (set_loop gl (set_cmd (mk_ucmd (uc_flags (ucmd_of (with_ability b (su_name u) cmd))) (uc_abil (ucmd_of (with_ability b (su_name u) cmd)))
         (uc_data (ucmd_of (with_ability b (su_name u) cmd))) (uc_sequence (ucmd_of (with_ability b (su_name u) cmd)))
         (uc_other (ucmd_of (with_ability b (su_name u) cmd))) o (uc_group (ucmd_of (with_ability b (su_name u) cmd)))) u))
        with (commanded b gl o cmd u) in Hl.
      destruct (cmd_loop b gl o tags (with_ability b (su_name u) cmd) (mset (unit_tag_index t) (commanded b gl o cmd u) units)) as [w [c' l']] eqn:E.
      injection Hl as <- <- <-. apply IH in E as (A & B & C & D).
      2:{ unfold with_ability. rewrite Ea. discriminate. }
      apply (on_named_ext _ (commanded b gl o cmd)) in A; [|intros; apply commanded_with].
      pose proof (on_named_step _ tags t units u w (commanded_idem b gl o cmd) Hu A) as A'.
      assert (Hn : forall n, last_name (mset (unit_tag_index t) (commanded b gl o cmd u) units) tags n = last_name units tags n).
      { intros n. apply last_name_ext. intros i. rewrite mget_mset. destruct (Z.eqb_spec (unit_tag_index t) i) as [<-|]; [rewrite Hu|]; reflexivity. }
      split; [exact A'|]. split; [|split].
      + cbn [map stored_units]. rewrite A', Hu, B. cbn [option_map]. unfold on_named, named. cbn [existsb]. rewrite Z.eqb_refl. reflexivity.
      + intros n cmd0 ->. cbn [last_name]. rewrite Hu. specialize (C (su_name u) cmd0). rewrite with_ability_twice in C.
        rewrite C, Hn by reflexivity. reflexivity.
      + cbn [last_name]. rewrite Hu. specialize (C (su_name u) cmd eq_refl). rewrite Hn in C.
        destruct (last_name units tags (Some (su_name u))) as [x|]; cbn in C; [injection C as ->; reflexivity|discriminate]. }
  intros tags cmd units units' cmd' l Hc Hl. destruct (Hmain _ _ _ _ _ _ Hc Hl) as (A & B & C & D).
  split; [exact A|]. split; [exact B|]. exact D.
Qed.

(** ** Control groups *)
(** Group [i] of a user. *)
Definition group (gs : list (list Z)) (i : Z) : list Z := nth (Z.to_nat i) gs [].

Lemma list_set_length : forall A (l : list A) n a, length (list_set l n a) = length l.
Proof. intros A l. induction l as [|x l IH]; intros [|n] a; cbn; auto. Qed.
Lemma list_set_nth : forall A (l : list A) n a m d, (n < length l)%nat ->
  nth m (list_set l n a) d = if Nat.eqb n m then a else nth m l d.
Proof.
  intros A l. induction l as [|x l IH]; intros [|n] a [|m] d Hn; cbn in *; try lia; auto. apply IH. lia.
Qed.
Lemma nth_error_some_lt : forall A (l : list A) n, (n < length l)%nat -> exists a, nth_error l n = Some a.
Proof. intros A l n Hn. apply nth_error_Some in Hn. destruct (nth_error l n); [eauto|contradiction]. Qed.
Lemma group_get_ok : forall gs i g, group_get gs i = Ok g <-> (Z.to_nat i < length gs)%nat /\ g = group gs i.
Proof.
  intros gs i g. unfold group_get, group. destruct (nth_error gs (Z.to_nat i)) as [x|] eqn:E.
  - assert ((Z.to_nat i < length gs)%nat) by (apply nth_error_Some; congruence).
    rewrite (nth_error_nth _ _ _ E). split; [intros Hx; injection Hx as <-; auto|intros [_ ->]; reflexivity].
  - apply nth_error_None in E. split; [discriminate|intros [Hx _]; lia].
Qed.
Lemma group_get_eq : forall gs i, group_get gs i = if (Z.to_nat i <? length gs)%nat then Ok (group gs i) else Panic.
Proof.
  intros gs i. destruct (Nat.ltb_spec (Z.to_nat i) (length gs)) as [Hl|Hl]; [apply group_get_ok; auto|].
  unfold group_get. apply nth_error_None in Hl. rewrite Hl. reflexivity.
Qed.
Lemma group_set_eq : forall gs i g, group_set gs i g = if (Z.to_nat i <? length gs)%nat then Ok (list_set gs (Z.to_nat i) g) else Panic.
Proof.
  intros gs i g. unfold group_set. destruct (Nat.ltb_spec (Z.to_nat i) (length gs)) as [Hl|Hl].
  - destruct (nth_error_some_lt _ _ _ Hl) as [x ->]. reflexivity.
  - apply nth_error_None in Hl. rewrite Hl. reflexivity.
Qed.
Lemma group_set_ok : forall gs i g gs', group_set gs i g = Ok gs' ->
  (Z.to_nat i < length gs)%nat /\ length gs' = length gs /\
  (forall j, 0 <= i -> 0 <= j -> group gs' j = if i =? j then g else group gs j).
Proof.
  intros gs i g gs' Hs. rewrite group_set_eq in Hs. destruct (Nat.ltb_spec (Z.to_nat i) (length gs)) as [Hl|Hl]; [|discriminate].
  injection Hs as <-. split; [exact Hl|]. split; [apply list_set_length|]. intros j Hi Hj. unfold group.
  rewrite list_set_nth by exact Hl. destruct (Nat.eqb_spec (Z.to_nat i) (Z.to_nat j)), (Z.eqb_spec i j); try reflexivity; lia.
Qed.
Lemma groups_loop_ok : forall f idxs gs, (forall i, In i idxs -> 0 <= i < Z.of_nat (length gs)) -> NoDup idxs ->
  exists gs', groups_loop f idxs gs = Ok gs' /\ length gs' = length gs /\
  forall j, 0 <= j -> group gs' j = if existsb (Z.eqb j) idxs then f (group gs j) else group gs j.
Proof.
  intros f. induction idxs as [|i idxs IH]; intros gs Hi Hd; cbn [groups_loop].
  - exists gs. auto.
  - inversion Hd as [|a b Hx Hd']; subst. assert (Hl := Hi i (or_introl eq_refl)).
    assert (Hlt : (Z.to_nat i < length gs)%nat) by lia.
    rewrite group_get_eq. destruct (Nat.ltb_spec (Z.to_nat i) (length gs)); [|lia]. cbn [obind].
    destruct (group_set gs i (f (group gs i))) as [gs1| |] eqn:E.
    2,3: rewrite group_set_eq in E; destruct (Nat.ltb_spec (Z.to_nat i) (length gs)); [discriminate|lia].
    cbn [obind]. apply group_set_ok in E as (_ & El & Eg).
    destruct (IH gs1) as (gs' & E & El' & Eg'); [|exact Hd'|].
    + intros j Hj. rewrite El. apply Hi. right. exact Hj.
    + exists gs'. split; [exact E|]. split; [congruence|]. intros j Hj. rewrite Eg', Eg by lia. cbn [existsb].
      destruct (Z.eqb_spec i j) as [<-|Hn].
      * rewrite Z.eqb_refl. cbn [orb]. destruct (existsb (Z.eqb i) idxs) eqn:Ex; [|reflexivity].
        apply existsb_exists in Ex as (y & Hy & Ey). apply Z.eqb_eq in Ey. subst y. contradiction.
      * destruct (Z.eqb_spec j i); [congruence|]. reflexivity.
Qed.
Lemma z_seq_In : forall n i, In i (z_seq n) <-> 0 <= i < Z.of_nat n.
Proof.
  intros n i. unfold z_seq. rewrite in_map_iff. split.
  - intros (k & <- & Hk). apply in_seq in Hk. lia.
  - intros Hi. exists (Z.to_nat i). split; [lia|]. apply in_seq. lia.
Qed.
Lemma z_seq_NoDup : forall n, NoDup (z_seq n).
Proof. intros n. apply FinFun.Injective_map_NoDup; [intros a b; lia|apply seq_NoDup]. Qed.
Lemma z_seq_existsb : forall n j, existsb (Z.eqb j) (z_seq n) = (0 <=? j) && (j <? Z.of_nat n).
Proof.
  intros n j. destruct (existsb (Z.eqb j) (z_seq n)) eqn:E.
  - apply existsb_exists in E as (x & Hx & Ex). apply Z.eqb_eq in Ex. subst x. apply z_seq_In in Hx. symmetry.
    apply andb_true_iff. rewrite Z.leb_le, Z.ltb_lt. exact Hx.
  - symmetry. apply not_true_is_false. intros Hx. apply andb_true_iff in Hx. rewrite Z.leb_le, Z.ltb_lt in Hx.
    apply z_seq_In in Hx. assert (existsb (Z.eqb j) (z_seq n) = true); [|congruence]. apply existsb_exists. exists j.
    split; [exact Hx|apply Z.eqb_refl].
Qed.
Lemma remove_z_In : forall z g x, In x (remove_z z g) <-> In x g /\ x <> z.
Proof. intros z g x. unfold remove_z. rewrite filter_In, negb_true_iff, Z.eqb_neq. reflexivity. Qed.
Lemma fold_remove_In : forall sel g x, In x (fold_left (fun g u => remove_z u g) sel g) <-> In x g /\ ~ In x sel.
Proof.
  induction sel as [|a sel IH]; intros g x; cbn [fold_left In]; [tauto|]. rewrite IH, remove_z_In. intuition congruence.
Qed.
(** Removing the selected units, keeping the order of the others. *)
Definition without (sel g : list Z) : list Z := filter (fun x => negb (existsb (Z.eqb x) sel)) g.
Lemma fold_remove_without : forall sel g, fold_left (fun g u => remove_z u g) sel g = without sel g.
Proof.
  induction sel as [|a sel IH]; intros g; cbn [fold_left].
  - unfold without. cbn. induction g as [|x g IHg]; [reflexivity|]. cbn. f_equal. exact IHg.
  - rewrite IH. unfold without, remove_z. induction g as [|x g IHg]; [reflexivity|]. cbn [filter existsb].
    destruct (x =? a); cbn [negb orb filter]; [exact IHg|]. destruct (existsb (Z.eqb x) sel); cbn [negb filter]; rewrite IHg; reflexivity.
Qed.
Lemma steal_ok : forall gs sel, length gs = 11%nat -> exists gs', steal gs sel = Ok gs' /\ length gs' = 11%nat /\
  forall j, 0 <= j -> group gs' j = if j <? 9 then without sel (group gs j) else group gs j.
Proof.
  intros gs sel Hl. unfold steal. destruct (groups_loop_ok (fun g => fold_left (fun g u => remove_z u g) sel g) (z_seq 9) gs) as (gs' & E & El & Eg).
  - intros i Hi. apply z_seq_In in Hi. lia.
  - apply z_seq_NoDup.
  - exists gs'. split; [exact E|]. split; [congruence|]. intros j Hj. rewrite Eg, z_seq_existsb by exact Hj.
    destruct (Z.leb_spec 0 j); [|lia]. cbn [andb]. change (Z.of_nat 9) with 9. destruct (j <? 9); [apply fold_remove_without|reflexivity].
Qed.
Lemma died_groups_ok : forall z gs, length gs = 11%nat -> exists gs', groups_loop (remove_z z) (z_seq 11) gs = Ok gs' /\ length gs' = 11%nat /\
  forall j, 0 <= j -> group gs' j = remove_z z (group gs j).
Proof.
  intros z gs Hl. destruct (groups_loop_ok (remove_z z) (z_seq 11) gs) as (gs' & E & El & Eg).
  - intros i Hi. apply z_seq_In in Hi. lia.
  - apply z_seq_NoDup.
  - exists gs'. split; [exact E|]. split; [congruence|]. intros j Hj. rewrite Eg, z_seq_existsb by exact Hj.
    destruct (Z.leb_spec 0 j); [|lia]. cbn [andb]. destruct (Z.ltb_spec j (Z.of_nat 11)); [reflexivity|].
    unfold group. rewrite nth_overflow by lia. reflexivity.
Qed.
(** A list of 11 groups is determined by its groups. *)
Lemma groups_ext : forall gs gs' : list (list Z), length gs = length gs' -> (forall j, 0 <= j < Z.of_nat (length gs) -> group gs j = group gs' j) -> gs = gs'.
Proof.
  intros gs gs' Hl He. apply (nth_ext gs gs' [] []); [exact Hl|]. intros n Hn. specialize (He (Z.of_nat n) ltac:(lia)).
  unfold group in He. rewrite Nat2Z.id in He. exact He.
Qed.
