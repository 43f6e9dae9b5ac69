(** * Balance units as JSON whose numbers were printed and read: proofs *)
From Coq Require Import SpecFloat Permutation.
From Verif Require Import Base F32 F32Facts F32Round SecondsFacts CoordFacts BalanceJson BalanceJsonSpec BalanceJsonFacts.
#[local] Open Scope string_scope.
#[local] Open Scope Z_scope.
#[local] Open Scope list_scope.

(** ** Singles that were widened, printed and read *)
Lemma near_round : forall m e A B r, f32_valid (S754_finite false m e) = true -> 0 < B -> is_round A B r ->
  2 ^ 30 * Z.abs (A - fval (S754_finite false m e) * B) <= fval (S754_finite false m e) * B -> fval r = fval (S754_finite false m e).
Proof.
  intros m e A B r V HB (E & HE & L & U & R) Hn. apply valid_bounds in V as (Be & Bd & Bm). cbn [fval] in *. rewrite !Z.mul_1_l in *.
  pose proof (digs_bounds m) as [D1 D2]. set (X := e + 149) in *. assert (HX : 0 <= X) by (unfold X; lia).
  assert (PX : 0 < 2 ^ X) by (apply Z.pow_pos_nonneg; lia). assert (PE : 0 < 2 ^ E) by (apply Z.pow_pos_nonneg; lia).
  assert (Hm : Z.pos m < 2 ^ 24) by (apply Z.lt_le_trans with (2 ^ digs m); [exact D2|apply Z.pow_le_mono_r; lia]).
  assert (Hm' : 0 < X -> 2 ^ 23 <= Z.pos m) by (intros K; rewrite Bm in D1 by (unfold X in K; lia); exact D1).
  assert (Top : Z.pos m * 2 ^ X <= 2 ^ 277).
  { replace 277 with (24 + 253) by reflexivity. rewrite pow_split by lia. apply Z.mul_le_mono_nonneg; [lia|lia|lia|apply Z.pow_le_mono_r; unfold X; lia]. }
  rewrite R. clear R.
  assert (G : forall q, 0 < q < 2 ^ 25 -> q * 2 ^ E = Z.pos m * 2 ^ X -> Z.min (rne A (B * 2 ^ E) * 2 ^ E) (2 ^ 277) = Z.pos m * 2 ^ X).
  { intros q Hq Eq. rewrite <- Eq in *. assert (Hr : rne A (B * 2 ^ E) = q).
    { set (D := B * 2 ^ E) in *. assert (PD : 0 < D) by (unfold D; apply Z.mul_pos_pos; lia). replace (q * 2 ^ E * B) with (q * D) in Hn by (unfold D; ring).
      pose proof (rne_near A D PD) as [N1 N2]. set (t := rne A D) in *. clearbody t D.
      assert (32 * Z.abs (A - q * D) < D).
      { assert (2 ^ 30 * Z.abs (A - q * D) < 2 ^ 25 * D) by (eapply Z.le_lt_trans; [exact Hn|apply Z.mul_lt_mono_pos_r; lia]). change (2 ^ 30) with (2 ^ 25 * 32) in H. nia. }
      assert (D * t < D * (q + 1)) by lia. assert (D * (q - 1) < D * t) by lia. apply Z.mul_lt_mono_pos_l in H0, H1; lia. }
    rewrite Hr. apply Z.min_l. exact Top. }
  destruct (Z.lt_trichotomy E X) as [Hlt|[Heq|Hgt]].
  - specialize (Hm' ltac:(lia)). assert (E = X - 1 \/ E <= X - 2) as [Ee|Ee] by lia.
    + apply (G (2 * Z.pos m)); [lia|]. replace X with (1 + E) by lia. rewrite pow_split by lia. change (2 ^ 1) with 2. ring.
    + exfalso. assert (S : 2 ^ (24 + E) <= 2 ^ 22 * 2 ^ X) by (rewrite <- pow_split by lia; apply Z.pow_le_mono_r; lia).
      assert (A < B * (2 ^ 22 * 2 ^ X)) by (eapply Z.lt_le_trans; [exact U|apply Z.mul_le_mono_nonneg_l; lia]).
      set (T := 2 ^ X * B) in *. assert (PT : 0 < T) by (unfold T; apply Z.mul_pos_pos; lia). replace (Z.pos m * 2 ^ X * B) with (Z.pos m * T) in Hn by (unfold T; ring).
      replace (B * (2 ^ 22 * 2 ^ X)) with (2 ^ 22 * T) in H by (unfold T; ring). clearbody T.
      assert (2 ^ 23 * T <= Z.pos m * T) by (apply Z.mul_le_mono_nonneg_r; lia). lia.
  - apply (G (Z.pos m)); [lia|]. now rewrite Heq.
  - exfalso. specialize (L ltac:(lia)). assert (S : 2 ^ 24 * 2 ^ X <= 2 ^ (23 + E)) by (rewrite <- pow_split by lia; apply Z.pow_le_mono_r; lia).
    assert (B * (2 ^ 24 * 2 ^ X) <= A) by (eapply Z.le_trans; [apply Z.mul_le_mono_nonneg_l; [lia|exact S]|exact L]).
    set (T := 2 ^ X * B) in *. assert (PT : 0 < T) by (unfold T; apply Z.mul_pos_pos; lia). replace (Z.pos m * 2 ^ X * B) with (Z.pos m * T) in Hn by (unfold T; ring).
    replace (B * (2 ^ 24 * 2 ^ X)) with (2 ^ 24 * T) in H by (unfold T; ring). clearbody T.
    assert (Z.pos m * T <= (2 ^ 24 - 1) * T) by (apply Z.mul_le_mono_nonneg_r; lia). lia.
Qed.
Lemma near_back : forall x y, f32_valid x = true -> float_near (f64_of_f32 x) y -> f32_of_f64 y = x.
Proof.
  intros x y V Hn. destruct x as [s|s| |s m e]; try (cbn in Hn; subst y; reflexivity).
  destruct (f64_exact s m e V) as (mz & ez & E & Hz & Em). rewrite E in Hn. destruct y as [s'|s'| |s' m' e']; try discriminate Hn. destruct Hn as [<- Hn].
  cbn [f32_of_f64].
  assert (V' : f32_valid (S754_finite false m e) = true) by exact V.
  assert (P : binary_round f32_prec f32_emax false m' e' = S754_finite false m e).
  { set (K := Z.abs e' + Z.abs ez). destruct (binary_round_is_round m' e' (Z.pos m' * 2 ^ (e' + 149 + K)) (2 ^ K)) as [R V2].
    - apply Z.pow_pos_nonneg; unfold K; lia.
    - intros k Hk Hx. rewrite <- !Z.mul_assoc. f_equal. rewrite <- !pow_split by (unfold K; lia). f_equal. lia.
    - set (r := binary_round f32_prec f32_emax false m' e') in *. pose proof (valid_bounds _ _ _ V') as (B1 & _).
      assert (F : fval r = fval (S754_finite false m e)).
      { eapply near_round; [exact V'| |exact R|]; [apply Z.pow_pos_nonneg; unfold K; lia|]. cbn [fval]. rewrite !Z.mul_1_l. specialize (Hn (149 + K) ltac:(unfold K; lia) ltac:(unfold K; lia)).
        rewrite Em in Hn. rewrite <- (Z.mul_assoc (Z.pos m)), <- pow_split in Hn by (unfold K; lia). replace (e - ez + (ez + (149 + K))) with (e + 149 + K) in Hn by lia.
        rewrite <- (Z.mul_assoc (Z.pos m)), <- pow_split by (unfold K; lia). replace (e' + 149 + K) with (e' + (149 + K)) by lia. exact Hn. }
      assert (F0 : 0 < fval (S754_finite false m e)) by (cbn [fval]; rewrite Z.mul_1_l; apply Z.mul_pos_pos; [lia|apply Z.pow_pos_nonneg; lia]).
      assert (F1 : fval (S754_finite false m e) < 2 ^ 277).
      { pose proof (valid_bounds _ _ _ V') as (_ & B2 & _). cbn [fval]. rewrite Z.mul_1_l. pose proof (digs_bounds m) as [_ D]. apply Z.lt_le_trans with (2 ^ 24 * 2 ^ (e + 149)).
        - apply Z.mul_lt_mono_pos_r; [apply Z.pow_pos_nonneg; lia|]. apply Z.lt_le_trans with (2 ^ digs m); [exact D|apply Z.pow_le_mono_r; lia].
        - rewrite <- pow_split by lia. apply Z.pow_le_mono_r; lia. }
      destruct (fval_pos_shape r V2) as (m2 & e2 & Er); [lia|lia|]. rewrite Er in *. apply fval_inj; assumption. }
  destruct s; [rewrite binary_round_opp|]; rewrite P; reflexivity.
Qed.

(** ** Objects *)
Lemma put_field : forall fs vs m, NoDup (map fst fs) -> length fs = length vs -> (forall k, In k (map fst fs) -> jvalues k m = []) ->
  Forall2 (fun f v => jvalues (fst f) (put_fields fs vs m) = [to_value (fst (snd f)) v]) fs vs.
Proof.
  induction fs as [|[k [t d]] fs IH]; intros [|v vs] m Hd Hl Hm; cbn [length] in Hl; try discriminate; [constructor|].
  cbn [map fst] in Hd, Hm. inversion Hd as [|? ? Dk Df]; subst. cbn [put_fields]. fold put_fields. constructor.
  - cbn [fst snd]. rewrite put_other by exact Dk. apply jvalues_insert_new. apply Hm. now left.
  - apply IH; [exact Df|lia|]. intros k' Hk'. rewrite jvalues_insert_other; [apply Hm; now right|]. intros ->. contradiction.
Qed.
Lemma near_values : forall k m m', Forall2 (fun e e' => fst e = fst e' /\ json_near (snd e) (snd e')) m m' -> Forall2 json_near (jvalues k m) (jvalues k m').
Proof.
  intros k m m' Hn. induction Hn as [|[a b] [a' b'] m m' [E H] Hn IH]; [constructor|]. cbn [fst snd] in *. subst a'. rewrite !jvalues_cons. cbn [fst snd]. destruct (String.eqb a k); [constructor; assumption|exact IH].
Qed.
Lemma fields_length : forall (fs : list (string * (jty * option jval))) vs, Forall2 (fun f v => has_type (fst (snd f)) v) fs vs -> length fs = length vs.
Proof. intros fs vs Hv. induction Hv; cbn [length]; congruence. Qed.
Lemma near_null_inv : forall j j', json_near j j' -> j <> JNull -> j' <> JNull.
Proof. intros j j' H. destruct H; congruence. Qed.
Section Rows1.
Context {rows : bool}.
Lemma near_round_trip : forall t, tidy t = true -> forall v, has_type t v -> finite v -> forall j, json_near (to_value t v) j -> read_json rows t j = Some v.
Proof.
  induction t as [|lo hi| |t IH|t IH|fs IH] using jty_rect'; intros Ht v Hh Hf j Hj.
  - inversion Hh; subst. cbn [to_value] in Hj. inversion Hj; subst. reflexivity.
  - inversion Hh as [|a b z Hz| | | | |]; subst. cbn [to_value] in Hj. inversion Hj; subst. cbn [read_json]. replace ((lo <=? z) && (z <=? hi)) with true; [reflexivity|]. symmetry. apply andb_true_iff. split; apply Z.leb_le; lia.
  - inversion Hh as [| |x Hx| | | |]; subst. inversion Hf as [| |x' H1 H2| | | |]; subst. cbn [to_value] in Hj.
    assert (N : exists y, j = JFloat y /\ float_near (f64_of_f32 x) y).
    { destruct x as [s|s| |s m e]; [|destruct (H2 s); reflexivity|congruence|]; inversion Hj; subst; eauto. }
    destruct N as (y & -> & Hn). cbn [read_json]. rewrite (near_back x y Hx Hn). reflexivity.
  - inversion Hh as [| | |t0|t0 w Hw| |]; subst; [cbn [to_value] in Hj; inversion Hj; subst; reflexivity|]. inversion Hf as [| | | |w' Hfw| |]; subst.
    assert (Hn : match t with TOpt _ => false | _ => true end = true) by (destruct t; cbn [tidy] in Ht; congruence). assert (Ht' : tidy t = true) by (destruct t; cbn [tidy] in Ht; try exact Ht; discriminate).
    cbn [to_value] in Hj. pose proof (near_null_inv _ _ Hj (to_value_not_null t w Hn Hw Hfw)) as Hj'. cbn [read_json]. rewrite (IH Ht' w Hw Hfw j Hj). cbn [option_map]. destruct j; congruence.
  - inversion Hh as [| | | | |t0 l Hl|]; subst. inversion Hf as [| | | | |l' Hfl|]; subst. cbn [to_value] in Hj. inversion Hj as [| | | | |a b Hab|]; subst. cbn [read_json].
    assert (E : all_some (read_json rows t) b = Some l); [|rewrite E; reflexivity].
    clear Hh Hf Hj. revert b Hab. induction Hl as [|x l Hx Hl IHl]; intros b Hab; cbn [map] in Hab; inversion Hab; subst; [reflexivity|]. inversion Hfl; subst. cbn [all_some]. erewrite (IH Ht x) by eassumption. rewrite IHl by assumption. reflexivity.
  - inversion Hh as [| | | | | |fs0 vs Hv]; subst. inversion Hf as [| | | | | |l' Hfl]; subst. rewrite to_obj in Hj. inversion Hj as [| | | | | |a m' Ham]; subst. rewrite from_obj. apply names_tidy in Ht as [Hd Htd].
    pose proof (put_field fs vs [] Hd (fields_length _ _ Hv) (fun k _ => eq_refl)) as Hp.
    assert (E : get_fields (rows:=rows) m' fs = Some vs); [|rewrite E; reflexivity].
    set (m0 := put_fields fs vs []) in *. clearbody m0. clear Hh Hf Hj Hd. induction Hv as [|[k [t d]] v fs vs Hv0 Hv IHv]; [reflexivity|].
    inversion IH as [|? ? Ik If]; subst. inversion Htd as [|? ? Tk Tf]; subst. inversion Hfl as [|? ? Fk Ff]; subst. inversion Hp as [|? ? ? ? Pk Pf]; subst. cbn [fst snd] in *.
    cbn [get_fields]. fold (get_fields (rows:=rows) m'). rewrite IHv by assumption. pose proof (near_values k m0 m' Ham) as Hk. rewrite Pk in Hk. inversion Hk as [|? j' ? ? Hj' Hnil]; subst. inversion Hnil; subst.
    rewrite (Ik Tk v Hv0 Fk j' Hj'). reflexivity.
Qed.
Lemma unit_near_trip : forall v j, is_unit v -> finite v -> json_near (to_value j_unit v) j -> read_json rows j_unit j = Some v.
Proof. intros v j H F. exact (near_round_trip j_unit unit_tidy v H F j). Qed.

End Rows1.
(** ** What is read has the types of the structs *)
Fixpoint good_defaults (t : jty) : Prop :=
  match t with
  | TStr | TInt _ _ | TF32 => True
  | TOpt t' | TVec t' => good_defaults t'
  | TObj fs => (fix all (l : list (string * (jty * option jval))) : Prop :=
      match l with [] => True | f :: l' => (good_defaults (fst (snd f)) /\ match snd (snd f) with Some d => has_type (fst (snd f)) d | None => True end) /\ all l' end) fs
  end.
Lemma round_valid : forall s m e, f32_valid (binary_round f32_prec f32_emax s m e) = true.
Proof.
  assert (P : forall m e, f32_valid (binary_round f32_prec f32_emax false m e) = true).
  { intros m e. set (K := Z.abs e). destruct (binary_round_is_round m e (Z.pos m * 2 ^ (e + 149 + K)) (2 ^ K)) as [_ V]; [apply Z.pow_pos_nonneg; unfold K; lia| |exact V].
    intros k Hk Hx. rewrite <- !Z.mul_assoc. f_equal. rewrite <- !pow_split by (unfold K; lia). f_equal. lia. }
  intros [] m e; [|apply P]. rewrite binary_round_opp. specialize (P m e). destruct (binary_round f32_prec f32_emax false m e); exact P.
Qed.
Lemma of_int_valid : forall z, f32_valid (f32_of_int z) = true.
Proof. intros [|p|p]; [reflexivity| |]; unfold f32_of_int, binary_normalize; apply round_valid. Qed.
Lemma of_f64_valid : forall x, f32_valid (f32_of_f64 x) = true.
Proof. intros [s|s| |s m e]; try reflexivity. apply round_valid. Qed.
Lemma all_some_forall2 : forall (A B : Type) (f : A -> option B) l l', all_some f l = Some l' -> Forall2 (fun a b => f a = Some b) l l'.
Proof.
  intros A B f. induction l as [|x l IH]; intros l' H; cbn [all_some] in H; [injection H as <-; constructor|].
  destruct (f x) as [y|] eqn:E; [|discriminate]. destruct (all_some f l) as [ys|] eqn:El; [|discriminate]. injection H as <-. constructor; [exact E|now apply IH].
Qed.
Section Rows2.
Context {rows : bool}.
Lemma from_value_typed : forall t, good_defaults t -> forall j v, read_json rows t j = Some v -> has_type t v.
Proof.
  induction t as [|lo hi| |t IH|t IH|fs IH] using jty_rect'; intros Hg j v E; cbn [read_json] in E.
  - destruct j; try discriminate. injection E as <-. constructor.
  - destruct j as [| |z| | | |]; try discriminate. destruct (Z.leb_spec lo z), (Z.leb_spec z hi); cbn [andb] in E; try discriminate. injection E as <-. constructor. lia.
  - destruct j; try discriminate; injection E as <-; constructor; [apply of_int_valid|apply of_f64_valid].
  - destruct j; try (injection E as <-; constructor);
      (match type of E with option_map _ ?x = _ => destruct x as [w|] eqn:Ew end; [|discriminate]; cbn [option_map] in E; injection E as <-; constructor; eapply IH; [exact Hg|exact Ew]).
  - destruct j as [| | | | |l|]; try discriminate. destruct (all_some (read_json rows t) l) as [l'|] eqn:El; [|discriminate]. cbn [option_map] in E. injection E as <-. constructor.
    apply all_some_forall2 in El. clear -El IH Hg. induction El as [|a b l l' Hab El IHl]; constructor; [eapply IH; [exact Hg|exact Hab]|exact IHl].
  - destruct j as [| | | | |l|m]; try discriminate.
    { destruct rows; [|discriminate]. rename E into E0. match type of E0 with option_map _ (?f fs l) = _ => set (pos := f) in E0 end. destruct (pos fs l) as [vs|] eqn:Ef; [|discriminate]. cbn [option_map] in E0. injection E0 as <-. constructor.
      revert l vs Ef. induction fs as [|[k [t d]] fs IHf]; intros l vs Ef; cbn [pos] in Ef; [destruct l; [injection Ef as <-; constructor|discriminate]|]. fold pos in Ef.
      inversion IH as [|? ? Ik If]; subst. cbn [good_defaults fst snd] in Hg. destruct Hg as [[G1 G2] G3].
      destruct (match l with [] => d | j' :: _ => read_json true t j' end) as [v|] eqn:Ev; [|discriminate].
      destruct (pos fs (tl l)) as [vs'|] eqn:Efs; [|discriminate]. injection Ef as <-. constructor; [|eapply IHf; eauto]. cbn [fst snd] in *.
      destruct l as [|j' l]; [|eapply Ik; [exact G1|exact Ev]]. subst d. exact G2. }
    fold (get_fields (rows := rows) m) in E. change ((fix go (fs : list (string * (jty * option jval))) : option (list jval) :=
            match fs with
            | [] => Some []
            | (k, (t', d)) :: fs' =>
                match match jvalues k m with [] => missing t' d | [j'] => read_json rows t' j' | _ => None end, go fs' with
                | Some v, Some vs => Some (v :: vs)
                | _, _ => None
                end
            end) fs) with (get_fields m fs) in E.
    destruct (get_fields m fs) as [vs|] eqn:Ef; [|discriminate]. cbn [option_map] in E. injection E as <-. constructor.
    revert vs Ef. induction fs as [|[k [t d]] fs IHf]; intros vs Ef; cbn [get_fields] in Ef; [injection Ef as <-; constructor|]. fold (get_fields (rows:=rows) m) in Ef.
    inversion IH as [|? ? Ik If]; subst. cbn [good_defaults fst snd] in Hg. destruct Hg as [[G1 G2] G3].
    destruct (match jvalues k m with [] => missing t d | [j'] => read_json rows t j' | _ => None end) as [v|] eqn:Ev; [|discriminate].
    destruct (get_fields m fs) as [vs'|] eqn:Efs; [|discriminate]. injection Ef as <-. constructor; [|apply IHf; auto]. cbn [fst snd] in *.
    destruct (jvalues k m) as [|j' [|]]; [|eapply Ik; [exact G1|exact Ev]|discriminate].
    unfold missing in Ev. destruct d as [d|]; [congruence|]. destruct t; try discriminate. injection Ev as <-. constructor.
Qed.
End Rows2.
Ltac defaults := repeat (cbn [good_defaults fst snd dfl fld j_tag]; match goal with
  | |- _ /\ _ => split | |- True => exact Logic.I | |- has_type _ _ => econstructor | |- Forall _ _ => constructor | |- Forall2 _ _ _ => constructor
  | |- good_defaults ?t => unfold t end).
Lemma unit_defaults : good_defaults j_unit.
Proof. unfold j_unit. defaults; unfold two32; lia. Qed.
Section Rows3.
Context {rows : bool}.
Lemma unit_typed : forall j v, read_json rows j_unit j = Some v -> is_unit v.
Proof. intros j v H. exact (from_value_typed j_unit unit_defaults j v H). Qed.
(** A required field is there once. *)
Lemma field_there : forall fs m vs k t, get_fields (rows:=rows) m fs = Some vs -> In (k, (t, None)) fs -> (match t with TOpt _ => false | _ => true end) = true -> exists j, jvalues k m = [j].
Proof.
  induction fs as [|[k0 [t0 d0]] fs IH]; intros m vs k t E Hi Ht; [destruct Hi|]. cbn [get_fields] in E. fold (get_fields (rows:=rows) m) in E.
  destruct (match jvalues k0 m with [] => missing t0 d0 | [j'] => read_json rows t0 j' | _ => None end) as [v|] eqn:Ev; [|discriminate]. destruct (get_fields (rows:=rows) m fs) as [vs'|] eqn:Efs; [|discriminate].
  destruct Hi as [Hi|Hi]; [|eapply IH; eassumption]. injection Hi as -> -> ->. destruct (jvalues k m) as [|j [|]]; [|eauto|discriminate]. unfold missing in Ev. destruct t; discriminate.
Qed.
Lemma unit_required : forall m v, read_json rows j_unit (JObj m) = Some v -> forall k, In k ["@id"; "meta"; "life"; "armor"; "shieldArmor"; "score"; "misc"] -> exists j, jvalues k m = [j].
Proof.
  intros m v E k Hk. unfold j_unit in E. rewrite from_obj in E. match type of E with option_map _ (get_fields m ?fs) = _ => set (f := fs) in * end. destruct (get_fields (rows:=rows) m f) as [vs|] eqn:Ef; [|discriminate].
  cbn [In] in Hk. repeat (destruct Hk as [<-|Hk]; [eapply field_there; [exact Ef|unfold f; cbn [In]; unfold fld; repeat (try (left; reflexivity); right)|reflexivity]|]). destruct Hk.
Qed.
(** Which objects are units, and what stands for a field that is not there. *)
Lemma get_fields_spec : forall m fs vs, get_fields (rows:=rows) m fs = Some vs <->
  Forall2 (fun f v => (exists j, jvalues (fst f) m = [j] /\ read_json rows (fst (snd f)) j = Some v) \/ (jvalues (fst f) m = [] /\ missing (fst (snd f)) (snd (snd f)) = Some v)) fs vs.
Proof.
  intros m. induction fs as [|[k [t d]] fs IH]; intros vs; cbn [get_fields].
  - split; [intros [= <-]; constructor|]. intros H. inversion H. reflexivity.
  - fold (get_fields (rows:=rows) m). split.
    + intros E. destruct (match jvalues k m with [] => missing t d | [j'] => read_json rows t j' | _ => None end) as [v|] eqn:Ev; [|discriminate]. destruct (get_fields (rows:=rows) m fs) as [vs'|] eqn:Ef; [|discriminate].
      injection E as <-. constructor; [|now apply IH]. cbn [fst snd]. destruct (jvalues k m) as [|j [|]]; [right; auto|left; eauto|discriminate].
    + intros H. inversion H as [|? v ? vs' Hv Hr]; subst. cbn [fst snd] in Hv. apply IH in Hr. rewrite Hr. destruct Hv as [(j & -> & ->)|(-> & ->)]; reflexivity.
Qed.
End Rows3.
Ltac not_in := let K := fresh in intros K; cbn [In fst] in K; repeat (destruct K as [K|K]; [discriminate|]); destruct K.
Lemma absent_field : forall f, In f unit_fields -> forall x, missing (fst (snd f)) (snd (snd f)) = Some x <->
  (~ In (fst f) ["@id"; "meta"; "life"; "armor"; "shieldArmor"; "score"; "misc"] /\ blank x /\ has_type (fst (snd f)) x).
Proof.
  intros f Hf. unfold unit_fields, j_unit in Hf. cbn [In] in Hf.
  repeat (destruct Hf as [<-|Hf]; [intros x; cbn [missing fst snd fld dfl]; split;
    [intros E; try discriminate E; injection E as <-; (split; [not_in|]); (split; [first [left; reflexivity|right; reflexivity]|]); repeat econstructor
    |intros (Hn & Hb & Ht); try (exfalso; apply Hn; cbn [In fst fld]; tauto); destruct Hb as [-> | ->]; first [reflexivity|exfalso; inversion Ht; fail]]|]).
  destruct Hf.
Qed.
Section Rows4.
Context {rows : bool}.
Lemma unit_absent_spec : forall m vs, read_json rows j_unit (JObj m) = Some (XObj vs) <->
  Forall2 (fun f x => (exists j, jvalues (fst f) m = [j] /\ read_json rows (fst (snd f)) j = Some x) \/
    (jvalues (fst f) m = [] /\ ~ In (fst f) ["@id"; "meta"; "life"; "armor"; "shieldArmor"; "score"; "misc"] /\ blank x /\ has_type (fst (snd f)) x)) unit_fields vs.
Proof.
  intros m vs. change j_unit with (TObj unit_fields). rewrite from_obj.
  assert (G : option_map XObj (get_fields (rows:=rows) m unit_fields) = Some (XObj vs) <-> get_fields (rows:=rows) m unit_fields = Some vs) by (destruct (get_fields (rows:=rows) m unit_fields); cbn [option_map]; split; congruence).
  rewrite G, get_fields_spec. assert (A := absent_field). revert vs G A. generalize unit_fields. intros fs vs _. revert vs. induction fs as [|f fs IH]; intros vs A.
  - split; intros K; inversion K; constructor.
  - split; intros K; inversion K as [|? x ? vs' Hx Hr]; subst; (constructor; [destruct Hx as [Hx|(H1 & H2)]; [now left|right; split; [exact H1|]; apply (A f (or_introl eq_refl)); exact H2]|apply IH; [intros g Hg; apply A; now right|exact Hr]]).
Qed.
End Rows4.
(** ** The ranges of the integers *)
Definition inner (t : jty) : option jty := match t with TVec t' => Some t' | TOpt (TVec t') => Some t' | TOpt (TOpt _) => None | TOpt t' => Some t' | _ => Some t end.
Fixpoint path_type (path : list string) (t : jty) : option jty :=
  match path with
  | [] => Some t
  | k :: path' =>
      match t with
      | TObj fs => match find (fun f => String.eqb (fst f) k) fs with
          | Some f => match inner (fst (snd f)) with Some t' => path_type path' t' | None => None end
          | None => None end
      | _ => None
      end
  end.
Lemma all_some_In : forall A B (f : A -> option B) l ys x, all_some f l = Some ys -> In x l -> exists y, f x = Some y.
Proof.
  intros A B f. induction l as [|a l IH]; intros ys x E Hi; [destruct Hi|]. cbn [all_some] in E. destruct (f a) as [y|] eqn:Ea; [|discriminate]. destruct (all_some f l) as [ys'|]; [|discriminate].
  destruct Hi as [->|Hi]; [eauto|]. eapply IH; eauto.
Qed.
Lemma vec_value : forall t j v j', read_json false (TVec t) j = Some v -> In j' (elements j) -> exists v', read_json false t j' = Some v'.
Proof.
  intros t j v j' E Hi. cbn [read_json] in E. destruct j; try discriminate. cbn [elements] in Hi. destruct (all_some (read_json false t) l) as [ys|] eqn:El; [|discriminate]. eapply all_some_In; eauto.
Qed.
Lemma opt_value : forall t j v, read_json false (TOpt t) j = Some v -> j = JNull \/ exists v', read_json false t j = Some v'.
Proof. intros t j v E. destruct j; [left; reflexivity| | | | | |]; right; cbn [read_json] in E; fold (read_json false) in E; match type of E with option_map _ ?x = _ => destruct x eqn:Ex; [|discriminate]; eauto end. Qed.
Lemma inner_value : forall t t' j v j', read_json false t j = Some v -> inner t = Some t' -> In j' (elements j) -> j' = JNull \/ exists v', read_json false t' j' = Some v'.
Proof.
  intros t t' j v j' E Hi Hj.
  assert (one : forall t0, read_json false t0 j = Some v -> (match t0 with TVec _ | TOpt _ => False | _ => True end) -> elements j = [j]).
  { intros t0 E0 N. destruct j; try reflexivity. destruct t0; try contradiction; discriminate. }
  destruct t as [|lo hi| |u|u|fs]; cbn [inner] in Hi.
  1-3, 6: injection Hi as <-; rewrite (one _ E Logic.I) in Hj; destruct Hj as [<-|[]]; eauto.
  - destruct (opt_value _ _ _ E) as [->|(w & Ew)]; [destruct Hj as [<-|[]]; auto|].
    assert (one' : (match u with TVec _ | TOpt _ => False | _ => True end) -> elements j = [j]) by (intros N; destruct j; try reflexivity; destruct u; try contradiction; discriminate).
    destruct u as [|lo hi| |u'|u'|fs]; cbn [inner] in Hi; try discriminate; injection Hi as <-.
    1-3, 5: rewrite (one' Logic.I) in Hj; destruct Hj as [<-|[]]; eauto.
    right. eapply vec_value; eauto.
  - injection Hi as <-. right. eapply vec_value; eauto.
Qed.
Lemma path_value : forall path t t' j v j', read_json false t j = Some v -> path_type path t = Some t' -> In j' (at_path path j) -> j' = JNull \/ exists v', read_json false t' j' = Some v'.
Proof.
  induction path as [|k path IH]; intros t t' j v j' E Hp Hj; cbn [path_type at_path] in *.
  - injection Hp as <-. destruct Hj as [<-|[]]. eauto.
  - destruct t as [|lo hi| |u|u|fs]; try discriminate. destruct j as [|b|z|x|s|l|m]; try destruct Hj.
    destruct (find (fun f => String.eqb (fst f) k) fs) as [f|] eqn:Ef; [|discriminate]. destruct (inner (fst (snd f))) as [t1|] eqn:Ei; [|discriminate].
    apply find_some in Ef as [Hf Ek]. apply String.eqb_eq in Ek. rewrite from_obj in E. destruct (get_fields m fs) as [vs|] eqn:Eg; [|discriminate]. apply get_fields_spec in Eg.
    apply in_flat_map in Hj as (j1 & H1 & Hj). apply in_flat_map in H1 as (j0 & H0 & H1).
    assert (X : exists w, read_json false (fst (snd f)) j0 = Some w).
    { clear - Eg Hf Ek H0. induction Eg as [|f0 w fs vs Hw Hr IHr]; [destruct Hf|]. destruct Hf as [->|Hf]; [|exact (IHr Hf)]. rewrite Ek in Hw.
      destruct Hw as [(j & Ej & Ew)|(Ej & _)]; rewrite Ej in H0; [|destruct H0]. destruct H0 as [<-|[]]. eauto. }
    destruct X as (w & Ew). destruct (inner_value _ _ _ _ _ Ew Ei H1) as [->|(w' & Ew')].
    + destruct path as [|k' path]; [cbn in Hj; destruct Hj as [<-|[]]; auto|destruct Hj].
    + eapply IH; eauto.
Qed.
Lemma int_range : forall path lo hi j v z, read_json false j_unit j = Some v -> path_type path j_unit = Some (TInt lo hi) -> In (JInt z) (at_path path j) -> lo <= z <= hi.
Proof.
  intros path lo hi j v z E Hp Hz. destruct (path_value path _ _ _ _ _ E Hp Hz) as [H0|(w & Ew)]; [discriminate|]. cbn [read_json] in Ew.
  destruct (Z.leb_spec lo z); destruct (Z.leb_spec z hi); cbn in Ew; try discriminate. lia.
Qed.
Definition u32_paths : list (list string) := [["meta"; "@index"]; ["life"; "@start"]; ["life"; "@max"]; ["shields"; "@start"]; ["shields"; "@max"]; ["armor"; "@start"]; ["armor"; "@max"];
  ["shieldArmor"; "@start"]; ["cost"; "@minerals"]; ["cost"; "@vespene"]; ["score"; "@build"]; ["score"; "@kill"]; ["misc"; "@cargoSize"]; ["weapons"; "weapon"; "@index"]].
Definition u16_paths : list (list string) := [["abilities"; "ability"; "@index"]; ["researches"; "upgrade"; "@ability"]].
Definition i64_paths : list (list string) := [["abilities"; "ability"; "command"; "@index"]; ["researches"; "upgrade"; "@index"]].
Lemma unit_ranges : forall j v, read_json false j_unit j = Some v ->
  (forall path z, In path u32_paths -> In (JInt z) (at_path path j) -> 0 <= z < 2 ^ 32) /\
  (forall path z, In path u16_paths -> In (JInt z) (at_path path j) -> 0 <= z < 2 ^ 16) /\
  (forall path z, In path i64_paths -> In (JInt z) (at_path path j) -> - 2 ^ 63 <= z < 2 ^ 63).
Proof.
  intros j v E.
  assert (A : forall ps lo hi, forallb (fun p => match path_type p j_unit with Some (TInt a b) => (a =? lo) && (b =? hi) | _ => false end) ps = true -> forall path z, In path ps -> In (JInt z) (at_path path j) -> lo <= z <= hi).
  { intros ps lo hi Hps path z Hp Hz. rewrite forallb_forall in Hps. specialize (Hps path Hp). destruct (path_type path j_unit) as [[| a b| | | |]|] eqn:Et; try discriminate.
    apply andb_prop in Hps as [H1 H2]. apply Z.eqb_eq in H1, H2. subst. eapply int_range; eauto. }
  split; [|split]; intros path z Hp Hz.
  - assert (B := A u32_paths 0 (2 ^ 32 - 1) ltac:(vm_compute; reflexivity) path z Hp Hz). lia.
  - assert (B := A u16_paths 0 (2 ^ 16 - 1) ltac:(vm_compute; reflexivity) path z Hp Hz). lia.
  - assert (B := A i64_paths (- 2 ^ 63) (2 ^ 63 - 1) ltac:(vm_compute; reflexivity) path z Hp Hz). lia.
Qed.
