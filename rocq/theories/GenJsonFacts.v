(** * The decoder written is that of the type described *)
From Coq Require Import Ascii DecimalString DecimalZ Lia.
From Verif Require Import Base BalanceJson Generator GeneratorSpec GeneratorFacts GenerateRun GenerateSpec GenerateFacts GenerateTags GenerateEnds GenJson GenJsonSpec.
#[local] Open Scope string_scope.
#[local] Open Scope Z_scope.
#[local] Open Scope list_scope.

(** ** Numbers *)
Lemma whole_in_whole z : whole_in (whole z) = Some z.
Proof.
  unfold whole_in, whole. rewrite NilZero.isi.
  - cbn [option_map]. rewrite DecimalZ.of_to. reflexivity.
  - destruct z as [|p|p]; cbn [Z.to_int]; try discriminate;
      intro H; injection H as H; exact (DecimalPos.Unsigned.to_uint_nonnil p H).
  - destruct z as [|p|p]; cbn [Z.to_int]; try discriminate;
      intro H; injection H as H; exact (DecimalPos.Unsigned.to_uint_nonnil p H).
Qed.
Lemma starts_whole z : starts "-" (whole z) = (z <? 0).
Proof.
  destruct z as [|p|p]; unfold whole; cbn [Z.to_int].
  - reflexivity.
  - pose proof (DecimalPos.Unsigned.to_uint_nonnil p) as H. revert H. generalize (Pos.to_uint p) as u.
    intros u H. destruct u; [contradiction|reflexivity..].
  - reflexivity.
Qed.

(** ** Following names, further and further *)

(** [follows r g]: in the end [r] is the decoder of [g]; it never is one if the
    text is no Rust. *)
Definition follows {A} (r : nat -> option A) (g : outcome A) : Prop :=
  match g with
  | Ok k => exists N, forall n, (N <= n)%nat -> r n = Some k
  | Err _ => forall n, r n = None
  | Panic => False
  end.
(** The same for what may stop the generator. *)
Definition leads {A} (r : nat -> outcome (option A)) (g : outcome A) : Prop :=
  (forall n, r n <> Panic) ->
  (forall n, exists o, r n = Ok o) /\
  match g with
  | Ok k => exists N, forall n, (N <= n)%nat -> r n = Ok (Some k)
  | Err _ => forall n, r n = Ok None
  | Panic => False
  end.

Lemma leads_ext {A} (r r' : nat -> outcome (option A)) g : (forall n, r n = r' n) -> leads r g -> leads r' g.
Proof.
  intros E H P. assert (P' : forall n, r n <> Panic) by (intro n; rewrite E; apply P).
  destruct (H P') as [H1 H2]. split; [intro n; rewrite <- E; apply H1|].
  destruct g as [k|e|].
  - destruct H2 as (N & H2). exists N. intros n Hn. rewrite <- E. auto.
  - intro n. rewrite <- E. auto.
  - exact H2.
Qed.
Lemma leads_const {A} (g : outcome A) (o : outcome (option A)) :
  match g with Ok k => o = Ok (Some k) | Err _ => o = Ok None | Panic => o = Panic end -> leads (fun _ => o) g.
Proof.
  intros H P. specialize (P 0%nat). destruct g as [k|e|]; subst o; [| |contradiction].
  - split; [eauto|exists 0%nat; auto].
  - split; [eauto|auto].
Qed.
Lemma leads_panic {A} (r : nat -> outcome (option A)) g : (forall n, r n = Panic) -> leads r g.
Proof. intros H P. destruct (P 0%nat (H 0%nat)). Qed.
Lemma leads_follows {A} (r : nat -> option A) g : follows r g -> leads (fun n => Ok (r n)) g.
Proof.
  intros H _. split; [eauto|]. destruct g as [k|e|]; [|intro n; rewrite H; reflexivity|exact H].
  destruct H as (N & H). exists N. intros n Hn. rewrite H by exact Hn. reflexivity.
Qed.
Lemma leads_map {A B} (f : A -> B) r g : leads r g -> leads (fun n => do k <- r n; Ok (option_map f k)) (do k <- g; Ok (f k)).
Proof.
  intros H P. assert (P' : forall n, r n <> Panic). { intros n E. apply (P n). rewrite E. reflexivity. }
  destruct (H P') as [H1 H2]. split.
  - intro n. destruct (H1 n) as (o & ->). cbn [obind]. eauto.
  - destruct g as [k|e|]; cbn [obind]; [|intro n; rewrite H2; reflexivity|exact H2].
    destruct H2 as (N & H2). exists N. intros n Hn. rewrite H2 by exact Hn. reflexivity.
Qed.
Lemma leads_pair {A B C} (f : A -> B -> C) r g r' g' : leads r g -> leads r' g' ->
  leads (fun n => do k <- r n; do ks <- r' n; Ok match k, ks with Some k, Some ks => Some (f k ks) | _, _ => None end)
    (do k <- g; do ks <- g'; Ok (f k ks)).
Proof.
  intros H H' P.
  assert (P1 : forall n, r n <> Panic). { intros n E. apply (P n). rewrite E. reflexivity. }
  destruct (H P1) as [T1 T2].
  assert (P2 : forall n, r' n <> Panic). { intros n E. apply (P n). destruct (T1 n) as (o & ->). cbn [obind]. rewrite E. reflexivity. }
  destruct (H' P2) as [U1 U2]. split.
  - intro n. destruct (T1 n) as (o & ->), (U1 n) as (o' & ->). cbn [obind]. eauto.
  - destruct g as [k|e|]; cbn [obind]; [| |exact T2].
    + destruct T2 as (N & T2). destruct g' as [ks|e|]; cbn [obind]; [| |exact U2].
      * destruct U2 as (N' & U2). exists (Nat.max N N'). intros n Hn. rewrite T2, U2 by lia. reflexivity.
      * intro n. destruct (T1 n) as (o & ->). rewrite U2. cbn [obind]. destruct o; reflexivity.
    + intro n. rewrite T2. destruct (U1 n) as (o' & ->). reflexivity.
Qed.
(** A step that names no type. *)
Lemma leads_after {A B} (o : outcome B) (r : B -> nat -> outcome (option A)) g :
  (forall b, o = Ok b -> leads (r b) g) -> (forall e, o <> Err e) -> leads (fun n => do b <- o; r b n) g.
Proof.
  intros H E P. destruct o as [b|e|]; cbn [obind] in *.
  - exact (H b eq_refl P).
  - destruct (E e eq_refl).
  - destruct (P 0%nat eq_refl).
Qed.

(** ** Bounds *)
Lemma whole_eqb x y : String.eqb (whole x) (whole y) = (x =? y).
Proof.
  destruct (Z.eqb_spec x y) as [->|N]; [apply String.eqb_refl|]. apply String.eqb_neq. intro E. apply N.
  pose proof (whole_in_whole x) as H. rewrite E, whole_in_whole in H. congruence.
Qed.
Lemma is_text_whole z y : is_text (whole y) (JStr (whole z)) = (z =? y).
Proof. cbn [is_text]. apply whole_eqb. Qed.
Definition lift {A} (o : outcome A) : outcome (option A) := match o with Ok a => Ok (Some a) | Err _ => Ok None | Panic => Panic end.
Lemma leads_lift {A} (g : outcome A) : leads (fun _ => lift g) g.
Proof. apply leads_const. destruct g; reflexivity. Qed.

Section Bounds.
  Variables (j : json) (b : bounds).
  Hypothesis H : bounded j b.
  Lemma bounds_size : jg_bit_size j = Ok (max_value_to_bit_size b).
  Proof.
    destruct H as (_ & _ & H3 & H4 & H5 & _). unfold jg_bit_size, number_at. rewrite H4. cbn [as_text or_panic obind].
    rewrite whole_in_whole. cbn [or_panic obind]. rewrite H3, H5. reflexivity.
  Qed.
  Lemma bounds_plus : jg_max_plus j = Ok (max_plus b).
  Proof.
    destruct H as (_ & _ & H3 & H4 & H5 & _). unfold jg_max_plus, number_at. rewrite H4. cbn [as_text or_panic obind].
    rewrite whole_in_whole. cbn [or_panic obind]. rewrite H5. unfold max_plus. cbn [as_flag]. destruct (b_max_incl b); reflexivity.
  Qed.
  Lemma bounds_field_int : jg_field_int j = Ok (Some (KInt (b_min b) (max_value_to_bit_size b))).
  Proof.
    unfold jg_field_int. rewrite bounds_size. destruct H as (_ & H2 & _). rewrite H2. cbn [as_text or_panic obind].
    unfold jg_with. rewrite whole_in_whole. reflexivity.
  Qed.
  Lemma bounds_length : (do s <- or_panic (as_text (at_key "evalue" (at_key "max" j))); jg_length_bits s) = Ok (field_array_bits b).
  Proof.
    destruct H as (_ & _ & _ & H4 & _). rewrite H4. cbn [as_text or_panic obind]. unfold jg_length_bits. rewrite whole_in_whole. reflexivity.
  Qed.
  Lemma bounds_exact s : is_text s (at_key "type" j) = String.eqb (if b_exact b then "ExactConstraint" else "MinMaxConstraint") s.
  Proof. destruct H as (H1 & _). rewrite H1. reflexivity. Qed.
  Lemma bounds_zero : is_text "0" (at_key "evalue" (at_key "min" j)) = (b_min b =? 0).
  Proof. destruct H as (_ & H2 & _). rewrite H2. exact (is_text_whole (b_min b) 0). Qed.
  Lemma bounds_int : jg_int j = lift (gen_int b).
  Proof.
    unfold jg_int, gen_int. rewrite bounds_exact. destruct (b_exact b); [reflexivity|]. cbn [String.eqb Ascii.eqb Bool.eqb negb].
    change (String.eqb "MinMaxConstraint" "MinMaxConstraint") with true. cbn [negb].
    pose proof bounds_size as S. destruct H as (_ & H2 & _ & H4 & _ & H6). rewrite H2. cbn [as_text or_panic obind]. rewrite starts_whole.
    unfold jg_with. rewrite whole_in_whole. cbn [option_map].
    destruct (b_expr b) as [|n|].
    - rewrite H6, H4. cbn [as_text]. rewrite S. reflexivity.
    - destruct H6 as [-> ->]. cbn [as_text]. rewrite whole_in_whole. cbn [or_panic obind].
      destruct (Z.leb_spec 0 (Z.of_nat n)); [|lia]. cbn [negb is_text]. rewrite String.eqb_refl. cbn [obind]. rewrite Nat2Z.id. reflexivity.
    - destruct H6 as [X Y]. destruct (as_text (at_key "value" (at_key "rhs" (at_key "value" (at_key "max" j))))) as [s|]; [|contradiction].
      cbn [obind]. destruct (whole_in s) as [n|]; [|reflexivity]. cbn [or_panic obind]. destruct (0 <=? n); [|reflexivity]. cbn [negb].
      replace (is_text "PowExpr" (at_key "type" (at_key "value" (at_key "max" j)))) with false; [reflexivity|]. symmetry.
      destruct (at_key "type" (at_key "value" (at_key "max" j))) eqn:E; try reflexivity. cbn [is_text]. apply String.eqb_neq. congruence.
  Qed.
  Lemma bounds_bit_array : jg_bit_array j = lift (gen_bit_array b).
  Proof.
    unfold jg_bit_array, gen_bit_array. rewrite bounds_exact, bounds_zero, bounds_size. destruct (b_exact b); [reflexivity|].
    change (String.eqb "MinMaxConstraint" "MinMaxConstraint") with true. cbn [negb]. destruct (b_min b =? 0); reflexivity.
  Qed.
  Lemma bounds_string : jg_string j = lift (gen_string b).
  Proof.
    unfold jg_string, gen_string. rewrite bounds_exact, bounds_zero, bounds_plus. destruct (b_exact b); [reflexivity|].
    change (String.eqb "MinMaxConstraint" "MinMaxConstraint") with true. cbn [negb]. destruct (b_min b =? 0); reflexivity.
  Qed.
  Lemma bounds_blob : jg_blob j = lift (gen_blob b).
  Proof.
    unfold jg_blob, gen_blob. rewrite bounds_exact, bounds_size. destruct (b_exact b); [|reflexivity].
    change (String.eqb "ExactConstraint" "ExactConstraint") with true. cbn [negb].
    destruct H as (_ & H2 & _ & H4 & _). rewrite H2, H4. cbn [as_text]. rewrite whole_eqb. destruct (b_min b =? b_max b); reflexivity.
  Qed.
End Bounds.

(** ** The whole module *)
Section Module.
  Variables (su : surroundings) (mods : list json).
  Hypothesis event_data : rust_name su "m_eventData" = "MEventData".
  Hypothesis distinct : NoDup (map (jg_name su) (declared mods)).
  Definition refs_at (n : nat) : string -> option code := module_code su (struct_for su mods) (declared mods) n.
  Hypothesis no_panic : forall d, In d (declared mods) -> forall refs, jg_decl su refs (struct_for su mods) d <> Panic.

  Lemma one_of_name d : In d (declared mods) -> filter (fun d' => String.eqb (jg_name su d') (jg_name su d)) (declared mods) = [d].
  Proof.
    revert distinct. generalize (declared mods) as l. induction l as [|a l IH]; intros N I; [destruct I|].
    cbn [map] in N. inversion N as [|x l' Hx Hl]; subst. cbn [filter]. destruct I as [->|I].
    - rewrite String.eqb_refl. f_equal.
      assert (Hx' : forall y, In y l -> jg_name su y <> jg_name su d). { intros y Hy E. apply Hx. rewrite <- E. apply in_map. exact Hy. }
      clear - Hx'. induction l as [|y l IH]; [reflexivity|]. cbn [filter].
      rewrite (proj2 (String.eqb_neq _ _) (Hx' y (or_introl eq_refl))). apply IH. intros z Hz. apply Hx'. right. exact Hz.
    - assert (E : String.eqb (jg_name su a) (jg_name su d) = false).
      { apply String.eqb_neq. intro E. apply Hx. rewrite E. apply in_map. exact I. }
      rewrite E. apply IH; assumption.
  Qed.

  (** The decoder of a declaration, under its name. *)
  Lemma named_decl d t : In d (declared mods) ->
    leads (fun n => jg_decl su (refs_at n) (struct_for su mods) d) (gen Decl t) -> follows (fun n => refs_at n (jg_name su d)) (gen Decl t).
  Proof.
    intros I L. destruct (L (fun n => no_panic d I (refs_at n))) as [_ R]. unfold follows. destruct (gen Decl t) as [k|e|]; [| |exact R].
    - destruct R as (N & R). exists (Datatypes.S N). intros n Hn. destruct n as [|n]; [lia|]. unfold refs_at. cbn [module_code].
      rewrite (one_of_name d I). fold (refs_at n). rewrite R by lia. reflexivity.
    - intros [|n]; [reflexivity|]. unfold refs_at. cbn [module_code]. rewrite (one_of_name d I). fold (refs_at n). rewrite R. reflexivity.
  Qed.

  (** What holds of the type in every place it can stand in. *)
  Definition as_a_field (j : json) (t : ntype) : Prop := forall f, at_key "type_info" f = j -> at_key "bounds" f = JNull ->
    ~ (at_key "name" f = JStr "m_eventData" /\ at_key "type" j = JStr "ChoiceType") ->
    leads (fun n => do s <- jg_sort j; jg_field su (refs_at n) f s) (gen Field t).
  Definition as_a_variant (j : json) (t : ntype) : Prop := leads (fun n => jg_variant su (refs_at n) j) (gen Variant t).
  Definition named (t : ntype) : outcome code := match t with NUser t' => gen Decl t' | _ => Panic end.
  Definition as_an_element (j : json) (t : ntype) : Prop :=
    (forall p, at_key "element_type" p = j -> leads (fun n => jg_element su (refs_at n) p) (named t)) /\
    leads (fun n => do s <- or_panic (as_text (at_key "fullname" j)); Ok (refs_at n (rust_name su s))) (named t).
  Definition as_an_option (j : json) (t : ntype) : Prop := leads (fun n => jg_optional su (refs_at n) j) (gen Field (NOpt t)).
  Definition as_an_optional_variant (j : json) (t : ntype) : Prop := forall p, at_key "type_info" p = j -> in_place p "OptionalType" ->
    leads (fun n => jg_variant su (refs_at n) p) (gen Variant (NOpt t)).
  Definition as_a_decl (j : json) (t : ntype) : Prop := forall d, at_key "type_info" d = j ->
    leads (fun n => jg_decl su (refs_at n) (struct_for su mods) d) (gen Decl t).
  Definition sorted (j : json) (t : ntype) : Prop :=
    match t with NChoice _ => in_place j "ChoiceType" | _ => at_key "type" j <> JStr "ChoiceType" end.
  Definition everywhere (j : json) (t : ntype) : Prop :=
    sorted j t /\ as_a_field j t /\ as_a_variant j t /\ as_an_element j t /\ as_an_option j t /\ as_an_optional_variant j t /\ as_a_decl j t.

  Ltac eqbs := repeat match goal with
    | |- context [String.eqb ?a ?b] => let v := eval compute in (String.eqb a b) in
        match v with true => change (String.eqb a b) with true | false => change (String.eqb a b) with false end
    end.
  Ltac table := match goal with |- context [jg_table su ?s] => let v := eval compute in (jg_table su s) in change (jg_table su s) with v end.
  Ltac open_sort Ht Hf := unfold jg_sort; rewrite ?Hf; cbn [as_text]; rewrite ?Ht; cbn [as_text or_panic obind].
  (** By computation. *)
  Ltac settled := eapply leads_ext; [intro; symmetry; cbv beta|].

  Lemma no_element j s t : in_place j s -> (forall t', t <> NUser t') -> as_an_element j t.
  Proof.
    intros [Ht Hf] N. split.
    - intros p <-. apply leads_panic. intro n. unfold jg_element. rewrite Hf. reflexivity.
    - apply leads_panic. intro n. rewrite Hf. reflexivity.
  Qed.
  Lemma no_option_variant j s t : in_place j s -> s <> "UserType" -> (forall t', t <> NUser t') -> as_an_optional_variant j t.
  Proof.
    intros [Ht Hf] S N p <- [Pt Pf]. settled.
    - unfold jg_variant. open_sort Pt Pf. table. cbn [obind]. rewrite Ht. cbn [is_text]. rewrite (proj2 (String.eqb_neq _ _) S). reflexivity.
    - apply leads_const. destruct t; try reflexivity. destruct (N t eq_refl).
  Qed.
  Lemma field_length f b : at_key "bounds" f = JNull -> bounded (at_key "bounds" (at_key "type_info" f)) b ->
    (do s <- match as_text (at_key "evalue" (at_key "max" (at_key "bounds" f))) with
             | Some s => Ok s
             | None => or_panic (as_text (at_key "evalue" (at_key "max" (at_key "bounds" (at_key "type_info" f)))))
             end; jg_length_bits s) = Ok (field_array_bits b).
  Proof. intros H B. rewrite H. cbn [at_key as_text]. exact (bounds_length _ _ B). Qed.

  Ltac field_open Ht Hf := intros f <- Hb Hn; settled; [open_sort Ht Hf; unfold jg_field; eqbs; rewrite ?Bool.andb_false_r; table; cbn [obind]; eqbs|].
  Ltac variant_open Ht Hf := unfold as_a_variant; settled; [unfold jg_variant; open_sort Ht Hf; table; cbn [obind]|].
  Ltac option_open Ht Hf := unfold as_an_option; settled; [unfold jg_optional; rewrite Ht; cbn [as_text or_panic obind]; eqbs; open_sort Ht Hf; try table; cbn [obind]|].
  Ltac decl_open Ht Hf := intros d <-; settled; [unfold jg_decl; rewrite Ht; cbn [as_text or_panic obind existsb]; eqbs; cbn [orb]|].

  Ltac each P Ht Hf := pose proof P as [Ht Hf]; refine (conj _ (conj _ (conj _ (conj _ (conj _ (conj _ _))))));
    [first [exact P | unfold sorted; rewrite Ht; discriminate]| | |apply (no_element _ _ _ P); discriminate| |apply (no_option_variant _ _ _ P); discriminate|].
  Ltac const := apply leads_const; reflexivity.

  Lemma int_everywhere j b : in_place j "IntType" -> bounded (at_key "bounds" j) b -> everywhere j (NInt b).
  Proof.
    intros P B. each P Ht Hf.
    - field_open Ht Hf; [rewrite (bounds_field_int _ _ B); reflexivity|]. const.
    - variant_open Ht Hf; [reflexivity|]. const.
    - option_open Ht Hf; [rewrite (bounds_field_int _ _ B); reflexivity|]. const.
    - decl_open Ht Hf; [rewrite (bounds_int _ _ B); reflexivity|]. apply leads_lift.
  Qed.
  Lemma inum_everywhere j b : in_place j "InumType" -> bounded (at_key "bounds" j) b -> everywhere j (NInum b).
  Proof.
    intros P B. each P Ht Hf.
    - field_open Ht Hf; [reflexivity|]. const.
    - variant_open Ht Hf; [reflexivity|]. const.
    - option_open Ht Hf; [reflexivity|]. const.
    - decl_open Ht Hf; [rewrite (bounds_int _ _ B); reflexivity|]. apply leads_lift.
  Qed.
  Lemma bit_array_everywhere j b : in_place j "BitArrayType" -> bounded (at_key "bounds" j) b -> everywhere j (NBitArray b).
  Proof.
    intros P B. each P Ht Hf.
    - field_open Ht Hf; [reflexivity|]. const.
    - variant_open Ht Hf; [reflexivity|]. const.
    - option_open Ht Hf; [reflexivity|]. const.
    - decl_open Ht Hf; [rewrite (bounds_bit_array _ _ B); reflexivity|]. apply leads_lift.
  Qed.
  Lemma blob_everywhere j b : in_place j "BlobType" -> bounded (at_key "bounds" j) b -> everywhere j (NBlob b).
  Proof.
    intros P B. each P Ht Hf.
    - field_open Ht Hf; [rewrite (field_length _ _ Hb B); reflexivity|]. const.
    - variant_open Ht Hf; [reflexivity|]. const.
    - option_open Ht Hf; [rewrite (bounds_length _ _ B); reflexivity|]. const.
    - decl_open Ht Hf; [rewrite (bounds_blob _ _ B); reflexivity|]. apply leads_lift.
  Qed.
  Lemma string_everywhere j b : in_place j "StringType" -> bounded (at_key "bounds" j) b -> everywhere j (NString b).
  Proof.
    intros P B. each P Ht Hf.
    - field_open Ht Hf; [rewrite (field_length _ _ Hb B); reflexivity|]. const.
    - variant_open Ht Hf; [reflexivity|]. const.
    - option_open Ht Hf; [rewrite (bounds_length _ _ B); reflexivity|]. const.
    - decl_open Ht Hf; [rewrite (bounds_string _ _ B); reflexivity|]. apply leads_lift.
  Qed.
  Lemma ascii_everywhere j b : in_place j "AsciiStringType" -> bounded (at_key "bounds" j) b -> everywhere j (NAscii b).
  Proof.
    intros P B. each P Ht Hf.
    - field_open Ht Hf; [rewrite (field_length _ _ Hb B); reflexivity|]. const.
    - variant_open Ht Hf; [reflexivity|]. const.
    - option_open Ht Hf; [rewrite (bounds_length _ _ B); reflexivity|]. const.
    - decl_open Ht Hf; [reflexivity|]. const.
  Qed.
  Lemma bool_everywhere j : in_place j "BoolType" -> everywhere j NBool.
  Proof.
    intros P. each P Ht Hf.
    - field_open Ht Hf; [reflexivity|]. const.
    - variant_open Ht Hf; [reflexivity|]. const.
    - option_open Ht Hf; [reflexivity|]. const.
    - decl_open Ht Hf; [reflexivity|]. const.
  Qed.
  Lemma fourcc_everywhere j : in_place j "FourCCType" -> everywhere j NFourcc.
  Proof.
    intros P. each P Ht Hf.
    - field_open Ht Hf; [reflexivity|]. const.
    - variant_open Ht Hf; [reflexivity|]. const.
    - option_open Ht Hf; [reflexivity|]. const.
    - decl_open Ht Hf; [reflexivity|]. const.
  Qed.
  Lemma null_everywhere j : in_place j "NullType" -> everywhere j NNull.
  Proof.
    intros P. each P Ht Hf.
    - field_open Ht Hf; [reflexivity|]. const.
    - variant_open Ht Hf; [reflexivity|]. const.
    - option_open Ht Hf; [reflexivity|]. const.
    - decl_open Ht Hf; [reflexivity|]. const.
  Qed.

  (** Arrays *)
  Lemma gen_array_field dyn b t : gen Field (NArray dyn b t) = do k <- named t; Ok (KArray (field_array_bits b) k).
  Proof. destruct t; reflexivity. Qed.
  Lemma gen_array_decl dyn b t : gen Decl (NArray dyn b t) = do k <- named t; Ok (KArray (array_bits b) k).
  Proof. destruct t; reflexivity. Qed.
  Lemma gen_array_option b t : gen Field (NOpt (NArray false b t)) = do k <- named t; Ok (KOptReread (KArray (field_array_bits b) k)).
  Proof. destruct t; reflexivity. Qed.
  Lemma array_everywhere j (dyn : bool) b t : in_place j (if dyn then "DynArrayType" else "ArrayType") -> bounded (at_key "bounds" j) b ->
    everywhere (at_key "element_type" j) t -> everywhere j (NArray dyn b t).
  Proof.
    intros P B (_ & _ & _ & (E1 & E2) & _). specialize (E1 j eq_refl).
    assert (P' : exists s, in_place j s /\ s <> "UserType" /\ s <> "ChoiceType") by (destruct dyn; eexists; (split; [exact P|split; discriminate])).
    destruct P' as (s & P' & Hs & Hs'). refine (conj _ (conj _ (conj _ (conj _ (conj _ (conj _ _)))))).
    - unfold sorted. destruct P' as [-> _]. congruence.
    - destruct dyn; destruct P as [Ht Hf].
      + field_open Ht Hf; [rewrite (field_length _ _ Hb B); cbn [obind]; reflexivity|]. rewrite gen_array_field. apply leads_map. exact E1.
      + field_open Ht Hf; [rewrite (field_length _ _ Hb B); cbn [obind]; reflexivity|]. rewrite gen_array_field. apply leads_map. exact E1.
    - destruct dyn; destruct P as [Ht Hf].
      + variant_open Ht Hf; [reflexivity|]. const.
      + variant_open Ht Hf; [reflexivity|]. const.
    - apply (no_element _ _ _ P'). discriminate.
    - destruct dyn; destruct P as [Ht Hf].
      + option_open Ht Hf; [rewrite (bounds_length _ _ B); reflexivity|]. const.
      + unfold as_an_option. settled; [unfold jg_optional; rewrite Ht; cbn [as_text or_panic obind]; eqbs; rewrite (bounds_length _ _ B); cbn [obind]; reflexivity|].
        rewrite gen_array_option. exact (leads_map _ _ _ E1).
    - apply (no_option_variant _ _ _ P'); [exact Hs|discriminate].
    - intros d <-.
      apply (leads_ext (fun n => do k <- (do s <- or_panic (as_text (at_key "fullname" (at_key "element_type" (at_key "type_info" d)))); Ok (refs_at n (rust_name su s)));
                                 Ok (option_map (KArray (array_bits b)) k))).
      + intro n. unfold jg_decl. symmetry. rewrite (bounds_plus _ _ B).
        destruct dyn; destruct P as [Ht Hf]; rewrite Ht; cbn [as_text or_panic obind existsb]; eqbs; cbn [orb];
          destruct (or_panic (as_text (at_key "fullname" (at_key "element_type" (at_key "type_info" d))))); reflexivity.
      + rewrite gen_array_decl. apply leads_map. exact E2.
  Qed.

  Lemma option_everywhere j t : in_place j "OptionalType" -> everywhere (at_key "type_info" j) t -> everywhere j (NOpt t).
  Proof.
    intros P (_ & _ & _ & _ & O & W & _). each P Ht Hf.
    - field_open Ht Hf; [reflexivity|]. exact O.
    - exact (W j eq_refl P).
    - option_open Ht Hf; [reflexivity|]. const.
    - decl_open Ht Hf; [reflexivity|]. const.
  Qed.

  Lemma table_name name : String.prefix "NNet" name = true -> jg_table su name = Ok (CvName (rust_name su name)).
  Proof. intro H. unfold jg_table. rewrite starts_prefix, H. reflexivity. Qed.
  Lemma name_everywhere j name t : at_key "type" j = JStr "UserType" -> at_key "fullname" j = JStr name -> String.prefix "NNet" name = true ->
    follows (fun n => refs_at n (rust_name su name)) (gen Decl t) -> everywhere j (NUser t).
  Proof.
    intros Ht Hf Hp F. pose proof (table_name name Hp) as T. apply leads_follows in F as L.
    assert (Hc : String.eqb name "ChoiceType" = false). { apply String.eqb_neq. intros ->. discriminate Hp. }
    refine (conj _ (conj _ (conj _ (conj _ (conj _ (conj _ _)))))).
    - unfold sorted. rewrite Ht. discriminate.
    - intros f <- Hb Hn. settled; [unfold jg_sort; rewrite Hf; cbn [as_text obind]; unfold jg_field; rewrite Hc, Bool.andb_false_r, T; cbn [obind]; reflexivity|]. exact L.
    - unfold as_a_variant. settled; [unfold jg_variant, jg_sort; rewrite Hf; cbn [as_text obind]; rewrite T; cbn [obind]; reflexivity|]. exact L.
    - split.
      + intros p <-. settled; [unfold jg_element; rewrite Hf; cbn [as_text or_panic obind]; rewrite T; cbn [obind]; reflexivity|]. exact L.
      + settled; [rewrite Hf; cbn [as_text or_panic obind]; reflexivity|]. exact L.
    - unfold as_an_option. settled; [unfold jg_optional, jg_sort; rewrite Ht, Hf; cbn [as_text or_panic obind]; eqbs; rewrite T; cbn [obind]; reflexivity|].
      exact (leads_map KOpt _ _ L).
    - intros p <- [Pt Pf]. settled; [unfold jg_variant; open_sort Pt Pf; table; cbn [obind]; rewrite Ht, Hf; cbn [is_text]; eqbs; cbn [as_text or_panic obind]; reflexivity|].
      exact (leads_map KOpt _ _ L).
    - intros d <-. settled; [unfold jg_decl; rewrite Ht, Hf; cbn [as_text or_panic obind existsb]; eqbs; cbn [orb]; reflexivity|]. exact L.
  Qed.

  (** Choices, structs, enums *)
  Fixpoint gen_variants (l : list (Z * string * ntype)) : outcome (list (Z * string * code)) :=
    match l with [] => Ok [] | (n, t') :: l' => do k <- gen Variant t'; do ks <- gen_variants l'; Ok ((n, k) :: ks) end.
  Lemma gen_choice vs : gen Decl (NChoice vs) = do ks <- gen_variants vs; Ok (KChoice (ceil_log2 (length vs)) ks).
  Proof. reflexivity. Qed.
  Definition gen_field (n : string) (t' : ntype) : outcome code :=
    match t' with NChoice _ => if String.eqb n "m_eventData" then gen Decl t' else gen Field t' | _ => gen Field t' end.
  Fixpoint gen_fields (l : list (string * ntype)) : outcome (list (string * code)) :=
    match l with [] => Ok [] | (n, t') :: l' => do k <- gen_field n t'; do ks <- gen_fields l'; Ok ((n, k) :: ks) end.
  Lemma gen_struct fs : gen Decl (NStruct fs) = do ks <- gen_fields fs; Ok (KStruct ks).
  Proof. reflexivity. Qed.

  Lemma choice_everywhere j l vs : in_place j "ChoiceType" -> at_key "fields" j = JArr l -> length l = length vs ->
    leads (fun n => jg_variants su (refs_at n) l) (gen_variants vs) -> everywhere j (NChoice vs).
  Proof.
    intros P Hl Len L. each P Ht Hf.
    - intros f <- Hb Hn. settled; [open_sort Ht Hf; unfold jg_field|].
      + replace (is_text "m_eventData" (at_key "name" f)) with false; [cbn [andb]; table; cbn [obind]; reflexivity|].
        symmetry. destruct (at_key "name" f) eqn:E; try reflexivity. cbn [is_text]. apply String.eqb_neq. intros ->. apply Hn. split; [reflexivity|exact Ht].
      + const.
    - variant_open Ht Hf; [reflexivity|]. const.
    - option_open Ht Hf; [reflexivity|]. const.
    - decl_open Ht Hf; [rewrite Hl; cbn [as_list or_panic obind]; reflexivity|]. rewrite gen_choice, <- Len. apply leads_map. exact L.
  Qed.
  Lemma struct_everywhere j l fs : in_place j "StructType" -> at_key "fields" j = JArr l ->
    leads (fun n => jg_fields su (refs_at n) l) (gen_fields fs) -> everywhere j (NStruct fs).
  Proof.
    intros P Hl L. each P Ht Hf.
    - field_open Ht Hf; [reflexivity|]. const.
    - variant_open Ht Hf; [reflexivity|]. const.
    - option_open Ht Hf; [reflexivity|]. const.
    - decl_open Ht Hf; [rewrite Hl; cbn [as_list or_panic obind]; reflexivity|]. rewrite gen_struct. apply leads_map. exact L.
  Qed.

  Lemma variants_cons v l z name t vs : at_key "name" v = JStr name -> int_literal (at_key "tag" v) z ->
    as_a_variant (at_key "type_info" v) t -> leads (fun n => jg_variants su (refs_at n) l) (gen_variants vs) ->
    leads (fun n => jg_variants su (refs_at n) (v :: l)) (gen_variants ((z, name, t) :: vs)).
  Proof.
    intros Hn [I1 I2] V L. cbn [gen_variants]. eapply leads_ext; [|exact (leads_pair (fun k ks => (z, name, k) :: ks) _ _ _ _ V L)].
    intro n. cbn [jg_variants]. rewrite Hn, I1, I2. cbn [as_text or_panic obind is_text]. rewrite String.eqb_refl, whole_in_whole. cbn [negb].
    reflexivity.
  Qed.
  Lemma fields_const f l fs : at_key "type" f = JStr "ConstDecl" ->
    as_text (at_key "fullname" (at_key "type_info" f)) <> None \/ as_text (at_key "type" (at_key "type_info" f)) <> None ->
    leads (fun n => jg_fields su (refs_at n) l) (gen_fields fs) -> leads (fun n => jg_fields su (refs_at n) (f :: l)) (gen_fields fs).
  Proof.
    intros Hc Hs L. eapply leads_ext; [|exact L]. intro n. cbn [jg_fields]. rewrite Hc. cbn [as_text or_panic obind]. unfold jg_sort.
    destruct (as_text (at_key "fullname" (at_key "type_info" f))) as [s|].
    - cbn [obind]. rewrite String.eqb_refl. reflexivity.
    - destruct Hs as [Hs|Hs]; [contradiction|]. destruct (as_text (at_key "type" (at_key "type_info" f))); [|contradiction].
      cbn [or_panic obind]. rewrite String.eqb_refl. reflexivity.
  Qed.
  Lemma field_code f name t : at_key "name" f = JStr name -> at_key "bounds" f = JNull ->
    (name = "m_eventData" -> at_key "type" (at_key "type_info" f) = JStr "ChoiceType" -> In f (declared mods) /\ at_key "fullname" f = JNull) ->
    everywhere (at_key "type_info" f) t ->
    leads (fun n => do s <- jg_sort (at_key "type_info" f); jg_field su (refs_at n) f s) (gen_field name t).
  Proof.
    intros Hn Hb He (S & F & _ & _ & _ & _ & D).
    assert (C : (name = "m_eventData" /\ exists vs, t = NChoice vs) \/
                (~ (name = "m_eventData" /\ at_key "type" (at_key "type_info" f) = JStr "ChoiceType") /\ gen_field name t = gen Field t)).
    { unfold sorted in S. destruct t; try (right; split; [intros [_ X]; contradiction|reflexivity]).
      destruct (String.eqb_spec name "m_eventData") as [->|N]; [left; eauto|right]. split; [intros [X _]; contradiction|].
      unfold gen_field. rewrite (proj2 (String.eqb_neq _ _) N). reflexivity. }
    destruct C as [[-> (vs & ->)]|[N ->]].
    - cbn [sorted] in S. destruct S as [St Sf]. destruct (He eq_refl St) as [I Hf].
      assert (J : jg_name su f = "MEventData"). { unfold jg_name. rewrite Hf. exact event_data. }
      pose proof (named_decl f _ I (D f eq_refl)) as W. rewrite J in W. apply leads_follows in W.
      eapply leads_ext; [|exact W]. intro n. unfold jg_sort. rewrite Sf, St. cbn [as_text or_panic obind]. unfold jg_field. rewrite Hn. reflexivity.
    - apply F; [reflexivity|exact Hb|]. intros [X Y]. apply N. split; [congruence|exact Y].
  Qed.
  Lemma fields_cons f l name t fs : at_key "type" f = JStr "MemberStructField" -> at_key "name" f = JStr name -> at_key "bounds" f = JNull ->
    (name = "m_eventData" -> at_key "type" (at_key "type_info" f) = JStr "ChoiceType" -> In f (declared mods) /\ at_key "fullname" f = JNull) ->
    everywhere (at_key "type_info" f) t -> leads (fun n => jg_fields su (refs_at n) l) (gen_fields fs) ->
    leads (fun n => jg_fields su (refs_at n) (f :: l)) (gen_fields ((name, t) :: fs)).
  Proof.
    intros Ht Hn Hb He E L. cbn [gen_fields].
    eapply leads_ext; [|exact (leads_pair (fun k ks => (name, k) :: ks) _ _ _ _ (field_code f name t Hn Hb He E) L)].
    intro n. cbn [jg_fields]. rewrite Ht, Hn. cbn [as_text or_panic obind].
    destruct (jg_sort (at_key "type_info" f)) as [s|e|]; reflexivity.
  Qed.

  Fixpoint gen_ids (l : list (Z * string * option ntype)) : outcome (list (Z * string * option code)) :=
    match l with
    | [] => Ok []
    | (n, None) :: l' => do ks <- gen_ids l'; Ok ((n, None) :: ks)
    | (n, Some t) :: l' => do k <- gen Decl t; do ks <- gen_ids l'; Ok ((n, Some k) :: ks)
    end.
  Lemma leads_unit {A} (x : A) : leads (fun _ => Ok (Some x)) (Ok x).
  Proof. apply leads_const. reflexivity. Qed.
  Lemma ids_bare enum v l z name vs : at_key "name" v = JStr name -> int_literal (at_key "value" v) z ->
    struct_for su mods (enum ++ "::" ++ rust_name su name)%string = None ->
    leads (fun n => jg_enum su (refs_at n) (struct_for su mods) enum l) (gen_ids vs) ->
    leads (fun n => jg_enum su (refs_at n) (struct_for su mods) enum (v :: l)) (gen_ids ((z, name, None) :: vs)).
  Proof.
    intros Hn [I1 I2] S L. cbn [gen_ids]. eapply leads_ext; [|exact (leads_map (fun ks => (z, name, None) :: ks) _ _ L)].
    intro n. cbn [jg_enum]. rewrite Hn, I1, I2. cbn [as_text or_panic obind is_text]. rewrite String.eqb_refl, whole_in_whole, S. cbn [negb].
    destruct (jg_enum su (refs_at n) (struct_for su mods) enum l) as [[ks|]|e|]; reflexivity.
  Qed.
  Lemma ids_struct enum v l z name s t vs : at_key "name" v = JStr name -> int_literal (at_key "value" v) z ->
    struct_for su mods (enum ++ "::" ++ rust_name su name)%string = Some s ->
    follows (fun n => refs_at n s) (gen Decl t) ->
    leads (fun n => jg_enum su (refs_at n) (struct_for su mods) enum l) (gen_ids vs) ->
    leads (fun n => jg_enum su (refs_at n) (struct_for su mods) enum (v :: l)) (gen_ids ((z, name, Some t) :: vs)).
  Proof.
    intros Hn [I1 I2] S F L. cbn [gen_ids].
    eapply leads_ext; [|exact (leads_pair (fun k ks => (z, name, Some k) :: ks) _ _ _ _ (leads_follows _ _ F) L)].
    intro n. cbn [jg_enum]. rewrite Hn, I1, I2. cbn [as_text or_panic obind is_text]. rewrite String.eqb_refl, whole_in_whole, S. cbn [negb].
    destruct (jg_enum su (refs_at n) (struct_for su mods) enum l) as [[ks|]|e|]; destruct (refs_at n s); reflexivity.
  Qed.

  Lemma gen_ids_length l ks : gen_ids l = Ok ks -> length ks = length l.
  Proof.
    revert ks. induction l as [|[n [t|]] l IH]; intros ks H; cbn [gen_ids] in H.
    - injection H as <-. reflexivity.
    - destruct (gen Decl t) as [k|e|]; try discriminate. cbn [obind] in H. destruct (gen_ids l) as [k'|e|]; try discriminate.
      injection H as <-. cbn [length]. f_equal. apply IH. reflexivity.
    - destruct (gen_ids l) as [k'|e|]; try discriminate. injection H as <-. cbn [length]. f_equal. apply IH. reflexivity.
  Qed.
  Lemma gen_ids_bare l : (forall v, In v l -> snd v = None) -> gen_ids l = Ok (map (fun v => (fst v, None)) l).
  Proof.
    induction l as [|[n o] l IH]; intro H; [reflexivity|]. pose proof (H (n, o) (or_introl eq_refl)) as E. cbn [snd] in E. subst o.
    cbn [gen_ids map fst]. rewrite IH by (intros v Hv; apply H; right; exact Hv). reflexivity.
  Qed.
  Lemma gen_enum l : (forall v, In v l -> snd v = None) -> gen Decl (NEnum (map fst l)) = do ks <- gen_ids l; Ok (jg_enum_code ks).
  Proof.
    intro H. rewrite (gen_ids_bare l H). cbn [obind]. unfold jg_enum_code.
    replace (forallb (fun x : Z * string * option code => match snd x with None => true | Some _ => false end) (map (fun v => (fst v, None)) l)) with true.
    - rewrite map_map, !map_length. cbn [fst]. cbn [gen]. rewrite map_length. reflexivity.
    - symmetry. apply forallb_forall. intros x Hx. apply in_map_iff in Hx. destruct Hx as (y & <- & _). reflexivity.
  Qed.
  Fixpoint gen_event_list (l : list (Z * string * option ntype)) : outcome (list (Z * string * code)) :=
    match l with
    | [] => Ok []
    | (n, o) :: l' => do k <- match o with Some t' => gen Decl t' | None => Ok KUnit end; do ks <- gen_event_list l'; Ok ((n, k) :: ks)
    end.
  Lemma gen_event_ids l : gen_event_list l = do ks <- gen_ids l; Ok (map (fun x => (fst x, match snd x with Some k => k | None => KUnit end)) ks).
  Proof.
    induction l as [|[n [t|]] l IH]; [reflexivity| |]; cbn [gen_event_list gen_ids].
    - destruct (gen Decl t) as [k|e|]; cbn [obind]; [|reflexivity..]. rewrite IH. destruct (gen_ids l) as [ks|e|]; reflexivity.
    - cbn [obind]. rewrite IH. destruct (gen_ids l) as [ks|e|]; reflexivity.
  Qed.
  Lemma gen_ids_some l ks : gen_ids l = Ok ks -> (exists v, In v l /\ snd v <> None) ->
    forallb (fun x : Z * string * option code => match snd x with None => true | Some _ => false end) ks = false.
  Proof.
    revert ks. induction l as [|[n o] l IH]; intros ks H (v & Hv & Hs); [destruct Hv|]. cbn [gen_ids] in H. destruct o as [t|].
    - destruct (gen Decl t) as [k|e|]; try discriminate. cbn [obind] in H. destruct (gen_ids l) as [k'|e|]; try discriminate.
      injection H as <-. reflexivity.
    - destruct (gen_ids l) as [k'|e|]; try discriminate. injection H as <-. cbn [forallb snd andb].
      apply IH; [reflexivity|]. destruct Hv as [<-|Hv]; [destruct (Hs eq_refl)|]. exists v. split; assumption.
  Qed.
  Lemma gen_events l : (exists v, In v l /\ snd v <> None) -> gen Decl (NEvents l) = do ks <- gen_ids l; Ok (jg_enum_code ks).
  Proof.
    intro H. change (gen Decl (NEvents l)) with (do ks <- gen_event_list l; Ok (KChoice (ceil_log2 (length l)) ks)). rewrite gen_event_ids.
    destruct (gen_ids l) as [ks|e|] eqn:E; cbn [obind]; [|reflexivity..]. unfold jg_enum_code. rewrite (gen_ids_some l ks E H).
    rewrite (gen_ids_length l ks E). reflexivity.
  Qed.
  Lemma enum_decl d l vs g : in_place (at_key "type_info" d) "EnumType" -> at_key "fields" (at_key "type_info" d) = JArr l ->
    leads (fun n => jg_enum su (refs_at n) (struct_for su mods) (rust_name su (su_show su (at_key "fullname" d))) l) (gen_ids vs) ->
    g = (do ks <- gen_ids vs; Ok (jg_enum_code ks)) -> leads (fun n => jg_decl su (refs_at n) (struct_for su mods) d) g.
  Proof.
    intros [Ht Hf] Hl L ->. eapply leads_ext; [|exact (leads_map jg_enum_code _ _ L)].
    intro n. unfold jg_decl. rewrite Ht, Hl. reflexivity.
  Qed.

  Lemma described_leads :
    (forall j t, described su mods j t -> everywhere j t) /\
    (forall l vs, described_variants su mods l vs -> length l = length vs /\ leads (fun n => jg_variants su (refs_at n) l) (gen_variants vs)) /\
    (forall l fs, described_fields su mods l fs -> leads (fun n => jg_fields su (refs_at n) l) (gen_fields fs)) /\
    (forall d t, described_decl su mods d t -> In d (declared mods) -> follows (fun n => refs_at n (jg_name su d)) (gen Decl t)) /\
    (forall enum l vs, described_ids su mods enum l vs -> leads (fun n => jg_enum su (refs_at n) (struct_for su mods) enum l) (gen_ids vs)).
  Proof.
    apply described_all.
    - apply int_everywhere.
    - apply inum_everywhere.
    - apply bit_array_everywhere.
    - apply blob_everywhere.
    - apply string_everywhere.
    - apply ascii_everywhere.
    - intros j dyn b t P B _ E. apply array_everywhere; assumption.
    - apply bool_everywhere.
    - apply fourcc_everywhere.
    - apply null_everywhere.
    - intros j t P _ E. apply option_everywhere; assumption.
    - intros j name d t Ht Hf Hp I Hd _ F. apply (name_everywhere j name t Ht Hf Hp).
      specialize (F I). unfold jg_name in F. rewrite Hd in F. exact F.
    - intros j l vs P Hl _ [Len L]. apply (choice_everywhere j l vs P Hl Len L).
    - intros j l fs P Hl _ L. apply (struct_everywhere j l fs P Hl L).
    - split; [reflexivity|]. apply leads_unit.
    - intros v l z name t vs Hn I _ E _ [Len L]. split; [cbn [length]; f_equal; exact Len|].
      apply variants_cons; [assumption..| |exact L]. apply E.
    - apply leads_unit.
    - intros f l fs Hc Hs _ L. apply fields_const; assumption.
    - intros f l name t fs Ht Hn Hb He _ E _ L. apply fields_cons; assumption.
    - intros d t Hn _ E I. apply (named_decl d t I). apply E. reflexivity.
    - intros d l vs P Hl _ L H I. apply (named_decl d _ I). apply (enum_decl d l vs _ P Hl L). apply gen_enum. exact H.
    - intros d l vs P Hl _ L H I. apply (named_decl d _ I). apply (enum_decl d l vs _ P Hl L). apply gen_events. exact H.
    - intros enum. apply leads_unit.
    - intros enum v l z name vs Hn I S _ L. apply ids_bare; assumption.
    - intros enum v l z name s d t vs Hn I S Id J _ F _ L. apply (ids_struct enum v l z name s t vs); try assumption. rewrite <- J. exact (F Id).
  Qed.
End Module.

(** ** Whether the generator stops does not depend on the names *)
Definition ending {A} (o : outcome A) : nat := match o with Ok _ => 0 | Err _ => 1 | Panic => 2 end.
Lemma ending_bind {A B} (a : outcome A) (f g : A -> outcome B) : (forall x, ending (f x) = ending (g x)) -> ending (do x <- a; f x) = ending (do x <- a; g x).
Proof. intro H. destruct a; cbn [obind]; auto. Qed.
Lemma ending_bind2 {A B} (a b : outcome A) (f g : A -> outcome B) : ending a = ending b -> (forall x y, ending (f x) = ending (g y)) ->
  ending (do x <- a; f x) = ending (do x <- b; g x).
Proof. intros E H. destruct a, b; try discriminate E; cbn [obind]; auto. Qed.
Section Stops.
  Variables (su : surroundings) (r r' : string -> option code) (tags tags' : string -> option string).
  Ltac alike := repeat first [reflexivity | apply ending_bind; intro | match goal with |- ending (match ?c with _ => _ end) = _ => destruct c end].
  Lemma element_stops ti : ending (jg_element su r ti) = ending (jg_element su r' ti).
  Proof. unfold jg_element. alike. Qed.
  Lemma optional_stops ti : ending (jg_optional su r ti) = ending (jg_optional su r' ti).
  Proof.
    unfold jg_optional. apply ending_bind. intro s. cbv zeta. destruct (String.eqb s "ArrayType"); [|alike].
    apply ending_bind2; [apply element_stops|]. intros. alike.
  Qed.
  Lemma field_stops f s : ending (jg_field su r f s) = ending (jg_field su r' f s).
  Proof.
    unfold jg_field. cbv zeta. destruct (is_text "m_eventData" (at_key "name" f) && String.eqb s "ChoiceType"); [reflexivity|].
    apply ending_bind. intros [ | | | | | | | ]; try reflexivity.
    - apply optional_stops.
    - apply ending_bind2; [apply element_stops|]. intros. alike.
  Qed.
  Lemma fields_stops fs : ending (jg_fields su r fs) = ending (jg_fields su r' fs).
  Proof.
    induction fs as [|f fs IH]; [reflexivity|]. cbn [jg_fields]. apply ending_bind. intro m. apply ending_bind. intro s.
    destruct (String.eqb m "ConstDecl"); [exact IH|]. destruct (negb (String.eqb m "MemberStructField")); [reflexivity|].
    apply ending_bind. intro name. apply ending_bind2; [apply field_stops|]. intros. apply ending_bind2; [exact IH|]. reflexivity.
  Qed.
  Lemma variants_stops vs : ending (jg_variants su r vs) = ending (jg_variants su r' vs).
  Proof.
    induction vs as [|v vs IH]; [reflexivity|]. cbn [jg_variants]. apply ending_bind. intro m. apply ending_bind2; [unfold jg_variant; alike|]. intros x y.
    apply ending_bind. intro t. destruct (negb (is_text "IntLiteral" (at_key "type" (at_key "tag" v)))); [reflexivity|].
    apply ending_bind2; [exact IH|]. reflexivity.
  Qed.
  Lemma enum_stops e vs : ending (jg_enum su r tags e vs) = ending (jg_enum su r' tags' e vs).
  Proof.
    induction vs as [|v vs IH]; [reflexivity|]. cbn [jg_enum]. apply ending_bind. intro m. apply ending_bind. intro t.
    destruct (negb (is_text "IntLiteral" (at_key "type" (at_key "value" v)))); [reflexivity|]. apply ending_bind2; [exact IH|]. reflexivity.
  Qed.
  Lemma decl_stops d : ending (jg_decl su r tags d) = ending (jg_decl su r' tags' d).
  Proof.
    unfold jg_decl. cbv zeta. apply ending_bind. intro u.
    repeat match goal with |- ending (if ?c then _ else _) = _ => destruct c end; try reflexivity.
    - apply ending_bind. intro fs. apply ending_bind2; [apply fields_stops|]. reflexivity.
    - apply ending_bind. intro fs. apply ending_bind2; [apply variants_stops|]. reflexivity.
    - apply ending_bind. intro fs. apply ending_bind2; [apply enum_stops|]. reflexivity.
    - alike.
    - alike.
  Qed.
End Stops.
Lemma enum_reads {A} su (r : string -> option A) tags tags' e vs ts : Forall2 (one_variant su tags e) vs ts -> jg_enum su r tags' e vs <> Panic.
Proof.
  induction 1 as [|v x vs ts (name & value & Hn & Hv & Ht & _) _ IH]; [discriminate|]. cbn [jg_enum]. rewrite Hn, Hv, Ht. cbn [as_text or_panic obind is_text].
  rewrite String.eqb_refl. cbn [negb]. destruct (jg_enum su r tags' e vs); [discriminate..|contradiction].
Qed.

(** ** After a run *)
Lemma Forall2_left {A B} (P : A -> B -> Prop) l l' x : Forall2 P l l' -> In x l -> exists y, P x y.
Proof. induction 1 as [|a b l l' H _ IH]; intros []; subst; eauto. Qed.
Lemma declared_texts su num mods source texts : stops_as_read su ->
  Forall2 (piece_text su num (struct_for su mods)) (module_pieces source mods) texts ->
  forall d, In d (declared mods) -> forall refs, jg_decl su refs (struct_for su mods) d <> Panic.
Proof.
  intros S F d I refs. unfold declared in I. apply filter_In in I. destruct I as [I C].
  assert (In (CodeOf BitPacked d) (module_pieces source mods)) as J.
  { unfold module_pieces. apply in_or_app. right. apply in_or_app. right. apply in_or_app. right. apply in_or_app. left. apply in_map. exact I. }
  destruct (Forall2_left _ _ _ _ F J) as (s & H). inversion H as [|dec d' s' T]; subst.
  inversion T as [E|t unit name kw inner impl Et Nt Eu _ _ In_]; subst.
  - unfold is_const in C. rewrite E in C. discriminate C.
  - destruct In_ as [[-> (vs & ts & Hf & Hv & _)]|[N B]].
    + unfold jg_decl. rewrite Eu, Hf. cbn [as_text or_panic obind as_list].
      change (String.eqb "EnumType" "StructType") with false. change (String.eqb "EnumType" "ChoiceType") with false. change (String.eqb "EnumType" "EnumType") with true. cbv iota.
      pose proof (enum_reads su refs _ (struct_for su mods) _ _ _ Hv) as P. destruct (jg_enum su refs (struct_for su mods) _ vs); [discriminate..|contradiction].
    + assert (P : jg_decl su (fun _ => None) (fun _ => None) d <> Panic). { apply (S num d unit name Eu N). rewrite B. discriminate. }
      intro X. apply P. pose proof (decl_stops su refs (fun _ => None) (struct_for su mods) (fun _ => None) d) as Y. rewrite X in Y.
      destruct (jg_decl su (fun _ => None) (fun _ => None) d); [discriminate Y..|reflexivity].
Qed.

Theorem generated_module su source output fs fs' : json_parser su -> stops_as_read su -> rust_name su "m_eventData" = "MEventData" ->
  generate su source output fs = (Ok tt, fs') ->
  exists text doc mods, fs (su_place su source) = Some text /\ su_parse su text = Some doc /\ modules_of doc = Ok mods /\
    (NoDup (map (jg_name su) (declared mods)) -> forall d t, In d (declared mods) -> described_decl su mods d t ->
     match gen Decl t with
     | Ok k => exists N, forall n, (N <= n)%nat -> module_code su (struct_for su mods) (declared mods) n (jg_name su d) = Some k
     | Err _ => forall n, module_code su (struct_for su mods) (declared mods) n (jg_name su d) = None
     | Panic => False
     end).
Proof.
  intros J S M G. destruct (generate_contents su source output fs fs' J G) as (num & text & doc & mods & texts & _ & H1 & H2 & H3 & H4 & _).
  exists text, doc, mods. refine (conj H1 (conj H2 (conj H3 _))). intros N d t I D.
  pose proof (declared_texts su num mods source texts S H4) as P.
  exact (proj1 (proj2 (proj2 (proj2 (described_leads su mods M N P)))) d t D I).
Qed.

(** The only error is that of a text that is no Rust. *)
Lemma bind_err {A B} (o : outcome A) (f : A -> outcome B) e : (forall e', o = Err e' -> e' = no_compile) -> (forall a e', f a = Err e' -> e' = no_compile) ->
  (do a <- o; f a) = Err e -> e = no_compile.
Proof. intros H1 H2 E. destruct o as [a|e'|]; cbn [obind] in E; [exact (H2 _ _ E)| |discriminate E]. injection E as <-. exact (H1 _ eq_refl). Qed.
Lemma gen_err : forall t p e, gen p t = Err e -> e = no_compile.
Proof.
  assert (OK : forall {A} (a : A) e, Ok a = Err e -> e = no_compile) by discriminate.
  assert (IB : forall b e, gen_int b = Err e -> e = no_compile).
  { intros b e. unfold gen_int. destruct (b_exact b); [discriminate|]. destruct (b_expr b); discriminate. }
  induction t as [b|b|b|b|b|b|dy b t IH| | | |t IH|t IH|l|l IH|l IH|l IH] using ntype_ind'; intros p e H.
  1-6: destruct p; cbn [gen] in H; try discriminate H; try (injection H as <-; reflexivity); try exact (IB _ _ H).
  - unfold gen_bit_array in H. destruct (b_exact b); [discriminate|]. destruct (negb (b_min b =? 0)); discriminate.
  - unfold gen_blob in H. destruct (negb (b_exact b)); [discriminate|]. destruct (negb (b_min b =? b_max b)); discriminate.
  - unfold gen_string in H. destruct (b_exact b); [discriminate|]. destruct (negb (b_min b =? 0)); discriminate.
  - destruct p; [rewrite gen_array_decl in H|rewrite gen_array_field in H|cbn [gen] in H; injection H as <-; reflexivity].
    all: revert H; apply bind_err; [|intros k; apply OK]; intros e' H; destruct t; try discriminate H; exact (IH Decl e' H).
  - destruct p; discriminate H.
  - destruct p; discriminate H.
  - destruct p; discriminate H.
  - destruct p; [discriminate H| |].
    + destruct t as [b|b|b|b|b|b|dy b t| | | |t|t|l|l|l|l]; cbn [gen] in H; try discriminate H; try (injection H as <-; reflexivity).
      * destruct dy; [injection H as <-; reflexivity|]. destruct t; try discriminate H. revert H. apply bind_err; [|intros k; apply OK].
        intros e' H. apply (IH Field e'). cbn [gen]. rewrite H. reflexivity.
      * revert H. apply bind_err; [|intros k; apply OK]. intros e' H. exact (IH Decl e' H).
    + destruct t; cbn [gen] in H; try (injection H as <-; reflexivity). revert H. apply bind_err; [|intros k; apply OK]. intros e' H. exact (IH Decl e' H).
  - destruct p; exact (IH Decl e H).
  - destruct p; discriminate H.
  - destruct p; try discriminate H. change (gen Decl (NEvents l)) with (do ks <- gen_event_list l; Ok (KChoice (ceil_log2 (length l)) ks)) in H.
    revert H. apply bind_err; [|intros k; apply OK]. induction IH as [|[n o] l Ho _ IHl]; intros e' H; cbn [gen_event_list] in H; [discriminate H|].
    revert H. apply bind_err; [destruct o as [t|]; [exact (Ho Decl)|apply OK]|]. intros k e''. apply bind_err; [exact IHl|intros ks; apply OK].
  - destruct p; try discriminate H. rewrite gen_choice in H. revert H. apply bind_err; [|intros k; apply OK].
    induction IH as [|[n t] l Ho _ IHl]; intros e' H; cbn [gen_variants] in H; [discriminate H|].
    revert H. apply bind_err; [exact (Ho Variant)|]. intros k e''. apply bind_err; [exact IHl|intros ks; apply OK].
  - destruct p; try discriminate H. rewrite gen_struct in H. revert H. apply bind_err; [|intros k; apply OK].
    induction IH as [|[n t] l Ho _ IHl]; intros e' H; cbn [gen_fields] in H; [discriminate H|].
    revert H. apply bind_err.
    + intros e'' H. unfold gen_field in H. destruct t; try exact (Ho Field e'' H). destruct (String.eqb n "m_eventData"); [exact (Ho Decl e'' H)|exact (Ho Field e'' H)].
    + intros k e''. apply bind_err; [exact IHl|intros ks; apply OK].
Qed.
