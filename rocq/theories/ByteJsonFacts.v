(** * The byte-aligned decoder written is that of the type described *)
From Coq Require Import Ascii DecimalString DecimalZ Lia.
From Verif Require Import Base BalanceJson Types Versioned Generator ByteGen ByteGenSpec ByteGenFacts GenerateRun GenerateSpec GenerateFacts GenerateTags GenerateEnds GenJson GenJsonSpec GenJsonFacts ByteJson ByteJsonSpec.
#[local] Open Scope string_scope.
#[local] Open Scope Z_scope.
#[local] Open Scope list_scope.

(** ** The fixpoints inside [ygen] *)
Fixpoint ygen_events (l : list (Z * string * option ytype)) : outcome (list (Z * string * ycode)) :=
  match l with
  | [] => Ok []
  | (n, o) :: l' => do k <- match o with Some t' => ygen t' | None => Ok CUnit end; do ks <- ygen_events l'; Ok ((n, k) :: ks)
  end.
Fixpoint ygen_variants (l : list (Z * string * ytype)) : outcome (list (Z * string * ycode)) :=
  match l with
  | [] => Ok []
  | (n, t') :: l' => match t' with YNull => ygen_variants l' | _ => do k <- variant_code ygen t'; do ks <- ygen_variants l'; Ok ((n, k) :: ks) end
  end.
Fixpoint ygen_fields (l : list (string * option Z * ytype)) : outcome (list (fld ycode)) :=
  match l with
  | [] => Ok []
  | (n, tag, t') :: l' => do f <- tagged_field n tag (ByteGen.field_code ygen t'); do ks <- ygen_fields l'; Ok (f :: ks)
  end.
Lemma ygen_choice vs : ygen (YChoice vs) = do ks <- ygen_variants vs; Ok (CChoice CHOICE_TAG ks).
Proof. reflexivity. Qed.
Lemma ygen_event_list vs : ygen (YEvents vs) = do ks <- ygen_events vs; Ok (CChoice INT_TAG ks).
Proof. reflexivity. Qed.
Lemma ygen_struct consts fs : ygen (YStruct consts fs) =
  match consts, fs with
  | 1%nat, [] => Ok (CBare None)
  | 0%nat, [(n, None, t')] => do (_, k) <- ByteGen.field_code ygen t'; Ok (CBare (Some (n, k)))
  | _, _ => do ks <- ygen_fields fs; Ok (CStruct ks)
  end.
Proof. reflexivity. Qed.


(** ** The table of conversions *)
Definition morph_names : list string := flat_map fst morph_table.
Lemma found_named l n m : find_morph l n = Some m -> In n (flat_map fst l).
Proof.
  induction l as [|[ns m'] l IH]; cbn [find_morph flat_map fst]; [discriminate|]. destruct (existsb (String.eqb n) ns) eqn:E; intro H.
  - apply in_or_app. left. apply existsb_exists in E. destruct E as (x & I & Ex). apply String.eqb_eq in Ex. subst. exact I.
  - apply in_or_app. right. exact (IH H).
Qed.
Lemma table_no_err n e : from_nnet_name n <> Err e.
Proof. unfold from_nnet_name. destruct (find_morph morph_table n); discriminate. Qed.
Definition morph_fine (n : string) (mo : ymorph) : Prop :=
  mo_opt mo = false /\
  match mo_parser mo with
  | PNamed n' => (mo_vec mo = false /\ n' = n /\ In n own_names /\ exists r, table_name_of n = Some r /\ In (n, r) table_names) \/
                 (mo_vec mo = true /\ n = "NNet.Game.CPlayerDetailsArray" /\ n' = "NNet.Game.SPlayerDetails")
  | _ => True
  end.
Lemma own_fine n : In n own_names -> exists r, table_name_of n = Some r /\ In (n, r) table_names.
Proof.
  intro H. cbn [own_names In] in H. repeat (destruct H as [<-|H]; [eexists; split; [vm_compute; reflexivity|cbn [table_names In]; repeat (first [left; reflexivity|right])]|]).
  contradiction.
Qed.
Definition morph_checked (n : string) (o : outcome ymorph) : bool :=
  match o with
  | Ok mo =>
      negb (mo_opt mo) &&
      match mo_parser mo with
      | PNamed n' => if mo_vec mo then String.eqb n "NNet.Game.CPlayerDetailsArray" && String.eqb n' "NNet.Game.SPlayerDetails"
                     else String.eqb n' n && existsb (String.eqb n) own_names
      | _ => true
      end
  | _ => true
  end.
Lemma table_checked : forallb (fun n => String.eqb n "OptionalType" || morph_checked n (from_nnet_name n)) morph_names = true.
Proof. vm_compute. reflexivity. Qed.
Lemma morph_of_name n mo : String.prefix "NNet" n = true -> from_nnet_name n = Ok mo -> morph_fine n mo.
Proof.
  intros P E. assert (I : In n morph_names).
  { unfold from_nnet_name in E. destruct (find_morph morph_table n) as [m|] eqn:F; [|discriminate E]. exact (found_named _ _ _ F). }
  pose proof (proj1 (forallb_forall _ _) table_checked n I) as C. cbv beta in C. apply Bool.orb_true_iff in C. destruct C as [C|C].
  - apply String.eqb_eq in C. subst. discriminate P.
  - rewrite E in C. unfold morph_checked in C. apply andb_prop in C. destruct C as [C1 C2]. split; [destruct (mo_opt mo); [discriminate C1|reflexivity]|].
    destruct (mo_parser mo) as [| | | |n'|]; try exact Logic.I. destruct (mo_vec mo); apply andb_prop in C2; destruct C2 as [A B].
    + right. apply String.eqb_eq in A, B. auto.
    + left. apply String.eqb_eq in A. subst. apply existsb_exists in B. destruct B as (x & Ix & Ex). apply String.eqb_eq in Ex. subst x.
      refine (conj eq_refl (conj eq_refl (conj Ix _))). exact (own_fine n Ix).
Qed.

(** ** The whole module *)
Section ByteModule.
  Variables (su : surroundings) (mods : list json).
  Hypothesis spelled : names_as_in_table su.
  Hypothesis distinct : NoDup (map (jg_name su) (declared_bytes mods)).
  Definition brefs (n : nat) : string -> option ycode := byte_module_code su (struct_for su mods) (declared_bytes mods) n.
  Hypothesis no_panic : forall d, In d (declared_bytes mods) -> forall refs, yj_decl su refs (struct_for su mods) d <> Panic.

  Lemma names : forall n r, In (n, r) table_names -> rust_name su n = r.
  Proof. exact spelled. Qed.
  Lemma one_byte_name d : In d (declared_bytes mods) -> filter (fun d' => String.eqb (jg_name su d') (jg_name su d)) (declared_bytes mods) = [d].
  Proof.
    revert distinct. generalize (declared_bytes mods) as l. induction l as [|a l IH]; intros N I; [destruct I|].
    cbn [map] in N. inversion N as [|x l' Hx Hl]; subst. cbn [filter]. destruct I as [->|I].
    - rewrite String.eqb_refl. f_equal.
      assert (Hx' : forall y, In y l -> jg_name su y <> jg_name su d). { intros y Hy E. apply Hx. rewrite <- E. apply in_map. exact Hy. }
      clear - Hx'. induction l as [|y l IH]; [reflexivity|]. cbn [filter].
      rewrite (proj2 (String.eqb_neq _ _) (Hx' y (or_introl eq_refl))). apply IH. intros z Hz. apply Hx'. right. exact Hz.
    - assert (E : String.eqb (jg_name su a) (jg_name su d) = false).
      { apply String.eqb_neq. intro E. apply Hx. rewrite E. apply in_map. exact I. }
      rewrite E. apply IH; assumption.
  Qed.
  Lemma byte_named_decl d t : In d (declared_bytes mods) ->
    leads (fun n => yj_decl su (brefs n) (struct_for su mods) d) (ygen t) -> follows (fun n => brefs n (jg_name su d)) (ygen t).
  Proof.
    intros I L. destruct (L (fun n => no_panic d I (brefs n))) as [_ R]. unfold follows. destruct (ygen t) as [k|e|]; [| |exact R].
    - destruct R as (N & R). exists (Datatypes.S N). intros n Hn. destruct n as [|n]; [lia|]. unfold brefs. cbn [byte_module_code].
      rewrite (one_byte_name d I). fold (brefs n). rewrite R by lia. reflexivity.
    - intros [|n]; [reflexivity|]. unfold brefs. cbn [byte_module_code]. rewrite (one_byte_name d I). fold (brefs n). rewrite R. reflexivity.
  Qed.

  (** What is known of a name. *)
  Definition known (name : string) (t : ytype) : Prop :=
    String.prefix "NNet" name = true /\
    (In name own_names -> follows (fun n => brefs n (rust_name su name)) (ygen t)) /\
    (name = "NNet.Game.CPlayerDetailsArray" -> exists dyn t', t = YArray dyn (YUser "NNet.Game.SPlayerDetails" t') /\
       follows (fun n => brefs n "GameSPlayerDetails") (ygen t')).
  Definition converted (mo : ymorph) (name : string) (t : ytype) : outcome ycode :=
    parser_code (mo_parser mo) (fst (named_in ygen (mo_vec mo) name t)) (snd (named_in ygen (mo_vec mo) name t)).
  Lemma follows_const {A} (o : option A) g : match g with Ok k => o = Some k | Err _ => o = None | Panic => False end -> follows (fun _ => o) g.
  Proof. destruct g; intros H; [exists 0%nat; auto|intro; exact H|exact H]. Qed.
  Lemma known_parser mo name t : from_nnet_name name = Ok mo -> known name t -> follows (fun n => yj_parser (brefs n) (mo_parser mo)) (converted mo name t).
  Proof.
    intros E (P & K1 & K2). destruct (morph_of_name name mo P E) as [_ M]. unfold converted. destruct (mo_parser mo) as [it| | | |n'|];
      cbn [yj_parser parser_code]; try (apply (follows_const _ _); reflexivity).
    destruct M as [(V & -> & I & r & T & Ir)|(V & -> & ->)]; rewrite V; cbn [named_in fst snd parser_code yj_parser].
    - rewrite String.eqb_refl, T. specialize (K1 I). rewrite (names _ _ Ir) in K1. exact K1.
    - destruct (K2 eq_refl) as (dyn & t' & -> & F). cbn [fst snd]. rewrite String.eqb_refl. exact F.
  Qed.
  Lemma convert_name name t : convert ygen (YUser name t) = do mo <- from_nnet_name name; do k <- converted mo name t; Ok (k, mo_vec mo, mo_opt mo).
  Proof. reflexivity. Qed.
  Lemma leads_no_rust {A} (r : nat -> option ycode) g : follows r g -> leads (fun _ => Ok (@None A)) (do k <- g; Err no_compile).
  Proof. intro F. apply leads_const. destruct g as [k|e|]; [reflexivity|reflexivity|destruct F]. Qed.

  (** What holds of the type in every place it can stand in. *)
  Definition y_as_a_field (j : json) (t : ytype) : Prop := leads (fun n => yj_field (brefs n) j) (ByteGen.field_code ygen t).
  Definition y_as_an_option (j : json) (t : ytype) : Prop := leads (fun n => yj_optional (brefs n) j) (ByteGen.field_code ygen (YOpt t)).
  Definition y_as_a_variant (j : json) (t : ytype) : Prop := leads (fun n => yj_variant (brefs n) j) (variant_code ygen t).
  Definition y_as_an_element (j : json) (t : ytype) : Prop := forall p, at_key "element_type" p = j -> leads (fun n => yj_element (brefs n) p) (element_code ygen t).
  Definition y_as_a_decl (j : json) (t : ytype) : Prop := forall d, at_key "type_info" d = j -> ~ a_list j -> at_key "type" j <> JStr "EnumType" ->
    leads (fun n => yj_decl su (brefs n) (struct_for su mods) d) (ygen t).
  Definition y_sorted (j : json) (t : ytype) : Prop :=
    match t with YNull => in_place j "NullType" | _ => at_key "type" j <> JStr "NullType" end /\
    match t with YArray _ _ => a_list j | _ => True end.
  Definition y_everywhere (j : json) (t : ytype) : Prop :=
    y_sorted j t /\ y_as_a_field j t /\ y_as_an_option j t /\ y_as_a_variant j t /\ y_as_an_element j t /\ y_as_a_decl j t.

  Ltac eqbs := repeat match goal with
    | |- context [String.eqb ?a ?b] => let v := eval compute in (String.eqb a b) in
        match v with true => change (String.eqb a b) with true | false => change (String.eqb a b) with false end
    end.
  Ltac table := match goal with |- context [from_nnet_name ?s] => let v := eval compute in (from_nnet_name s) in change (from_nnet_name s) with v end.
  Ltac open_sort Ht Hf := unfold jg_sort; rewrite ?Hf; cbn [as_text]; rewrite ?Ht; cbn [as_text or_panic obind].
  Ltac settled := eapply leads_ext; [intro; symmetry; cbv beta|].
  Ltac const := apply leads_const; reflexivity.
  Ltac field_open Ht Hf := unfold y_as_a_field; settled; [unfold yj_field; open_sort Ht Hf; table; cbn [obind]; eqbs; cbn [mo_parser mo_vec mo_opt yj_parser]|].
  Ltac option_open Ht Hf := unfold y_as_an_option; settled; [unfold yj_optional; rewrite Ht; cbn [GenerateRun.is_text]; eqbs; open_sort Ht Hf; try table; cbn [obind mo_parser mo_vec mo_opt yj_parser]|].
  Ltac variant_open Ht Hf := unfold y_as_a_variant; settled; [unfold yj_variant; open_sort Ht Hf; table; cbn [obind]; eqbs; cbn [mo_parser mo_vec mo_opt yj_parser]|].
  Ltac decl_open Ht Hf := intros d <- Na Ne; settled; [unfold yj_decl; rewrite Ht; cbn [as_text or_panic obind existsb]; eqbs; cbn [orb]|].

  Lemma y_no_element j s t : in_place j s -> y_as_an_element j t.
  Proof.
    intros [Ht Hf] p <-. apply leads_panic. intro n. unfold yj_element. rewrite Hf. reflexivity.
  Qed.
  Ltac each P Ht Hf := pose proof P as [Ht Hf]; refine (conj _ (conj _ (conj _ (conj _ (conj _ _)))));
    [unfold y_sorted; first [split; [exact P|exact Logic.I] | rewrite Ht; split; [discriminate|exact Logic.I]]| | | |apply (y_no_element _ _ _ P)|].
  Ltac simple P := let Ht := fresh "Ht" in let Hf := fresh "Hf" in
    each P Ht Hf; [field_open Ht Hf; [reflexivity|const]|option_open Ht Hf; [reflexivity|const]|variant_open Ht Hf; [reflexivity|const]|decl_open Ht Hf; [reflexivity|const]].

  Lemma y_int_everywhere j sort lo hi : In sort ["IntType"; "InumType"] -> in_place j sort -> y_everywhere j (YInt lo hi).
  Proof. intros [<-|[<-|[]]] P; simple P. Qed.
  Lemma y_blob_everywhere j : in_place j "BlobType" -> y_everywhere j YBlob.
  Proof. intro P; simple P. Qed.
  Lemma y_string_everywhere j : in_place j "StringType" -> y_everywhere j YString.
  Proof. intro P; simple P. Qed.
  Lemma y_ascii_everywhere j : in_place j "AsciiStringType" -> y_everywhere j YAscii.
  Proof. intro P; simple P. Qed.
  Lemma y_bit_array_everywhere j : in_place j "BitArrayType" -> y_everywhere j YBitArray.
  Proof. intro P; simple P. Qed.
  Lemma y_bool_everywhere j : in_place j "BoolType" -> y_everywhere j YBool.
  Proof. intro P; simple P. Qed.
  Lemma y_fourcc_everywhere j : in_place j "FourCCType" -> y_everywhere j YFourcc.
  Proof. intro P; simple P. Qed.
  Lemma y_null_everywhere j : in_place j "NullType" -> y_everywhere j YNull.
  Proof. intro P; simple P. Qed.

  Lemma y_option_everywhere j t : in_place j "OptionalType" -> y_everywhere (at_key "type_info" j) t -> y_everywhere j (YOpt t).
  Proof.
    intros P (_ & _ & O & _). each P Ht Hf.
    - field_open Ht Hf; [reflexivity|]. exact O.
    - option_open Ht Hf; [reflexivity|const].
    - variant_open Ht Hf; [reflexivity|const].
    - decl_open Ht Hf; [reflexivity|const].
  Qed.
  Lemma y_array_everywhere j (dyn : bool) t : in_place j (if dyn then "DynArrayType" else "ArrayType") ->
    y_everywhere (at_key "element_type" j) t -> y_everywhere j (YArray dyn t).
  Proof.
    intros P (_ & _ & _ & _ & E & _). specialize (E j eq_refl).
    assert (L : a_list j) by (unfold a_list; destruct dyn; destruct P as [-> _]; [right|left]; reflexivity).
    refine (conj _ (conj _ (conj _ (conj _ (conj _ _))))).
    - split; [|exact L]. destruct L as [-> | ->]; discriminate.
    - destruct dyn; destruct P as [Ht Hf].
      + field_open Ht Hf; [reflexivity|const].
      + field_open Ht Hf; [reflexivity|]. cbn [ByteGen.field_code]. exact (leads_map (fun k => (InitNone, CArray k)) _ _ E).
    - destruct dyn; destruct P as [Ht Hf].
      + option_open Ht Hf; [reflexivity|const].
      + unfold y_as_an_option. settled; [unfold yj_optional; rewrite Ht; cbn [GenerateRun.is_text]; eqbs; reflexivity|].
        cbn [ByteGen.field_code]. exact (leads_map (fun k => (InitSomeNone, COpt (CArray k))) _ _ E).
    - destruct dyn; destruct P as [Ht Hf]; (variant_open Ht Hf; [reflexivity|const]).
    - destruct dyn; apply (y_no_element _ _ _ P).
    - intros d _ N. destruct (N L).
  Qed.

  Lemma morph_opt name mo : String.prefix "NNet" name = true -> from_nnet_name name = Ok mo -> mo_opt mo = false.
  Proof. intros P E. exact (proj1 (morph_of_name name mo P E)). Qed.
  Lemma no_such_sort name s : String.prefix "NNet" name = true -> String.prefix "NNet" s = false -> String.eqb name s = false.
  Proof. intros H1 H2. apply String.eqb_neq. intros ->. rewrite H1 in H2. discriminate H2. Qed.
  Lemma y_name_everywhere j name t : at_key "type" j = JStr "UserType" -> at_key "fullname" j = JStr name -> known name t -> y_everywhere j (YUser name t).
  Proof.
    intros Ht Hf K. pose proof (proj1 K) as P. pose proof (known_parser) as KP. specialize (fun mo => KP mo name t).
    assert (Sort : jg_sort j = Ok name) by (unfold jg_sort; rewrite Hf; reflexivity).
    refine (conj _ (conj _ (conj _ (conj _ (conj _ _))))).
    - split; [rewrite Ht; discriminate|exact Logic.I].
    - unfold y_as_a_field. cbn [ByteGen.field_code]. rewrite convert_name. settled.
      + unfold yj_field. rewrite Sort. cbn [obind]. rewrite !(no_such_sort _ _ P) by reflexivity. reflexivity.
      + destruct (from_nnet_name name) as [mo|e|] eqn:E; cbn [obind]; [|destruct (table_no_err _ _ E)|intros X; destruct (X 0%nat); reflexivity].
        rewrite (morph_opt _ _ P E). specialize (KP mo eq_refl K). apply leads_follows in KP.
        pose proof (leads_map (fun k => (InitNone, vec_code (mo_vec mo) k)) _ _ KP) as L. cbn [obind] in L.
        destruct (converted mo name t); exact L.
    - unfold y_as_an_option. cbn [ByteGen.field_code]. rewrite convert_name. settled.
      + unfold yj_optional. rewrite Ht, Sort. cbn [GenerateRun.is_text obind]. eqbs. reflexivity.
      + destruct (from_nnet_name name) as [mo|e|] eqn:E; cbn [obind]; [|destruct (table_no_err _ _ E)|intros X; destruct (X 0%nat); reflexivity].
        specialize (KP mo eq_refl K). apply leads_follows in KP.
        pose proof (leads_map (fun k => (InitSomeNone, COpt (vec_code (mo_vec mo) k))) _ _ KP) as L. cbn [obind] in L.
        destruct (converted mo name t); exact L.
    - unfold y_as_a_variant, variant_code. rewrite convert_name. settled.
      + unfold yj_variant. rewrite Sort. cbn [obind]. rewrite (no_such_sort _ _ P) by reflexivity. reflexivity.
      + destruct (from_nnet_name name) as [mo|e|] eqn:E; cbn [obind]; [|destruct (table_no_err _ _ E)|intros X; destruct (X 0%nat); reflexivity].
        specialize (KP mo eq_refl K). destruct (mo_vec mo) eqn:V.
        * pose proof (leads_no_rust (A := ycode) _ _ KP) as L. destruct (converted mo name t); exact L.
        * apply leads_follows in KP. destruct (converted mo name t); exact KP.
    - intros p <-. unfold element_code. rewrite convert_name. settled.
      + unfold yj_element. rewrite Hf. cbn [as_text or_panic obind]. reflexivity.
      + destruct (from_nnet_name name) as [mo|e|] eqn:E; cbn [obind]; [|destruct (table_no_err _ _ E)|intros X; destruct (X 0%nat); reflexivity].
        specialize (KP mo eq_refl K). destruct (mo_vec mo) eqn:V.
        * pose proof (leads_no_rust (A := ycode) _ _ KP) as L. destruct (converted mo name t); exact L.
        * apply leads_follows in KP. destruct (converted mo name t); exact KP.
    - decl_open Ht Hf; [reflexivity|const].
  Qed.

  (** Choices *)
  Lemma y_choice_everywhere j l vs : in_place j "ChoiceType" -> at_key "fields" j = JArr l ->
    leads (fun n => yj_variants (brefs n) l) (ygen_variants vs) -> y_everywhere j (YChoice vs).
  Proof.
    intros P Hl L. each P Ht Hf.
    - field_open Ht Hf; [reflexivity|const].
    - option_open Ht Hf; [reflexivity|const].
    - variant_open Ht Hf; [reflexivity|const].
    - decl_open Ht Hf; [rewrite Hl; cbn [as_list or_panic obind]; reflexivity|]. rewrite ygen_choice. apply leads_map. exact L.
  Qed.
  Lemma y_variants_cons v l z name t vs : at_key "name" v = JStr name -> int_literal (at_key "tag" v) z ->
    y_everywhere (at_key "type_info" v) t -> leads (fun n => yj_variants (brefs n) l) (ygen_variants vs) ->
    leads (fun n => yj_variants (brefs n) (v :: l)) (ygen_variants ((z, name, t) :: vs)).
  Proof.
    intros Hn [I1 I2] ((S1 & _) & _ & _ & V & _) L.
    assert (C : t = YNull \/ (GenerateRun.is_text "NullType" (at_key "type" (at_key "type_info" v)) = false /\
                              ygen_variants ((z, name, t) :: vs) = do k <- variant_code ygen t; do ks <- ygen_variants vs; Ok ((z, name, k) :: ks))).
    { assert (Q : at_key "type" (at_key "type_info" v) <> JStr "NullType" -> GenerateRun.is_text "NullType" (at_key "type" (at_key "type_info" v)) = false).
      { intro N. destruct (at_key "type" (at_key "type_info" v)) eqn:E; try reflexivity. cbn [GenerateRun.is_text]. apply String.eqb_neq. congruence. }
      destruct t; try (left; reflexivity); right; (split; [apply Q; exact S1|reflexivity]). }
    destruct C as [->|[C ->]].
    - destruct S1 as [S1 _]. cbn [ygen_variants]. eapply leads_ext; [|exact L]. intro n. cbn [yj_variants]. rewrite S1. reflexivity.
    - eapply leads_ext; [|exact (leads_pair (fun k ks => (z, name, k) :: ks) _ _ _ _ V L)].
      intro n. cbn [yj_variants]. rewrite C, Hn, I1, I2. cbn [as_text or_panic obind GenerateRun.is_text]. rewrite String.eqb_refl, whole_in_whole. reflexivity.
  Qed.

  (** Structs *)
  Lemma y_fields_const f l fs : at_key "type" f = JStr "ConstDecl" ->
    as_text (at_key "fullname" (at_key "type_info" f)) <> None \/ as_text (at_key "type" (at_key "type_info" f)) <> None ->
    (exists s, jg_sort (at_key "type_info" f) = Ok s) /\
    (leads (fun n => yj_fields (brefs n) l) (ygen_fields fs) -> leads (fun n => yj_fields (brefs n) (f :: l)) (ygen_fields fs)).
  Proof.
    intros Hc Hs. assert (J : exists s, jg_sort (at_key "type_info" f) = Ok s).
    { unfold jg_sort. destruct (as_text (at_key "fullname" (at_key "type_info" f))) as [s|]; [eexists; reflexivity|]. destruct Hs as [Hs|Hs]; [contradiction|].
      destruct (as_text (at_key "type" (at_key "type_info" f))); [|contradiction]. eexists; reflexivity. }
    split; [exact J|]. destruct J as (s & J). intro L. eapply leads_ext; [|exact L]. intro n. cbn [yj_fields]. rewrite Hc, J. cbn [as_text or_panic obind].
    rewrite String.eqb_refl. reflexivity.
  Qed.
  Lemma y_fields_cons f l name tag t fs : at_key "type" f = JStr "MemberStructField" -> at_key "name" f = JStr name -> field_tag f tag ->
    y_everywhere (at_key "type_info" f) t -> leads (fun n => yj_fields (brefs n) l) (ygen_fields fs) ->
    leads (fun n => yj_fields (brefs n) (f :: l)) (ygen_fields ((name, tag, t) :: fs)).
  Proof.
    intros Ht Hn Hg (_ & F & _) L. cbn [ygen_fields]. unfold y_as_a_field in F.
    assert (Sort : forall n, (do s <- jg_sort (at_key "type_info" f); yj_field (brefs n) (at_key "type_info" f)) = yj_field (brefs n) (at_key "type_info" f)).
    { intro n. unfold yj_field. destruct (jg_sort (at_key "type_info" f)); reflexivity. }
    destruct tag as [z|].
    - destruct Hg as [I1 I2].
      pose proof (leads_pair (fun (ik : finit * ycode) ks => mkfld name z z (fst ik) FinReq (snd ik) :: ks) _ _ _ _ F L) as R.
      replace (do f0 <- tagged_field name (Some z) (ByteGen.field_code ygen t); do ks <- ygen_fields fs; Ok (f0 :: ks))
        with (do k <- ByteGen.field_code ygen t; do ks <- ygen_fields fs; Ok (mkfld name z z (fst k) FinReq (snd k) :: ks)).
      + eapply leads_ext; [|exact R]. intro n. cbn [yj_fields]. rewrite Ht, Hn, I1, I2. cbn [as_text or_panic obind GenerateRun.is_text].
        rewrite !String.eqb_refl, whole_in_whole. change (String.eqb "MemberStructField" "ConstDecl") with false. cbn [negb].
        rewrite <- (Sort n). destruct (jg_sort (at_key "type_info" f)); cbn [obind]; try reflexivity.
        destruct (yj_field (brefs n) (at_key "type_info" f)) as [[[i k]|]|e|]; reflexivity.
      + unfold tagged_field. destruct (ByteGen.field_code ygen t) as [[i k]|e|]; reflexivity.
    - cbn [field_tag] in Hg.
      assert (E : forall n, yj_fields (brefs n) (f :: l) = do k <- yj_field (brefs n) (at_key "type_info" f); Panic).
      { intro n. cbn [yj_fields]. rewrite Ht, Hn, Hg. cbn [as_text or_panic obind at_key].
        change (String.eqb "MemberStructField" "ConstDecl") with false. change (String.eqb "MemberStructField" "MemberStructField") with true. cbn [negb].
        rewrite <- (Sort n). destruct (jg_sort (at_key "type_info" f)); reflexivity. }
      intros X. exfalso. assert (X' : forall n, yj_field (brefs n) (at_key "type_info" f) <> Panic).
      { intros n E'. apply (X n). rewrite E, E'. reflexivity. }
      destruct (F X') as [F1 _]. destruct (F1 0%nat) as (o & Eo). apply (X 0%nat). rewrite E, Eo. reflexivity.
  Qed.
  Lemma y_struct_everywhere j l consts fs : in_place j "StructType" -> at_key "fields" j = JArr l ->
    leads (fun n => yj_struct (brefs n) l) (ygen (YStruct consts fs)) -> y_everywhere j (YStruct consts fs).
  Proof.
    intros P Hl L. each P Ht Hf.
    - field_open Ht Hf; [reflexivity|const].
    - option_open Ht Hf; [reflexivity|const].
    - variant_open Ht Hf; [reflexivity|const].
    - decl_open Ht Hf; [rewrite Hl; cbn [as_list or_panic obind]; reflexivity|]. exact L.
  Qed.

  (** Enums *)
  Fixpoint ygen_ids (l : list (Z * string * option ytype)) : outcome (list (Z * string * option ycode)) :=
    match l with
    | [] => Ok []
    | (n, None) :: l' => do ks <- ygen_ids l'; Ok ((n, None) :: ks)
    | (n, Some t) :: l' => do k <- ygen t; do ks <- ygen_ids l'; Ok ((n, Some k) :: ks)
    end.
  Lemma y_ids_bare enum v l z name vs : at_key "name" v = JStr name -> int_literal (at_key "value" v) z ->
    struct_for su mods (enum ++ "::" ++ rust_name su name)%string = None ->
    leads (fun n => jg_enum su (brefs n) (struct_for su mods) enum l) (ygen_ids vs) ->
    leads (fun n => jg_enum su (brefs n) (struct_for su mods) enum (v :: l)) (ygen_ids ((z, name, None) :: vs)).
  Proof.
    intros Hn [I1 I2] S L. cbn [ygen_ids]. eapply leads_ext; [|exact (leads_map (fun ks => (z, name, None) :: ks) _ _ L)].
    intro n. cbn [jg_enum]. rewrite Hn, I1, I2. cbn [as_text or_panic obind GenerateRun.is_text]. rewrite String.eqb_refl, whole_in_whole, S. cbn [negb].
    destruct (jg_enum su (brefs n) (struct_for su mods) enum l) as [[ks|]|e|]; reflexivity.
  Qed.
  Lemma y_ids_struct enum v l z name s t vs : at_key "name" v = JStr name -> int_literal (at_key "value" v) z ->
    struct_for su mods (enum ++ "::" ++ rust_name su name)%string = Some s ->
    follows (fun n => brefs n s) (ygen t) ->
    leads (fun n => jg_enum su (brefs n) (struct_for su mods) enum l) (ygen_ids vs) ->
    leads (fun n => jg_enum su (brefs n) (struct_for su mods) enum (v :: l)) (ygen_ids ((z, name, Some t) :: vs)).
  Proof.
    intros Hn [I1 I2] S F L. cbn [ygen_ids].
    eapply leads_ext; [|exact (leads_pair (fun k ks => (z, name, Some k) :: ks) _ _ _ _ (leads_follows _ _ F) L)].
    intro n. cbn [jg_enum]. rewrite Hn, I1, I2. cbn [as_text or_panic obind GenerateRun.is_text]. rewrite String.eqb_refl, whole_in_whole, S. cbn [negb].
    destruct (jg_enum su (brefs n) (struct_for su mods) enum l) as [[ks|]|e|]; destruct (brefs n s); reflexivity.
  Qed.
  Lemma ygen_ids_bare l : (forall v, In v l -> snd v = None) -> ygen_ids l = Ok (map (fun v => (fst v, None)) l).
  Proof.
    induction l as [|[n o] l IH]; intro H; [reflexivity|]. pose proof (H (n, o) (or_introl eq_refl)) as E. cbn [snd] in E. subst o.
    cbn [ygen_ids map fst]. rewrite IH by (intros v Hv; apply H; right; exact Hv). reflexivity.
  Qed.
  Lemma ygen_enum l : (forall v, In v l -> snd v = None) -> ygen (YEnum (map fst l)) = do ks <- ygen_ids l; Ok (yj_enum_code ks).
  Proof.
    intro H. rewrite (ygen_ids_bare l H). cbn [obind]. unfold yj_enum_code.
    replace (forallb (fun x : Z * string * option ycode => match snd x with None => true | Some _ => false end) (map (fun v => (fst v, None)) l)) with true.
    - rewrite map_map. reflexivity.
    - symmetry. apply forallb_forall. intros x Hx. apply in_map_iff in Hx. destruct Hx as (y & <- & _). reflexivity.
  Qed.
  Lemma ygen_event_ids l : ygen_events l = do ks <- ygen_ids l; Ok (map (fun x => (fst x, match snd x with Some k => k | None => CUnit end)) ks).
  Proof.
    induction l as [|[n [t|]] l IH]; [reflexivity| |]; cbn [ygen_events ygen_ids].
    - destruct (ygen t) as [k|e|]; cbn [obind]; [|reflexivity..]. rewrite IH. destruct (ygen_ids l) as [ks|e|]; reflexivity.
    - cbn [obind]. rewrite IH. destruct (ygen_ids l) as [ks|e|]; reflexivity.
  Qed.
  Lemma ygen_ids_some l ks : ygen_ids l = Ok ks -> (exists v, In v l /\ snd v <> None) ->
    forallb (fun x : Z * string * option ycode => match snd x with None => true | Some _ => false end) ks = false.
  Proof.
    revert ks. induction l as [|[n o] l IH]; intros ks H (v & Hv & Hs); [destruct Hv|]. cbn [ygen_ids] in H. destruct o as [t|].
    - destruct (ygen t) as [k|e|]; try discriminate. cbn [obind] in H. destruct (ygen_ids l) as [k'|e|]; try discriminate.
      injection H as <-. reflexivity.
    - destruct (ygen_ids l) as [k'|e|]; try discriminate. injection H as <-. cbn [forallb snd andb].
      apply IH; [reflexivity|]. destruct Hv as [<-|Hv]; [destruct (Hs eq_refl)|]. exists v. split; assumption.
  Qed.
  Lemma ygen_ids_events l : (exists v, In v l /\ snd v <> None) -> ygen (YEvents l) = do ks <- ygen_ids l; Ok (yj_enum_code ks).
  Proof.
    intro H. rewrite ygen_event_list, ygen_event_ids. destruct (ygen_ids l) as [ks|e|] eqn:E; cbn [obind]; [|reflexivity..].
    unfold yj_enum_code. rewrite (ygen_ids_some l ks E H). reflexivity.
  Qed.
  Lemma y_enum_decl d l vs g : in_place (at_key "type_info" d) "EnumType" -> at_key "fields" (at_key "type_info" d) = JArr l ->
    leads (fun n => jg_enum su (brefs n) (struct_for su mods) (rust_name su (su_show su (at_key "fullname" d))) l) (ygen_ids vs) ->
    g = (do ks <- ygen_ids vs; Ok (yj_enum_code ks)) -> leads (fun n => yj_decl su (brefs n) (struct_for su mods) d) g.
  Proof.
    intros [Ht Hf] Hl L ->. eapply leads_ext; [|exact (leads_map yj_enum_code _ _ L)].
    intro n. unfold yj_decl. rewrite Ht, Hl. reflexivity.
  Qed.

  (** The only entry of a struct, when it has no tag. *)
  Definition of_struct (l : list json) (consts : nat) (fs : list (string * option Z * ytype)) : Prop :=
    length l = (consts + length fs)%nat /\ leads (fun n => yj_fields (brefs n) l) (ygen_fields fs) /\
    leads (fun n => yj_struct (brefs n) l) (ygen (YStruct consts fs)).
  Lemma tagged_struct l consts fs : leads (fun n => yj_fields (brefs n) l) (ygen_fields fs) ->
    (forall n, yj_struct (brefs n) l = do ks <- yj_fields (brefs n) l; Ok (option_map CStruct ks)) ->
    ygen (YStruct consts fs) = (do ks <- ygen_fields fs; Ok (CStruct ks)) -> leads (fun n => yj_struct (brefs n) l) (ygen (YStruct consts fs)).
  Proof. intros L E ->. eapply leads_ext; [|exact (leads_map CStruct _ _ L)]. intro n. rewrite E. reflexivity. Qed.
  Lemma leads_ok {A} (x : A) : leads (fun _ => Ok (Some x)) (Ok x).
  Proof. apply leads_const. reflexivity. Qed.
  Lemma longer_struct (f g : json) l n : yj_struct (brefs n) (f :: g :: l) = do ks <- yj_fields (brefs n) (f :: g :: l); Ok (option_map CStruct ks).
  Proof. reflexivity. Qed.
  Lemma longer_gen consts fs : (1 < consts + length fs)%nat -> ygen (YStruct consts fs) = do ks <- ygen_fields fs; Ok (CStruct ks).
  Proof.
    intro H. rewrite ygen_struct. destruct consts as [|[|consts]]; destruct fs as [|[[n [z|]] t] [|f' fs]]; cbn [length] in H; try lia; reflexivity.
  Qed.
  Lemma const_struct f l consts fs : at_key "type" f = JStr "ConstDecl" -> at_key "tag" f = JNull ->
    as_text (at_key "fullname" (at_key "type_info" f)) <> None \/ as_text (at_key "type" (at_key "type_info" f)) <> None ->
    of_struct l consts fs -> of_struct (f :: l) (Datatypes.S consts) fs.
  Proof.
    intros Hc Hg Hs (Len & L & _). destruct (y_fields_const f l fs Hc Hs) as [(s & J) L']. specialize (L' L).
    refine (conj _ (conj L' _)); [cbn [length]; lia|]. destruct l as [|g l].
    - cbn [length] in Len. destruct consts; [|lia]. destruct fs; [|cbn [length] in Len; lia].
      settled; [|apply (leads_ok (CBare None))]. unfold yj_struct. rewrite Hg. unfold yj_bare. rewrite Hc, J. cbn [as_text or_panic obind].
      rewrite String.eqb_refl. reflexivity.
    - apply (tagged_struct _ _ _ L' (longer_struct f g l)). apply longer_gen. cbn [length] in Len. lia.
  Qed.
  Lemma field_struct f l name tag t consts fs : at_key "type" f = JStr "MemberStructField" -> at_key "name" f = JStr name -> field_tag f tag ->
    y_everywhere (at_key "type_info" f) t -> of_struct l consts fs -> of_struct (f :: l) consts ((name, tag, t) :: fs).
  Proof.
    intros Ht Hn Hg E (Len & L & _). pose proof (y_fields_cons f l name tag t fs Ht Hn Hg E L) as L'.
    refine (conj _ (conj L' _)); [cbn [length]; lia|]. destruct l as [|g l].
    - cbn [length] in Len. destruct consts; [|lia]. destruct fs; [|cbn [length] in Len; lia]. destruct tag as [z|].
      + apply (tagged_struct _ _ _ L'); [|reflexivity]. intro n. unfold yj_struct. destruct Hg as [G1 G2].
        destruct (at_key "tag" f); try reflexivity. discriminate G1.
      + destruct E as (_ & F & _). unfold y_as_a_field in F. rewrite ygen_struct.
        pose proof (leads_map (fun ik : finit * ycode => CBare (Some (name, snd ik))) _ _ F) as R.
        replace (do (_, k) <- ByteGen.field_code ygen t; Ok (CBare (Some (name, k)))) with (do ik <- ByteGen.field_code ygen t; Ok (CBare (Some (name, snd ik))))
          by (destruct (ByteGen.field_code ygen t) as [[i k]|e|]; reflexivity).
        eapply leads_ext; [|exact R]. intro n. unfold yj_struct. cbn [field_tag] in Hg. rewrite Hg. unfold yj_bare. rewrite Ht, Hn. cbn [as_text or_panic obind].
        change (String.eqb "MemberStructField" "ConstDecl") with false. change (String.eqb "MemberStructField" "MemberStructField") with true. cbn [negb].
        unfold yj_field. destruct (jg_sort (at_key "type_info" f)); reflexivity.
    - apply (tagged_struct _ _ _ L' (longer_struct f g l)). apply longer_gen. cbn [length] in Len |- *. lia.
  Qed.

  Definition as_declared (d : json) (t : ytype) : Prop := In d (declared_bytes mods) ->
    follows (fun n => brefs n (jg_name su d)) (ygen t) /\
    forall dyn name t', t = YArray dyn (YUser name t') -> follows (fun n => brefs n (rust_name su name)) (ygen t').
  Lemma y_list_everywhere d dyn name e t : in_place (at_key "type_info" d) (if dyn : bool then "DynArrayType" else "ArrayType") ->
    at_key "fullname" (at_key "element_type" (at_key "type_info" d)) = JStr name ->
    In e (declared_bytes mods) -> at_key "fullname" e = JStr name -> as_declared e t -> as_declared d (YArray dyn (YUser name t)).
  Proof.
    intros P He Ie Hn A I. destruct (A Ie) as [F _]. unfold jg_name in F. rewrite Hn in F. cbn [as_text] in F. split.
    - apply (byte_named_decl d _ I). change (ygen (YArray dyn (YUser name t))) with (do k <- ygen t; Ok (CArray k)).
      pose proof (leads_map CArray _ _ (leads_follows _ _ F)) as L. eapply leads_ext; [|exact L]. intro n. unfold yj_decl.
      destruct dyn; destruct P as [Ht Hf]; rewrite Ht, He; cbn [as_text or_panic obind existsb]; eqbs; reflexivity.
    - intros dyn' name' t' E. injection E as <- <- <-. exact F.
  Qed.

  Lemma ydescribed_leads :
    (forall j t, ydescribed su mods j t -> y_everywhere j t) /\
    (forall l vs, ydescribed_variants su mods l vs -> leads (fun n => yj_variants (brefs n) l) (ygen_variants vs)) /\
    (forall l consts fs, ydescribed_fields su mods l consts fs -> of_struct l consts fs) /\
    (forall d t, ydescribed_decl su mods d t -> as_declared d t) /\
    (forall enum l vs, ydescribed_ids su mods enum l vs -> leads (fun n => jg_enum su (brefs n) (struct_for su mods) enum l) (ygen_ids vs)).
  Proof.
    apply ydescribed_all.
    - intros j sort lo hi I P _. exact (y_int_everywhere j sort lo hi I P).
    - exact y_blob_everywhere.
    - exact y_string_everywhere.
    - exact y_ascii_everywhere.
    - exact y_bit_array_everywhere.
    - exact y_bool_everywhere.
    - exact y_fourcc_everywhere.
    - exact y_null_everywhere.
    - intros j dyn t P _ E. apply y_array_everywhere; assumption.
    - intros j t P _ E. apply y_option_everywhere; assumption.
    - intros j name d t Ht Hf P _ Hd _ A Own Details. apply (y_name_everywhere j name t Ht Hf). refine (conj P (conj _ _)).
      + intro I. destruct (A (Own (or_intror I))) as [F _]. unfold jg_name in F. rewrite Hd in F. exact F.
      + intro E. destruct (Details E) as (dyn & t' & ->). exists dyn, t'. split; [reflexivity|].
        destruct (A (Own (or_introl (eq_sym E)))) as [_ F]. specialize (F dyn _ t' eq_refl).
        rewrite (names "NNet.Game.SPlayerDetails" "GameSPlayerDetails") in F; [exact F|]. cbn [table_names In]. do 5 right. left. reflexivity.
    - intros j l vs P Hl _ L. exact (y_choice_everywhere j l vs P Hl L).
    - intros j l consts fs P Hl _ (_ & _ & L). exact (y_struct_everywhere j l consts fs P Hl L).
    - apply leads_ok.
    - intros v l z name t vs Hn I _ E _ L. apply y_variants_cons; assumption.
    - refine (conj eq_refl (conj (leads_ok []) _)). apply (tagged_struct [] 0%nat [] (leads_ok [])); reflexivity.
    - intros f l n fs Hc Hg Hs _ L. apply const_struct; assumption.
    - intros f l name tag t n fs Ht Hn Hg _ E _ L. apply field_struct; assumption.
    - intros d t Hn Na _ (S & _ & _ & _ & _ & E) I. assert (N : ~ a_list (at_key "type_info" d)) by (intro A; exact (Na A I)). split.
      + apply (byte_named_decl d t I). apply E; [reflexivity|exact N|exact Hn].
      + intros dyn name t' ->. destruct (N (proj2 S)).
    - intros d dyn name e t P Ht He _ Ie Hn _ A. exact (y_list_everywhere d dyn name e t P He Ie Hn A).
    - intros d l vs P Hl _ L H I. split; [|discriminate]. apply (byte_named_decl d _ I). apply (y_enum_decl d l vs _ P Hl L). apply ygen_enum. exact H.
    - intros d l vs P Hl _ L H I. split; [|discriminate]. apply (byte_named_decl d _ I). apply (y_enum_decl d l vs _ P Hl L). apply ygen_ids_events. exact H.
    - intros enum. apply leads_ok.
    - intros enum v l z name vs Hn I S _ L. apply y_ids_bare; assumption.
    - intros enum v l z name s d t vs Hn I S Id J _ A _ L. apply (y_ids_struct enum v l z name s t vs); try assumption. rewrite <- J. exact (proj1 (A Id)).
  Qed.
End ByteModule.

(** ** Whether the generator stops does not depend on the names *)
Section ByteStops.
  Variables (su : surroundings) (r r' : string -> option ycode) (tags tags' : string -> option string).
  Ltac alike := repeat first [reflexivity | apply ending_bind; intro | match goal with |- ending (match ?c with _ => _ end) = _ => destruct c end].
  Lemma y_element_stops ti : ending (yj_element r ti) = ending (yj_element r' ti).
  Proof. unfold yj_element. alike. Qed.
  Lemma y_optional_stops ti : ending (yj_optional r ti) = ending (yj_optional r' ti).
  Proof. unfold yj_optional. destruct (GenerateRun.is_text "ArrayType" (at_key "type" ti)); [|alike]. apply ending_bind2; [apply y_element_stops|reflexivity]. Qed.
  Lemma y_field_stops ti : ending (yj_field r ti) = ending (yj_field r' ti).
  Proof.
    unfold yj_field. apply ending_bind. intro s. apply ending_bind. intro mo. destruct (String.eqb s "OptionalType"); [apply y_optional_stops|].
    destruct (String.eqb s "ArrayType"); [|reflexivity]. apply ending_bind2; [apply y_element_stops|reflexivity].
  Qed.
  Lemma y_fields_stops fs : ending (yj_fields r fs) = ending (yj_fields r' fs).
  Proof.
    induction fs as [|f fs IH]; [reflexivity|]. cbn [yj_fields]. apply ending_bind. intro m. apply ending_bind. intro s.
    destruct (String.eqb m "ConstDecl"); [exact IH|]. destruct (negb (String.eqb m "MemberStructField")); [reflexivity|].
    apply ending_bind. intro name. apply ending_bind2; [apply y_field_stops|]. intros x y. apply ending_bind. intro t.
    destruct (negb (GenerateRun.is_text "IntLiteral" (at_key "type" (at_key "tag" f)))); [reflexivity|]. apply ending_bind2; [exact IH|]. reflexivity.
  Qed.
  Lemma y_struct_stops fs : ending (yj_struct r fs) = ending (yj_struct r' fs).
  Proof.
    assert (T : ending (do ks <- yj_fields r fs; Ok (option_map CStruct ks)) = ending (do ks <- yj_fields r' fs; Ok (option_map CStruct ks)))
      by (apply ending_bind2; [apply y_fields_stops|reflexivity]).
    destruct fs as [|f [|g fs]]; [exact T| |exact T]. unfold yj_struct. destruct (at_key "tag" f); try exact T. unfold yj_bare.
    apply ending_bind. intro m. apply ending_bind. intro s. destruct (String.eqb m "ConstDecl"); [reflexivity|].
    destruct (negb (String.eqb m "MemberStructField")); [reflexivity|]. apply ending_bind. intro name. apply ending_bind2; [apply y_field_stops|reflexivity].
  Qed.
  Lemma y_variants_stops vs : ending (yj_variants r vs) = ending (yj_variants r' vs).
  Proof.
    induction vs as [|v vs IH]; [reflexivity|]. cbn [yj_variants]. destruct (GenerateRun.is_text "NullType" (at_key "type" (at_key "type_info" v))); [exact IH|].
    apply ending_bind. intro m. apply ending_bind2; [unfold yj_variant; alike|]. intros x y.
    apply ending_bind. intro t. destruct (negb (GenerateRun.is_text "IntLiteral" (at_key "type" (at_key "tag" v)))); [reflexivity|].
    apply ending_bind2; [exact IH|]. reflexivity.
  Qed.
  Lemma y_enum_stops e vs : ending (jg_enum su r tags e vs) = ending (jg_enum su r' tags' e vs).
  Proof.
    induction vs as [|v vs IH]; [reflexivity|]. cbn [jg_enum]. apply ending_bind. intro m. apply ending_bind. intro t.
    destruct (negb (GenerateRun.is_text "IntLiteral" (at_key "type" (at_key "value" v)))); [reflexivity|]. apply ending_bind2; [exact IH|]. reflexivity.
  Qed.
  Lemma y_decl_stops d : ending (yj_decl su r tags d) = ending (yj_decl su r' tags' d).
  Proof.
    unfold yj_decl. cbv zeta. apply ending_bind. intro u.
    repeat match goal with |- ending (if ?c then _ else _) = _ => destruct c end; try reflexivity.
    - apply ending_bind. intro fs. apply y_struct_stops.
    - apply ending_bind. intro fs. apply ending_bind2; [apply y_variants_stops|]. reflexivity.
    - apply ending_bind. intro fs. apply ending_bind2; [apply y_enum_stops|]. reflexivity.
    - alike.
  Qed.
End ByteStops.

(** ** After a run *)
Lemma declared_byte_texts su num mods source texts : byte_stops_as_read su ->
  Forall2 (piece_text su num (struct_for su mods)) (module_pieces source mods) texts ->
  forall d, In d (declared_bytes mods) -> forall refs, yj_decl su refs (struct_for su mods) d <> Panic.
Proof.
  intros S F d I refs. unfold declared_bytes in I. apply filter_In in I. destruct I as [I C].
  assert (In (CodeOf ByteAligned d) (module_pieces source mods)) as J.
  { unfold module_pieces. apply in_or_app. right. apply in_or_app. left. apply in_map. exact I. }
  destruct (Forall2_left _ _ _ _ F J) as (s & H). inversion H as [|dec d' s' T]; subst.
  inversion T as [E|t unit name kw inner impl Et Nt Eu _ _ In_]; subst.
  - unfold is_const in C. rewrite E in C. discriminate C.
  - destruct In_ as [[-> (vs & ts & Hf & Hv & _)]|[N B]].
    + unfold yj_decl. rewrite Eu, Hf. cbn [as_text or_panic obind as_list].
      change (String.eqb "EnumType" "StructType") with false. change (String.eqb "EnumType" "ChoiceType") with false. change (String.eqb "EnumType" "EnumType") with true. cbv iota.
      pose proof (enum_reads su refs _ (struct_for su mods) _ _ _ Hv) as P. destruct (jg_enum su refs (struct_for su mods) _ vs); [discriminate..|contradiction].
    + assert (P : yj_decl su (fun _ => None) (fun _ => None) d <> Panic). { apply (S num d unit name Eu N). rewrite B. discriminate. }
      intro X. apply P. pose proof (y_decl_stops su refs (fun _ => None) (struct_for su mods) (fun _ => None) d) as Y. rewrite X in Y.
      destruct (yj_decl su (fun _ => None) (fun _ => None) d); [discriminate Y..|reflexivity].
Qed.

Theorem generated_byte_module su source output fs fs' : json_parser su -> byte_stops_as_read su -> names_as_in_table su ->
  generate su source output fs = (Ok tt, fs') ->
  exists text doc mods, fs (su_place su source) = Some text /\ su_parse su text = Some doc /\ modules_of doc = Ok mods /\
    (NoDup (map (jg_name su) (declared_bytes mods)) -> forall d t, In d (declared_bytes mods) -> ydescribed_decl su mods d t ->
     match ygen t with
     | Ok k => exists N, forall n, (N <= n)%nat -> byte_module_code su (struct_for su mods) (declared_bytes mods) n (jg_name su d) = Some k
     | Err _ => forall n, byte_module_code su (struct_for su mods) (declared_bytes mods) n (jg_name su d) = None
     | Panic => False
     end).
Proof.
  intros J S M G. destruct (generate_contents su source output fs fs' J G) as (num & text & doc & mods & texts & _ & H1 & H2 & H3 & H4 & _).
  exists text, doc, mods. refine (conj H1 (conj H2 (conj H3 _))). intros N d t I D.
  pose proof (declared_byte_texts su num mods source texts S H4) as P.
  exact (proj1 (proj1 (proj2 (proj2 (proj2 (ydescribed_leads su mods M N P)))) d t D I)).
Qed.
