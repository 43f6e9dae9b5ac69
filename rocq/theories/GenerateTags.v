(** * The tags [generate] collects, and runs of it as a whole *)
From Coq Require Import Ascii Lia.
From Verif Require Import Base BalanceJson GenerateRun GenerateSpec GenerateFacts GenerateTexts.
#[local] Open Scope string_scope.
#[local] Open Scope Z_scope.
#[local] Open Scope list_scope.

Section Tags.
  Variable su : surroundings.
  Definition table : Type := string -> option string.
  Definition struct_name (d : json) : string := rust_name su (su_show su (at_key "fullname" d)).
  Definition add_tag (t : table) (e : json * json) : table :=
    match t (event_key su (fst e)) with
    | Some _ => t
    | None => fun k => if String.eqb k (event_key su (fst e)) then Some (struct_name (snd e)) else t k
    end.
  Definition add_tags (l : list (json * json)) (t : table) : table := fold_left add_tag l t.

  Lemma add_tags_look l t k :
    add_tags l t k = match t k with
                     | Some s => Some s
                     | None => match find (fun e => String.eqb (event_key su (fst e)) k) l with Some e => Some (struct_name (snd e)) | None => None end
                     end.
  Proof.
    revert t. induction l as [|e l IH]; intros t; cbn [add_tags fold_left find]; [now destruct (t k)|].
    fold (add_tags l (add_tag t e)). rewrite IH. unfold add_tag.
    destruct (String.eqb (event_key su (fst e)) k) eqn:E.
    - apply String.eqb_eq in E. subst k. destruct (t (event_key su (fst e))) eqn:T; [now rewrite T|]. now rewrite String.eqb_refl.
    - destruct (t (event_key su (fst e))) eqn:T; [reflexivity|]. rewrite String.eqb_sym, E. reflexivity.
  Qed.

  Definition field_fine (f : json) : Prop := (exists s, at_key "type" f = JStr s) /\ (is_const f = true -> const_fine f).

  Lemma fill_fields_ok d fs t t' :
    fill_fields su d fs t = Ok t' <-> Forall field_fine fs /\ t' = add_tags (map (fun f => (f, d)) (filter is_const fs)) t.
  Proof.
    revert t t'. induction fs as [|f fs IH]; intros t t'; cbn [fill_fields filter map add_tags fold_left].
    - split; [intros E; injection E as <-; auto | intros (_ & ->); reflexivity].
    - split.
      + intros E. apply obind_ok in E. destruct E as (ty & E1 & E). apply or_panic_ok, as_text_str in E1.
        destruct (String.eqb ty "ConstDecl") eqn:C; cbn [negb] in E.
        * apply String.eqb_eq in C. subst ty.
          apply obind_ok in E. destruct E as (full & E2 & E). apply or_panic_ok, as_text_str in E2.
          destruct (is_text "IdentifierExpr" (at_key "type" (at_key "value" f))) eqn:X; cbn [negb] in E; [|discriminate E]. apply is_text_str in X.
          apply obind_ok in E. destruct E as (v & E3 & E). apply or_panic_ok, as_text_str in E3. cbv zeta in E.
          apply IH in E. destruct E as (A & ->). split.
          -- constructor; [|exact A]. split; [now exists "ConstDecl"|]. intros _. split; [now exists full|]. split; [exact X | now exists v].
          -- unfold is_const. rewrite E1. cbn [as_text one_of existsb].
             replace (String.eqb "ConstDecl" "ConstDecl" || false) with true by reflexivity. cbn [map add_tags fold_left]. unfold add_tags. f_equal.
             unfold add_tag. cbn [fst snd]. unfold event_key. rewrite E2, E3. cbn [as_text]. reflexivity.
        * apply IH in E. destruct E as (A & ->). split.
          -- constructor; [|exact A]. split; [now exists ty|]. unfold is_const. rewrite E1. cbn [as_text one_of existsb]. rewrite C. discriminate.
          -- unfold is_const. rewrite E1. cbn [as_text one_of existsb]. now rewrite C.
      + intros (A & ->). inversion A as [|f0 fs0 ((ty & E1) & C) A']; subst. rewrite E1. cbn [as_text or_panic obind].
        unfold is_const in C |- *. rewrite E1 in C |- *. cbn [as_text one_of existsb] in C |- *. rewrite orb_false_r in C |- *.
        destruct (String.eqb ty "ConstDecl") eqn:CE; cbn [negb].
        * destruct (C eq_refl) as ((full & E2) & X & (v & E3)). rewrite E2. cbn [as_text or_panic obind].
          rewrite X. change (is_text "IdentifierExpr" (JStr "IdentifierExpr")) with true. cbn [negb]. rewrite E3. cbn [as_text or_panic obind].
          cbv zeta. apply IH. split; [exact A'|]. cbn [map fold_left]. unfold add_tags. f_equal.
          unfold add_tag. cbn [fst snd]. unfold event_key. rewrite E2, E3. cbn [as_text]. reflexivity.
        * apply IH. split; [exact A' | reflexivity].
  Qed.

  Definition struct_tags (d : json) : list (json * json) := if is_struct d then map (fun f => (f, d)) (filter is_const (fields_of d)) else [].
  Definition struct_fine (d : json) : Prop :=
    is_struct d = true -> (exists l, at_key "fields" (at_key "type_info" d) = JArr l) /\ Forall field_fine (fields_of d).

  Lemma fill_structs_ok d t t' : fill_structs su d t = Ok t' <-> struct_fine d /\ t' = add_tags (struct_tags d) t.
  Proof.
    unfold fill_structs, struct_fine, struct_tags, is_struct. rewrite <- is_text_one.
    destruct (is_text "StructType" (at_key "type" (at_key "type_info" d))); cbn [negb].
    - split.
      + intros E. apply obind_ok in E. destruct E as (l & E1 & E). apply or_panic_ok in E1. apply fill_fields_ok in E. destruct E as (A & ->).
        assert (F : fields_of d = l) by (unfold fields_of; now rewrite E1). rewrite F. split; [|reflexivity]. intros _. split; [|exact A].
        apply as_list_arr. eauto.
      + intros (A & ->). destruct (A eq_refl) as ((l & E) & B). unfold fields_of in *. rewrite E in *. cbn [as_list or_panic obind listed] in *.
        apply fill_fields_ok. auto.
    - split; [intros E; injection E as <-; split; [discriminate | reflexivity] | intros (_ & ->); reflexivity].
  Qed.
  Lemma add_tags_app a b t : add_tags (a ++ b) t = add_tags b (add_tags a t).
  Proof. apply fold_left_app. Qed.
  Lemma fill_all_ok ds t t' : fill_all su ds t = Ok t' <-> Forall struct_fine ds /\ t' = add_tags (flat_map struct_tags ds) t.
  Proof.
    revert t t'. induction ds as [|d ds IH]; intros t t'; cbn [fill_all flat_map].
    - split; [intros E; injection E as <-; split; [constructor | reflexivity] | intros (_ & ->); reflexivity].
    - rewrite add_tags_app. split.
      + intros E. apply obind_ok in E. destruct E as (t1 & E1 & E). apply fill_structs_ok in E1. destruct E1 as (A & ->). apply IH in E. destruct E as (B & ->).
        split; [now constructor | reflexivity].
      + intros (A & ->). inversion A as [|d0 ds0 A1 A2]; subst.
        assert (E1 : fill_structs su d t = Ok (add_tags (struct_tags d) t)) by (apply fill_structs_ok; auto).
        rewrite E1. cbn [obind]. apply IH. auto.
  Qed.
  Definition inside (c : json) : list json := match as_list (at_key "decls" c) with Some l => l | None => [c] end.
  Lemma collect_in_ok subs t t' : collect_in su subs t = Ok t' <-> Forall struct_fine (flat_map inside subs) /\ t' = add_tags (flat_map struct_tags (flat_map inside subs)) t.
  Proof.
    revert t t'. induction subs as [|c subs IH]; intros t t'; cbn [collect_in flat_map].
    - split; [intros E; injection E as <-; split; [constructor | reflexivity] | intros (_ & ->); reflexivity].
    - rewrite flat_map_app, add_tags_app.
      assert (One : forall t1, match as_list (at_key "decls" c) with Some inner => fill_all su inner t | None => fill_structs su c t end = Ok t1 <->
        Forall struct_fine (inside c) /\ t1 = add_tags (flat_map struct_tags (inside c)) t).
      { intros t1. unfold inside. destruct (as_list (at_key "decls" c)) as [l|]; [apply fill_all_ok|]. rewrite fill_structs_ok. cbn [flat_map]. rewrite app_nil_r.
        split; intros (A & B); (split; [|exact B]); [constructor; [exact A | constructor] | now inversion A]. }
      split.
      + intros E. apply obind_ok in E. destruct E as (t1 & E1 & E). apply One in E1. destruct E1 as (A & ->). apply IH in E. destruct E as (B & ->).
        split; [now apply Forall_app | reflexivity].
      + intros (A & ->). apply Forall_app in A. destruct A as (A1 & A2).
        rewrite (proj2 (One _) (conj A1 eq_refl)). cbn [obind]. apply IH. auto.
  Qed.
  Lemma taggable_cons m mods :
    taggable (m :: mods) = (if one_of (name_of m) ["NNet.Replay"; "NNet.Game"] then flat_map inside (decls_of m) else []) ++ taggable mods.
  Proof. reflexivity. Qed.
  Definition decls_there (m : json) : Prop := one_of (name_of m) ["NNet.Replay"; "NNet.Game"] = true -> exists l, at_key "decls" m = JArr l.
  Lemma collect_ok mods t t' :
    collect su mods t = Ok t' <-> Forall decls_there mods /\ Forall struct_fine (taggable mods) /\ t' = add_tags (flat_map struct_tags (taggable mods)) t.
  Proof.
    revert t t'. induction mods as [|m mods IH]; intros t t'; cbn [collect].
    - cbn [taggable flat_map]. split; [intros E; injection E as <-; repeat split; constructor | intros (_ & _ & ->); reflexivity].
    - rewrite taggable_cons, flat_map_app, add_tags_app. unfold decls_there at 1.
      assert (N : (is_text "NNet.Replay" (at_key "fullname" m) || is_text "NNet.Game" (at_key "fullname" m))%bool = one_of (name_of m) ["NNet.Replay"; "NNet.Game"]).
      { unfold name_of. destruct (at_key "fullname" m); try reflexivity. cbn [is_text as_text one_of existsb]. now rewrite orb_false_r. }
      rewrite N. destruct (one_of (name_of m) ["NNet.Replay"; "NNet.Game"]) eqn:M.
      + split.
        * intros E. apply obind_ok in E. destruct E as (subs & E1 & E). apply or_panic_ok in E1. apply obind_ok in E. destruct E as (t1 & E2 & E).
          apply collect_in_ok in E2. destruct E2 as (A & ->). apply IH in E. destruct E as (B & C & ->).
          assert (F : decls_of m = subs) by (unfold decls_of; now rewrite E1). rewrite F. split; [|split; [now apply Forall_app | reflexivity]].
          constructor; [|exact B]. intros _. apply as_list_arr. eauto.
        * intros (A & B & ->). inversion A as [|m0 mods0 A1 A2]; subst. apply Forall_app in B. destruct B as (B1 & B2).
          destruct (A1 M) as (l & E). unfold decls_of in *. rewrite E in *. cbn [as_list listed or_panic obind] in *.
          rewrite (proj2 (collect_in_ok l t _) (conj B1 eq_refl)). cbn [obind]. apply IH. auto.
      + cbn [flat_map List.app add_tags fold_left]. rewrite IH. split.
        * intros (A & B & ->). split; [|auto]. constructor; [|exact A]. unfold decls_there. rewrite M. discriminate.
        * intros (A & B & ->). inversion A; subst. auto.
  Qed.
  Lemma all_tags_struct mods : all_tags mods = flat_map struct_tags (taggable mods).
  Proof.
    unfold all_tags. induction (taggable mods) as [|d l IH]; cbn [filter flat_map]; [reflexivity|]. unfold struct_tags at 1.
    destruct (is_struct d); cbn [flat_map]; now rewrite IH.
  Qed.
  Lemma tags_fine_forall mods : tags_fine mods <-> Forall decls_there mods /\ Forall struct_fine (taggable mods).
  Proof.
    unfold tags_fine. rewrite !Forall_forall. split; intros (A & B); (split; [exact A|]).
    - intros d I S. destruct (B d I S) as (X & Y). split; [exact X|]. apply Forall_forall. exact Y.
    - intros d I S. destruct (B d I S) as (X & Y). split; [exact X|]. apply Forall_forall. exact Y.
  Qed.

  (** The first pass: whether it works, and the table it makes. *)
  Lemma collect_enum_tags_ok doc tags :
    collect_enum_tags su doc = Ok tags -> exists mods, modules_of doc = Ok mods /\ tags_fine mods /\ forall k, tags k = struct_for su mods k.
  Proof.
    unfold collect_enum_tags. intros E. apply obind_ok in E. destruct E as (mods & E1 & E). exists mods. split; [exact E1|].
    apply collect_ok in E. destruct E as (A & B & ->). split; [now apply tags_fine_forall|].
    intros k. rewrite add_tags_look, <- all_tags_struct. reflexivity.
  Qed.
  Lemma collect_enum_tags_fine doc mods : modules_of doc = Ok mods -> tags_fine mods -> exists tags, collect_enum_tags su doc = Ok tags.
  Proof.
    intros E T. apply tags_fine_forall in T. destruct T as (A & B). unfold collect_enum_tags. rewrite E. cbn [obind].
    eexists. apply collect_ok. split; [exact A|]. split; [exact B | reflexivity].
  Qed.
End Tags.

Lemma fill_fields_not_err su d fs t e : fill_fields su d fs t <> Err e.
Proof.
  revert t. induction fs as [|f fs IH]; intros t; cbn [fill_fields]; [discriminate|].
  destruct (as_text (at_key "type" f)) as [ty|]; cbn [or_panic obind]; [|discriminate]. destruct (negb (String.eqb ty "ConstDecl")); [apply IH|].
  destruct (as_text (at_key "fullname" (at_key "type_info" f))); cbn [or_panic obind]; [|discriminate].
  destruct (negb (is_text "IdentifierExpr" _)); [discriminate|].
  destruct (as_text (at_key "fullname" (at_key "value" f))); cbn [or_panic obind]; [|discriminate]. cbv zeta. apply IH.
Qed.
Lemma fill_structs_not_err su d t e : fill_structs su d t <> Err e.
Proof.
  unfold fill_structs. destruct (negb _); [discriminate|]. destruct (as_list _); cbn [or_panic obind]; [apply fill_fields_not_err | discriminate].
Qed.
Lemma collect_enum_tags_not_err su doc e : collect_enum_tags su doc <> Err e.
Proof.
  unfold collect_enum_tags, modules_of. destruct (as_list _) as [mods|]; cbn [or_panic obind]; [|discriminate].
  generalize (fun _ : string => @None string). induction mods as [|m mods IH]; intros t; cbn [collect]; [discriminate|].
  destruct (_ || _)%bool; [|apply IH]. destruct (as_list (at_key "decls" m)) as [subs|]; cbn [or_panic obind]; [|discriminate].
  assert (A : forall subs t e, collect_in su subs t <> Err e).
  { clear. intros subs. induction subs as [|c subs IH]; intros t e; cbn [collect_in]; [discriminate|].
    assert (B : forall e, match as_list (at_key "decls" c) with Some inner => fill_all su inner t | None => fill_structs su c t end <> Err e).
    { intros e'. destruct (as_list (at_key "decls" c)) as [l|]; [|apply fill_structs_not_err]. revert t. induction l as [|d l IHl]; intros t; cbn [fill_all]; [discriminate|].
      destruct (fill_structs su d t) eqn:E; cbn [obind]; [apply IHl| |discriminate]. exfalso. exact (fill_structs_not_err _ _ _ _ E). }
    destruct (match as_list (at_key "decls" c) with Some inner => fill_all su inner t | None => fill_structs su c t end) eqn:E; cbn [obind]; [apply IH| |discriminate].
    exfalso. exact (B _ eq_refl). }
  destruct (collect_in su subs t) eqn:E; cbn [obind]; [apply IH| |discriminate]. exfalso. exact (A _ _ _ E).
Qed.

(** ** The rest of a run, after the definition has been read *)
Lemma gen_rest_steps su source num doc :
  gen_rest su source num doc =
  match collect_enum_tags su doc with
  | Ok tags => match modules_of doc with Ok mods => run_steps su num tags (file_steps source mods) "" | _ => (Panic, "") end
  | Err e => (Err e, "")
  | Panic => (Panic, "")
  end.
Proof.
  unfold gen_rest. destruct (collect_enum_tags su doc) as [tags| |]; [|reflexivity|reflexivity].
  destruct (modules_of doc) as [mods| |]; [|reflexivity|reflexivity].
  unfold file_steps. rewrite !run_steps_app. cbn [run_steps run_step map]. rewrite !and_then_assoc.
  change (String.concat "" ["pub mod events;" ++ nl; "pub use events::*;" ++ nl]%string) with (line "pub mod events;" ++ line "pub use events::*;")%string.
  apply and_then_ext. intros o1. unfold sub_module. rewrite !and_then_assoc.
  change (String.concat "" ["pub mod byte_aligned {" ++ nl]%string) with (line "pub mod byte_aligned {").
  apply and_then_ext. intros o2. rewrite !and_then_assoc.
  assert (SL : String.concat "" [(("//! Generated code from source: " ++ source) ++ nl)%string] = source_line source).
  { unfold source_line. cbn [String.concat]. now rewrite sapp_assoc. }
  rewrite !SL. apply and_then_ext. intros o3. rewrite !and_then_assoc.
  change (String.concat "" (map line ["use crate::*;"; "use nom_mpq::parser::peek_hex;"])) with (String.concat "" ["use crate::*;" ++ nl; "use nom_mpq::parser::peek_hex;" ++ nl]%string).
  apply and_then_ext. intros o4. cbn [and_then]. rewrite !and_then_assoc, run_steps_app.
  rewrite (for_each_steps su num tags (byte_module su num tags) byte_steps) by (intros; apply byte_module_steps).
  apply and_then_ext. intros o5. rewrite run_steps_app. cbn [run_steps run_step map]. rewrite !and_then_assoc.
  change (String.concat "" ["}" ++ nl]%string) with (line "}").
  apply and_then_ext. intros o6. rewrite !and_then_assoc.
  change (String.concat "" ["pub mod bit_packed {" ++ nl]%string) with (line "pub mod bit_packed {").
  apply and_then_ext. intros o7. rewrite !and_then_assoc, ?SL. apply and_then_ext. intros o8. rewrite !and_then_assoc.
  change (String.concat "" (map line ["use crate::*;"])) with (String.concat "" ["use crate::*;" ++ nl]%string).
  apply and_then_ext. intros o9. cbn [and_then]. rewrite run_steps_app.
  rewrite (for_each_steps su num tags (bit_module su num tags) bit_steps) by (intros; apply bit_module_steps).
  apply and_then_ext. intros o10. cbn [run_steps run_step map].
  change (String.concat "" ["}" ++ nl]%string) with (line "}"). destruct (write_text su (line "}") o10) as [[[]| |]]; reflexivity.
Qed.

(** What is written when a run ends well, and when. *)
Definition gen_text su source num doc (text : string) : Prop :=
  exists mods texts, modules_of doc = Ok mods /\
    Forall2 (piece_text su num (struct_for su mods)) (module_pieces source mods) texts /\ text = String.concat "" texts.

Lemma variant_same su (t t' : string -> option string) ename v x : (forall k, t k = t' k) -> one_variant su t ename v x -> one_variant su t' ename v x.
Proof. intros H (n & value & A & B & C & ->). exists n, value. rewrite H. auto. Qed.
Lemma piece_text_same su num (t t' : string -> option string) p s : (forall k, t k = t' k) -> piece_text su num t p s -> piece_text su num t' p s.
Proof.
  intros H T. destruct T as [l|dec d s D]; [constructor|]. constructor. destruct D as [C|ty unit name kw inner impl E1 C E2 N K B]; [now constructor|].
  apply (text_of_type su num t' dec d ty unit name kw inner impl); auto.
  destruct B as [(U & vs & ts & A & F & X & Y)|B]; [|now right]. left. split; [exact U|]. exists vs, ts. split; [exact A|]. split; [|auto].
  clear A X Y. induction F as [|v x vs ts V F IH]; constructor; [now apply (variant_same su t t') | exact IH].
Qed.

Lemma Forall2_imp {A B} (P Q : A -> B -> Prop) l l' : (forall a b, P a b -> Q a b) -> Forall2 P l l' -> Forall2 Q l l'.
Proof. intros H F. induction F; constructor; auto. Qed.
Lemma Forall2_map_l {A B C} (f : A -> B) (P : B -> C -> Prop) l l' : Forall2 P (map f l) l' <-> Forall2 (fun a => P (f a)) l l'.
Proof.
  revert l'. induction l as [|a l IH]; intros l'; cbn [map]; split; intros F; inversion F; subst; constructor; try assumption; now apply IH.
Qed.
Lemma steps_texts_no_stop su num tags l texts : Forall2 (step_text su num tags) l texts -> no_stop l.
Proof.
  intros F I. induction F as [|g s l texts T F IH]; [destruct I|]. destruct I as [->|I]; [destruct T | exact (IH I)].
Qed.

Theorem gen_rest_ok su source num doc out :
  gen_rest su source num doc = (Ok tt, out) <->
  gen_text su source num doc out /\ (String.length out <= su_room su)%nat /\
  exists mods, modules_of doc = Ok mods /\ tags_fine mods /\ shape_fine mods.
Proof.
  rewrite gen_rest_steps. unfold gen_text. split.
  - intros E. destruct (collect_enum_tags su doc) as [tags| |] eqn:C; try discriminate E.
    destruct (collect_enum_tags_ok su doc tags C) as (mods & M & T & L). rewrite M in E.
    apply run_steps_ok in E; [|unfold fits; cbn; lia]. destruct E as (texts & F & -> & R). cbn [append] in *.
    pose proof (steps_texts_no_stop _ _ _ _ _ F) as N.
    split; [|split; [exact R|exists mods; split; [exact M|split; [exact T|]]]].
    + exists mods, texts. split; [exact M|]. split; [|reflexivity].
      rewrite <- (clean_no_stop _ N), clean_file_steps in F. apply (proj1 (Forall2_map_l _ _ _ _)) in F. revert F. apply Forall2_imp. intros p s. cbn [step_text].
      apply piece_text_same. exact L.
    + apply (no_stop_file source); [exact (proj1 T) | exact N].
  - intros ((mods & texts & M & F & ->) & R & mods' & M' & T & Sh). assert (mods' = mods) as -> by congruence.
    destruct (collect_enum_tags_fine su doc mods M T) as (tags & C). rewrite C, M.
    destruct (collect_enum_tags_ok su doc tags C) as (mods1 & M1 & _ & L). assert (mods1 = mods) as -> by congruence.
    apply run_steps_ok; [unfold fits; cbn; lia|]. exists texts. split; [|split; [reflexivity | exact R]].
    apply (no_stop_file source mods (proj1 T)) in Sh. rewrite <- (clean_no_stop _ Sh), clean_file_steps. apply Forall2_map_l. revert F. apply Forall2_imp.
    intros p s. cbn [step_text]. apply piece_text_same. intros k. symmetry. apply L.
Qed.

Theorem gen_rest_fail su source num doc o out :
  gen_rest su source num doc = (o, out) -> o <> Ok tt ->
  out = "" \/
  exists mods k texts, modules_of doc = Ok mods /\
    Forall2 (piece_text su num (struct_for su mods)) (firstn k (module_pieces source mods)) texts /\ exists rest, String.concat "" texts = (out ++ rest)%string.
Proof.
  rewrite gen_rest_steps. intros E N. destruct (collect_enum_tags su doc) as [tags| |] eqn:C; try (left; congruence).
  destruct (collect_enum_tags_ok su doc tags C) as (mods & M & T & L). rewrite M in E. right.
  destruct (run_steps_fail su num tags (file_steps source mods) "" o out) as (k & texts & F & rest & S); [unfold fits; cbn; lia | exact E | exact N |].
  exists mods, k, texts. split; [exact M|]. split; [|exists rest; exact S].
  pose proof (steps_texts_no_stop _ _ _ _ _ F) as NS. rewrite (clean_firstn k _ NS), clean_file_steps, firstn_map in F.
  apply (proj1 (Forall2_map_l _ _ _ _)) in F. revert F. apply Forall2_imp. intros p s. cbn [step_text]. apply piece_text_same. exact L.
Qed.
