(** * Facts about the view of a balance unit *)
From Coq Require Import Lia Permutation.
From Verif Require Import Base F32 Balance Archive ArchiveSpec SnapshotFacts BalanceFiles BalanceSpec BalanceWrite BalanceXml Program PropsBalance PropsBalanceJson CameraBoxSpec BalanceJson BalanceJsonSpec BalanceJsonFacts BalanceJsonNear UnitFileSpec UnitFileFacts UnitRows UnitView UnitViewSpec.
#[local] Open Scope string_scope.
#[local] Open Scope Z_scope.
#[local] Open Scope list_scope.

(** ** Fields *)
Lemma at_one : forall k m, at_path [k] (JObj m) = flat_map elements (jvalues k m).
Proof. intros k m. cbn [at_path]. induction (flat_map elements (jvalues k m)) as [|x l IH]; [reflexivity|]. cbn [flat_map app]. now rewrite IH. Qed.
Lemma at_two : forall k k' j, at_path [k; k'] j = flat_map (at_path [k']) (at_path [k] j).
Proof. intros k k' j. destruct j; try reflexivity. rewrite at_one. reflexivity. Qed.
Lemma field_read : forall fs j v k e, read_json false (TObj fs) j = Some v -> find (fun f => String.eqb (fst f) k) fs = Some e ->
  exists m, j = JObj m /\ ((exists j', jvalues k m = [j'] /\ read_json false (fst (snd e)) j' = Some (jfield (TObj fs) k v)) \/
    (jvalues k m = [] /\ missing (fst (snd e)) (snd (snd e)) = Some (jfield (TObj fs) k v))).
Proof.
  intros fs j v k e E F. destruct j as [| | | | | |m]; try discriminate. exists m. split; [reflexivity|]. rewrite from_obj in E. destruct (get_fields m fs) as [vs|] eqn:G; [|discriminate]. injection E as <-.
  apply get_fields_spec in G. cbn [jfield]. revert F. induction G as [|f x fs vs H _ IH]; intros F; [discriminate|]. cbn [find pick_field] in *. destruct (String.eqb (fst f) k) eqn:Q; [|exact (IH F)].
  injection F as <-. apply String.eqb_eq in Q. subst k. exact H.
Qed.
Section Fields.
  Variables (fs : list (string * (jty * option jval))) (j : json) (v : jval) (k : string) (e : string * (jty * option jval)).
  Hypothesis E : read_json false (TObj fs) j = Some v.
  Hypothesis F : find (fun f => String.eqb (fst f) k) fs = Some e.
  Lemma field_is : exists x, jfield (TObj fs) k v = x /\ exists m, j = JObj m /\ ((exists j', jvalues k m = [j'] /\ read_json false (fst (snd e)) j' = Some x) \/ (jvalues k m = [] /\ missing (fst (snd e)) (snd (snd e)) = Some x)).
  Proof. exists (jfield (TObj fs) k v). split; [reflexivity|]. exact (field_read fs j v k e E F). Qed.
  Lemma str_field : e = fld k TStr -> as_str (jfield (TObj fs) k v) = text_at k j.
  Proof.
    intros He. destruct field_is as (x & Ex & m & -> & [(j' & J & R)|[_ R]]); rewrite Ex; clear Ex E; rewrite He in R; cbn [fld fst snd] in R; [|discriminate]. unfold text_at. rewrite at_one, J.
    destruct j'; try discriminate. injection R as <-. reflexivity.
  Qed.
  Lemma num_field : forall lo hi, e = fld k (TInt lo hi) -> number_at k j = Some (as_num (jfield (TObj fs) k v)).
  Proof.
    intros lo hi He. destruct field_is as (x & Ex & m & -> & [(j' & J & R)|[_ R]]); rewrite Ex; clear Ex E; rewrite He in R; cbn [fld fst snd] in R; [|discriminate]. unfold number_at. rewrite at_one, J.
    destruct j'; try discriminate. cbn [read_json] in R. destruct (_ && _); [|discriminate]. injection R as <-. reflexivity.
  Qed.
  Lemma opt_field : forall t, fst (snd e) = TOpt t -> snd (snd e) = None \/ snd (snd e) = Some (XOpt None) -> exists m, j = JObj m /\
    ((exists j' y, jvalues k m = [j'] /\ jfield (TObj fs) k v = XOpt (Some y) /\ read_json false t j' = Some y) \/ (jfield (TObj fs) k v = XOpt None /\ (jvalues k m = [] \/ jvalues k m = [JNull]))).
  Proof.
    intros t Ht Hd. destruct field_is as (x & Ex & m & -> & H). rewrite Ex. clear Ex E. exists m. split; [reflexivity|]. rewrite Ht in H.  destruct H as [(j' & J & R)|[J R]].
    - destruct j'; cbn [read_json] in R; [right; split; [congruence|auto]| | | | | |]; left; (match type of R with option_map _ ?o = _ => destruct o as [y|] eqn:Y; [|discriminate] end); injection R as R; do 2 eexists; (split; [exact J|split; [symmetry; exact R|exact Y]]).
    - right. split; [|auto]. destruct Hd as [-> | ->] in R; cbn in R; congruence.
  Qed.
  Lemma opt_num_field : forall lo hi, fst (snd e) = TOpt (TInt lo hi) -> snd (snd e) = None \/ snd (snd e) = Some (XOpt None) -> as_opt as_num (jfield (TObj fs) k v) = number_at k j.
  Proof.
    intros lo hi Ht Hd. destruct (opt_field _ Ht Hd) as (m & -> & [(j' & y & J & X & R)|(X & [J|J])]); unfold number_at; rewrite at_one, J, X; [|reflexivity|reflexivity].
    destruct j'; try discriminate. cbn [read_json] in R. destruct (_ && _); [|discriminate]. injection R as <-. reflexivity.
  Qed.
  Lemma opt_str_field : fst (snd e) = TOpt TStr -> snd (snd e) = None \/ snd (snd e) = Some (XOpt None) -> match as_opt as_str (jfield (TObj fs) k v) with Some s => s | None => "" end = text_at k j.
  Proof.
    intros Ht Hd. destruct (opt_field _ Ht Hd) as (m & -> & [(j' & y & J & X & R)|(X & [J|J])]); unfold text_at; rewrite at_one, J, X; [|reflexivity|reflexivity].
    destruct j'; try discriminate. injection R as <-. reflexivity.
  Qed.
  Lemma vec_field : forall t, fst (snd e) = TVec t -> snd (snd e) = Some (XVec []) -> exists vs, jfield (TObj fs) k v = XVec vs /\ Forall2 (fun j' y => read_json false t j' = Some y) (at_path [k] j) vs.
  Proof.
    intros t Ht Hd. destruct field_is as (x & Ex & m & -> & H). rewrite Ex. clear Ex E. rewrite Ht, Hd in H.  rewrite at_one. destruct H as [(j' & J & R)|[J R]]; rewrite J.
    - destruct j'; try discriminate. cbn [read_json] in R. fold (read_json false) in R. destruct (all_some (read_json false t) l) as [ys|] eqn:Y; [|discriminate]. injection R as R. exists ys. split; [congruence|].
      cbn [flat_map elements]. rewrite app_nil_r. apply all_some_forall2. exact Y.
    - cbn in R. exists []. split; [congruence|constructor].
  Qed.
End Fields.
Section Lists.
  Context {A : Type}.
  Variables (f : jval -> A) (k k' : string) (t : jty).
  Definition read_as (j : json) (a : A) : Prop := exists v, read_json false t j = Some v /\ a = f v.
  Lemma vec_as : forall fs j v e, read_json false (TObj fs) j = Some v -> find (fun f => String.eqb (fst f) k) fs = Some e -> fst (snd e) = TVec t -> snd (snd e) = Some (XVec []) ->
    Forall2 read_as (at_path [k] j) (as_vec f (jfield (TObj fs) k v)).
  Proof.
    intros fs j v e E F Ht Hd. destruct (vec_field fs j v k e E F t Ht Hd) as (vs & -> & G). cbn [as_vec]. clear - G. induction G as [|j' y l ys H _ IH]; [constructor|]. cbn [map]. constructor; [|exact IH]. exists y. auto.
  Qed.
  Lemma tag_as : forall j v, read_json false (j_tag k t) j = Some v -> Forall2 read_as (at_path [k] j) (inner_of k t f v).
  Proof.
    intros j v E. unfold inner_of. unfold j_tag in *. eapply vec_as; [exact E|cbn [find fst dfl]; rewrite String.eqb_refl; reflexivity|reflexivity|reflexivity].
  Qed.
  Lemma tag_field : forall fs j v e, read_json false (TObj fs) j = Some v -> find (fun f => String.eqb (fst f) k') fs = Some e -> fst (snd e) = j_tag k t -> snd (snd e) = Some empty_tag ->
    Forall2 read_as (at_path [k'; k] j) (inner_of k t f (jfield (TObj fs) k' v)).
  Proof.
    intros fs j v e E F Ht Hd. destruct (field_read fs j v k' e E F) as (m & -> & H). rewrite Ht, Hd in H. rewrite at_two, at_one. destruct H as [(j' & J & R)|[J R]]; rewrite J.
    - assert (O : exists m', j' = JObj m') by (destruct j'; try discriminate; eauto). destruct O as (m' & ->). cbn [flat_map elements]. cbn [app flat_map]. rewrite app_nil_r. exact (tag_as _ _ R).
    - assert (X : jfield (TObj fs) k' v = empty_tag) by (cbn [missing] in R; congruence). rewrite X. unfold inner_of, j_tag, empty_tag. cbn [jfield pick_field fst dfl]. rewrite String.eqb_refl. constructor.
  Qed.
  Lemma opt_tag_field : forall fs j v e, read_json false (TObj fs) j = Some v -> find (fun f => String.eqb (fst f) k') fs = Some e -> fst (snd e) = TOpt (j_tag k t) -> snd (snd e) = Some (XOpt None) ->
    Forall2 read_as (at_path [k'; k] j) (match as_opt (inner_of k t f) (jfield (TObj fs) k' v) with Some l => l | None => [] end).
  Proof.
    intros fs j v e E F Ht Hd. destruct (opt_field fs j v k' e E F _ Ht (or_intror Hd)) as (m & -> & [(j' & y & J & X & R)|(X & [J|J])]); rewrite at_two, at_one, J, X; cbn [as_opt]; [|constructor|constructor].
    assert (O : exists m', j' = JObj m') by (destruct j'; try discriminate; eauto). destruct O as (m' & ->). cbn [flat_map elements app]. rewrite app_nil_r. exact (tag_as _ _ R).
  Qed.
End Lists.

(** ** Names of commands *)
Fixpoint first_named (a i : Z) (l : list (Z * Z * string)) : option string :=
  match l with [] => None | (a', i', s) :: l' => if (a =? a') && (i =? i') then Some s else first_named a i l' end.
Lemma first_app : forall a i l l', first_named a i (l ++ l') = match first_named a i l with Some s => Some s | None => first_named a i l' end.
Proof. intros a i l l'. induction l as [|[[a' i'] s] l IH]; [reflexivity|]. cbn [app first_named]. destruct (_ && _); [reflexivity|exact IH]. Qed.
Lemma first_command_named : forall a i l, command_named a i l (match first_named a i l with Some s => s | None => "" end).
Proof.
  intros a i l. induction l as [|[[a' i'] s] l IH]; [constructor|]. cbn [first_named]. destruct (Z.eqb_spec a a') as [<-|N]; cbn [andb]; [destruct (Z.eqb_spec i i') as [<-|N]|]; constructor; try exact IH; congruence.
Qed.
Lemma command_named_one : forall a i l s s', command_named a i l s -> command_named a i l s' -> s = s'.
Proof. intros a i l s s' H. revert s'. induction H as [|s l|a' i' s0 l s N H IH]; intros s' K; inversion K; subst; auto; congruence. Qed.
Definition read_command := @read_as bal_command view_command j_Command.
Lemma ability_commands : forall a j y, read_as view_ability j_Ability j y -> forall i l,
  ability_loop a i (y :: l) = match first_named a i (flat_map (fun c => one_command (number_at "@index" j) (number_at "@index" c) (text_at "@id" j ++ "." ++ text_at "@id" c)%string) (at_path ["command"] j)) with
    | Some s => Some s | None => ability_loop a i l end.
Proof.
  intros a j y (v & E & ->) i l. cbn [ability_loop view_ability ba_index ba_id ba_commands]. unfold j_Ability in *.
  rewrite (opt_num_field _ _ _ "@index" _ E eq_refl 0 65535 eq_refl (or_introl eq_refl)).
  rewrite (str_field _ _ _ "@id" _ E eq_refl eq_refl).
  pose proof (vec_as view_command "command" j_Command _ _ _ _ E eq_refl eq_refl eq_refl) as G. set (vs := as_vec view_command _) in *. clearbody vs. clear E v.
  destruct (number_at "@index" j) as [n|]; [|clear; induction (at_path ["command"] j) as [|c cs IH]; [reflexivity|exact IH]].
  destruct (Z.eqb_spec n a) as [->|N]; cbn [negb].
  - replace (first_named a i _) with (command_loop (text_at "@id" j) i vs); [reflexivity|]. induction G as [|c y cs ys (v & E & ->) _ IH]; [reflexivity|]. unfold j_Command in E.
    cbn [flat_map command_loop]. rewrite first_app. unfold view_command at 1 2. cbn [bc_index bc_id].
    pose proof (num_field _ _ _ "@index" _ E eq_refl _ _ eq_refl) as Q. unfold j_Command at 1. rewrite Q. cbn [one_command first_named]. rewrite Z.eqb_refl. cbn [andb].
    pose proof (opt_str_field _ _ _ "@id" _ E eq_refl eq_refl (or_intror eq_refl)) as S. unfold j_Command. rewrite S.
    destruct (i =? _); [reflexivity|]. exact IH.
  - match goal with |- _ = match ?o with _ => _ end => assert (X : o = None); [|now rewrite X] end. clear G. induction (at_path ["command"] j) as [|c cs IH]; [reflexivity|]. cbn [flat_map]. rewrite first_app, IH.
    destruct (number_at "@index" c); [|reflexivity]. cbn [one_command first_named]. destruct (Z.eqb_spec a n); [congruence|reflexivity].
Qed.
Lemma abilities_commands : forall a i js ys, Forall2 (read_as view_ability j_Ability) js ys ->
  ability_loop a i ys = first_named a i (flat_map (fun j => flat_map (fun c => one_command (number_at "@index" j) (number_at "@index" c) (text_at "@id" j ++ "." ++ text_at "@id" c)%string) (at_path ["command"] j)) js).
Proof. intros a i js ys G. induction G as [|j y js ys H _ IH]; [reflexivity|]. rewrite (ability_commands a j y H). cbn [flat_map]. rewrite first_app. now rewrite IH. Qed.
Lemma refs_commands : forall p a i js ys, Forall2 (read_as view_ref j_UnitRef) js ys ->
  ref_loop p a i ys = first_named a i (flat_map (fun r => one_command (number_at "@ability" r) (number_at "@index" r) (p ++ text_at "@id" r)%string) js).
Proof.
  intros p a i js ys G. induction G as [|j y js ys (v & E & ->) _ IH]; [reflexivity|]. cbn [flat_map ref_loop view_ref br_ability br_command br_id]. unfold j_UnitRef in *. rewrite first_app.
  rewrite (opt_num_field _ _ _ "@ability" _ E eq_refl _ _ eq_refl (or_introl eq_refl)).
  rewrite (opt_num_field _ _ _ "@index" _ E eq_refl _ _ eq_refl (or_introl eq_refl)).
  rewrite (str_field _ _ _ "@id" _ E eq_refl eq_refl).
  destruct (number_at "@ability" j) as [x|]; [|exact IH]. destruct (number_at "@index" j) as [z|]; [|exact IH]. cbn [one_command first_named]. destruct (_ && _); [reflexivity|exact IH].
Qed.
Lemma research_commands : forall a i js ys, Forall2 (read_as view_research j_ResearchUpgrade) js ys ->
  research_loop a i ys = first_named a i (flat_map (fun r => one_command (number_at "@ability" r) (number_at "@index" r) ("Research." ++ text_at "@id" r)%string) js).
Proof.
  intros a i js ys G. induction G as [|j y js ys (v & E & ->) _ IH]; [reflexivity|]. cbn [flat_map research_loop view_research bs_ability bs_index bs_id]. unfold j_ResearchUpgrade in *. rewrite first_app.
  rewrite (num_field _ _ _ "@ability" _ E eq_refl _ _ eq_refl), (num_field _ _ _ "@index" _ E eq_refl _ _ eq_refl), (str_field _ _ _ "@id" _ E eq_refl eq_refl).
  cbn [one_command first_named]. destruct (_ && _); [reflexivity|exact IH].
Qed.
Lemma strict_says : forall j v, read_json false j_unit j = Some v -> says j (unit_view v).
Proof.
  intros j v E. split.
  - unfold unit_view, file_radius. cbn [bu_radius]. unfold j_unit in *. destruct (field_read _ _ _ "misc" _ E eq_refl) as (m & -> & [(j' & J & R)|[_ R]]); [|discriminate]. cbn [fst snd fld] in R.
    rewrite at_two, at_one, J. assert (O : exists m', j' = JObj m') by (destruct j'; try discriminate; eauto). destruct O as (m' & ->). cbn [flat_map elements app]. rewrite app_nil_r. unfold j_Misc in *.
    destruct (opt_field _ _ _ "@radius" _ R eq_refl TF32 eq_refl (or_introl eq_refl)) as (m2 & Em & [(j2 & y & J2 & X & R2)|(X & [J2|J2])]); injection Em as <-; rewrite at_one, J2; setoid_rewrite X; [|reflexivity|reflexivity].
    destruct j2; try discriminate; injection R2 as <-; reflexivity.
  - intros b n a i Hb. unfold get_indexed_ability_command_name. rewrite Hb. unfold unit_view. cbn [bu_abilities bu_trains bu_builds bu_researches]. unfold j_unit in *.
    rewrite (abilities_commands a i _ _ (tag_field view_ability "ability" "abilities" j_Ability _ _ _ _ E eq_refl eq_refl eq_refl)).
    rewrite (refs_commands "Train." a i _ _ (tag_field view_ref "unit" "trains" j_UnitRef _ _ _ _ E eq_refl eq_refl eq_refl)).
    rewrite (refs_commands "Build." a i _ _ (tag_field view_ref "unit" "builds" j_UnitRef _ _ _ _ E eq_refl eq_refl eq_refl)).
    pose proof (research_commands a i _ _ (opt_tag_field view_research "upgrade" "researches" j_ResearchUpgrade _ _ _ _ E eq_refl eq_refl eq_refl)) as Q.
    set (o := as_opt _ _) in *. replace (match o with Some rs => match research_loop a i rs with Some s => s | None => "" end | None => "" end)
      with (match research_loop a i (match o with Some l => l | None => [] end) with Some s => s | None => "" end) by (destruct o; reflexivity). rewrite Q. clear o Q.
    pose proof (first_command_named a i (file_commands j)) as K. unfold file_commands in K at 2. rewrite !first_app in K.
    destruct (first_named a i (flat_map _ (at_path ["abilities"; "ability"] j))); [exact K|]. destruct (first_named a i (flat_map _ (at_path ["trains"; "unit"] j))); [exact K|].
    destruct (first_named a i (flat_map _ (at_path ["builds"; "unit"] j))); exact K.
Qed.

Lemma unit_says : forall j v, from_value j_unit j = Some v -> says (by_name j) (unit_view v).
Proof. intros j v E. apply strict_says. now rewrite <- unit_by_name. Qed.
Lemma typed_field : forall fs v k e, has_type (TObj fs) v -> find (fun f => String.eqb (fst f) k) fs = Some e -> has_type (fst (snd e)) (jfield (TObj fs) k v).
Proof.
  intros fs v k e H F. inversion H as [| | | | | |fs' vs Hv]; subst. cbn [jfield]. clear H. revert F. induction Hv as [|f x fs vs Hx _ IH]; intros F; [discriminate|]. cbn [find pick_field] in *.
  destruct (String.eqb (fst f) k); [injection F as <-; exact Hx|exact (IH F)].
Qed.
Lemma opt_float_valid : forall x r, has_type (TOpt TF32) x -> as_opt as_float x = Some r -> f32_valid r = true.
Proof. intros x r T R. inversion T as [| | |t|t w W| |]; subst; [discriminate|]. inversion W; subst. cbn [as_opt as_float] in R. congruence. Qed.
Lemma unit_float : forall v r, is_unit v -> bu_radius (unit_view v) = Some r -> f32_valid r = true.
Proof.
  intros v r H R. unfold unit_view in R. cbn [bu_radius] in R. unfold is_unit, j_unit in *. pose proof (typed_field _ v "misc" _ H eq_refl) as M. cbn [fst snd fld] in M. unfold j_Misc in *.
  pose proof (typed_field _ _ "@radius" _ M eq_refl) as T. cbn [fst snd fld] in T. exact (opt_float_valid _ _ T R).
Qed.

(** ** The units of a directory *)
Lemma viewed_find : forall (view : jval -> bal_unit) ver n (m : units jval), find_balance ver n (map (fun e => (fst e, view (snd e))) m) = option_map view (uget (ver, n) m).
Proof.
  intros view ver n m. induction m as [|[[v' n'] u] m IH]; [reflexivity|]. cbn [map fst snd find_balance uget]. unfold key_eqb. cbn [fst snd]. destruct (_ && _); [reflexivity|exact IH].
Qed.
Lemma viewed_unit : forall (os : outside jval) ver n m, sget n (balance_of_version ver (viewed os m)) = option_map (os_view os) (uget (ver, n) m).
Proof. intros os ver n m. rewrite balance_lookup. apply viewed_find. Qed.
Lemma text_unit : forall parse c v, unit_of_text parse c = Some v -> exists j, parse c = Some j /\ from_value j_unit j = Some v.
Proof. intros parse c v E. unfold unit_of_text in E. destruct (parse c) as [j|]; [eauto|discriminate]. Qed.
Section Program.
  Variables (os : outside jval) (parse : list Z -> option json) (order : dir_order) (ds : dirs) (a : program_args) (d : disk) (m : units jval).
  Hypothesis Hd : os_dec os = unit_of_text parse.
  Hypothesis Hv : os_view os = unit_view.
  Hypothesis Hg : good_disk d.
  Hypothesis Hf : balance_files os order ds a d.
  Hypothesis E : balance_data os order ds a = Ok m.
  Lemma loaded_from : (forall k u, uget k m = Some u -> exists s f c, unit_file d k s f c /\ unit_of_text parse c = Some u) /\ (forall k s f c, unit_file d k s f c -> uget k m <> None).
  Proof.
    unfold balance_data in E. rewrite Hd in E. destruct Hf as [(A & P)|(A & B & Ho)].
    - rewrite A in E. cbn [String.eqb] in E. destruct (fail_together (unit_of_text parse) d (fun _ l => l) (os_assets os) Hg) as (_ & F & _); [intros ? ?; apply Permutation_refl|exact P|].
      pose proof (proj1 F (ex_intro _ m E)) as K. destruct (assets_read (unit_of_text parse) d (os_assets os) Hg P K) as (m' & E' & H1 & H2 & _). assert (m' = m) as -> by congruence. auto.
    - apply String.eqb_neq in A. rewrite A, B in E. exact (from_files (unit_of_text parse) d order m Hg Ho E).
  Qed.
  Lemma loaded_says :
    (forall ver n u, sget n (balance_of_version ver (viewed os m)) = Some u -> exists s f c j, unit_file d (ver, n) s f c /\ parse c = Some j /\ says (by_name j) u) /\
    (forall ver n s f c, unit_file d (ver, n) s f c -> sget n (balance_of_version ver (viewed os m)) <> None).
  Proof.
    destruct loaded_from as [A B]. split.
    - intros ver n u Q. rewrite viewed_unit, Hv in Q. destruct (uget (ver, n) m) as [v|] eqn:U; [|discriminate]. injection Q as <-. destruct (A _ _ U) as (s & f & c & F & D). apply text_unit in D as (j & P & R).
      exists s, f, c, j. split; [exact F|]. split; [exact P|]. exact (unit_says _ _ R).
    - intros ver n s f c F Q. rewrite viewed_unit, Hv in Q. destruct (uget (ver, n) m) eqn:U; [discriminate|]. exact (B _ _ _ _ F U).
  Qed.
  Lemma loaded_floats : forall ver, float_radii (balance_of_version ver (viewed os m)).
  Proof.
    intros ver n u r Q R. rewrite viewed_unit, Hv in Q. destruct (uget (ver, n) m) as [v|] eqn:U; [|discriminate]. injection Q as <-. destruct (proj1 loaded_from _ _ U) as (s & f & c & _ & D). apply text_unit in D as (j & _ & D).
    exact (unit_float v r (unit_typed j v D) R).
  Qed.
End Program.
