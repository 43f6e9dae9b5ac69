(** * How runs of [generate] end *)
From Coq Require Import Ascii Lia.
From Verif Require Import Base BalanceJson ConvertSpec GenerateRun GenerateSpec GenerateFacts GenerateTexts GenerateTags GenerateNames.
#[local] Open Scope string_scope.
#[local] Open Scope Z_scope.
#[local] Open Scope list_scope.

(** No JSON text is empty. *)
Definition json_parser (su : surroundings) : Prop := su_parse su "" = None.
(** What [Value::to_string] gives for a plain text. *)
Definition shows_text (su : surroundings) : Prop := forall s, all_plain s = true -> su_show su (JStr s) = String quote (s ++ String quote "").
(** A definition that has all a run looks at. *)
Definition definition_fine (doc : json) : Prop := exists mods, modules_of doc = Ok mods /\ tags_fine mods /\ shape_fine mods.

Lemma put_same f c fs : put_file f c fs f = Some c.
Proof. unfold put_file. now rewrite String.eqb_refl. Qed.
Lemma put_other f c fs g : g <> f -> put_file f c fs g = fs g.
Proof. intros D. apply String.eqb_neq in D. unfold put_file. now rewrite D. Qed.

(** All the ways a run can end. *)
Lemma generate_ends su source output fs o fs' : json_parser su -> generate su source output fs = (o, fs') ->
  (fs' = fs /\ ((o = Panic /\ forall n, proto_number su source <> Ok n) \/ (o = Err (EOther "io") /\ su_creates su (su_place su output) = false))) \/
  (exists num, proto_number su source = Ok num /\ su_creates su (su_place su output) = true /\
    ((o = Panic /\ fs' = put_file (su_place su output) "" fs /\
      (su_reads su (su_place su source) = false \/ su_place su source = su_place su output \/ fs (su_place su source) = None \/
       exists text, fs (su_place su source) = Some text /\ su_parse su text = None)) \/
     (exists text doc out, su_reads su (su_place su source) = true /\ su_place su source <> su_place su output /\
        fs (su_place su source) = Some text /\ su_parse su text = Some doc /\ gen_rest su source num doc = (o, out) /\
        fs' = put_file (su_place su output) out (put_file (su_place su output) "" fs)))).
Proof.
  intros J E. unfold generate in E. destruct (proto_number su source) as [num|e|] eqn:PN.
  2: { exfalso. unfold proto_number in PN. destruct (file_name source); cbn [or_panic obind] in PN; [|discriminate PN]. now apply or_panic_not_err in PN. }
  2: { injection E as <- <-. left. split; [reflexivity|]. left. split; [reflexivity | intros n; discriminate]. }
  destruct (su_creates su (su_place su output)) eqn:C; cbn [negb] in E.
  2: { injection E as <- <-. left. split; [reflexivity|]. now right. }
  right. exists num. split; [reflexivity|]. split; [reflexivity|].
  destruct (su_reads su (su_place su source)) eqn:R.
  2: { injection E as <- <-. left. auto. }
  destruct (String.eqb (su_place su source) (su_place su output)) eqn:S.
  { apply String.eqb_eq in S. rewrite S, put_same in E. unfold json_parser in J. rewrite J in E. injection E as <- <-. left. auto. }
  apply String.eqb_neq in S. rewrite (put_other _ _ _ _ S) in E.
  destruct (fs (su_place su source)) as [text|] eqn:F.
  2: { injection E as <- <-. left. auto 6. }
  destruct (su_parse su text) as [doc|] eqn:P.
  2: { injection E as <- <-. left. split; [reflexivity|]. split; [reflexivity|]. right. right. right. now exists text. }
  right. destruct (gen_rest su source num doc) as [o' out] eqn:G. injection E as -> <-.
  exists text, doc, out. auto 10.
Qed.

Lemma generate_ok su source output fs fs' : json_parser su ->
  generate su source output fs = (Ok tt, fs') <->
  exists num text doc out,
    proto_number su source = Ok num /\ su_creates su (su_place su output) = true /\ su_reads su (su_place su source) = true /\
    su_place su source <> su_place su output /\ fs (su_place su source) = Some text /\ su_parse su text = Some doc /\ definition_fine doc /\
    gen_text su source num doc out /\ (String.length out <= su_room su)%nat /\
    fs' = put_file (su_place su output) out (put_file (su_place su output) "" fs).
Proof.
  intros J. split.
  - intros E. apply generate_ends in E; [|exact J].
    destruct E as [(_ & [[E _]|[E _]])|(num & PN & C & [[E _]|(text & doc & out & R & S & F & P & G & ->)])]; try discriminate E.
    apply gen_rest_ok in G. destruct G as (A & B & D). exists num, text, doc, out. auto 12.
  - intros (num & text & doc & out & PN & C & R & S & F & P & D & T & Ro & ->). unfold generate. rewrite PN, C, R. cbn [negb].
    rewrite (put_other _ _ _ _ S), F, P. rewrite (proj2 (gen_rest_ok su source num doc out)); [reflexivity|]. auto.
Qed.
Lemma generate_contents su source output fs fs' : json_parser su -> generate su source output fs = (Ok tt, fs') ->
  exists num text doc mods texts,
    proto_number su source = Ok num /\ fs (su_place su source) = Some text /\ su_parse su text = Some doc /\ modules_of doc = Ok mods /\
    Forall2 (piece_text su num (struct_for su mods)) (module_pieces source mods) texts /\
    fs' (su_place su output) = Some (String.concat "" texts) /\
    forall f, f <> su_place su output -> fs' f = fs f.
Proof.
  intros J E. apply generate_ok in E; [|exact J].
  destruct E as (num & text & doc & out & N & _ & _ & S & F & P & _ & (mods & texts & M & T & ->) & _ & ->).
  exists num, text, doc, mods, texts. repeat (split; [assumption|]). rewrite put_same. split; [reflexivity|].
  intros f D. now rewrite !put_other.
Qed.

Lemma generate_fails su source output fs o fs' : json_parser su -> generate su source output fs = (o, fs') -> o <> Ok tt ->
  (fs' = fs /\ ((forall n, proto_number su source <> Ok n) \/ su_creates su (su_place su output) = false)) \/
  ((forall f, f <> su_place su output -> fs' f = fs f) /\
   exists out, fs' (su_place su output) = Some out /\
     (out = "" \/ exists num text doc mods k texts rest,
        proto_number su source = Ok num /\ fs (su_place su source) = Some text /\ su_parse su text = Some doc /\ modules_of doc = Ok mods /\
        Forall2 (piece_text su num (struct_for su mods)) (firstn k (module_pieces source mods)) texts /\
        String.concat "" texts = (out ++ rest)%string)).
Proof.
  intros J E N. apply generate_ends in E; [|exact J].
  destruct E as [(-> & [[_ E]|[_ E]])|(num & PN & C & [(_ & -> & _)|(text & doc & out & R & S & F & P & G & ->)])].
  - left. auto.
  - left. auto.
  - right. split; [intros f D; now apply put_other|]. exists "". split; [apply put_same | now left].
  - right. split; [intros f D; now rewrite !put_other|]. exists out. split; [apply put_same|].
    apply gen_rest_fail in G; [|exact N]. destruct G as [G|(mods & k & texts & M & T & rest & X)]; [now left|]. right.
    exists num, text, doc, mods, k, texts, rest. auto 10.
Qed.

(** When a run is an error and when a panic. *)
Lemma generate_error su source output fs e fs' : json_parser su -> generate su source output fs = (Err e, fs') ->
  (fs' = fs /\ su_creates su (su_place su output) = false) \/
  (exists text doc num, fs (su_place su source) = Some text /\ su_parse su text = Some doc /\ proto_number su source = Ok num /\
     forall out, gen_text su source num doc out -> (su_room su < String.length out)%nat).
Proof.
  intros J E. apply generate_ends in E; [|exact J].
  destruct E as [(-> & [[E _]|[_ E]])|(num & PN & C & [[E _]|(text & doc & out & R & S & F & P & G & ->)])]; try discriminate E; [now left|].
  right. exists text, doc, num. repeat (split; [assumption|]). intros out' T.
  destruct (le_lt_dec (String.length out') (su_room su)) as [L|L]; [|exact L]. exfalso.
  (* everything fits: then no piece can be an error *)
  rewrite gen_rest_steps in G. destruct (collect_enum_tags su doc) as [tags|e'|] eqn:CT; [|exact (collect_enum_tags_not_err _ _ _ CT)|discriminate G].
  destruct (collect_enum_tags_ok su doc tags CT) as (mods & M & TF & Lk). rewrite M in G.
  destruct T as (mods' & texts & M' & F2 & ->). assert (mods' = mods) as -> by congruence.
  assert (Cl : Forall2 (step_text su num tags) (clean (file_steps source mods)) texts).
  { rewrite clean_file_steps. apply (proj2 (Forall2_map_l _ _ _ _)). revert F2. apply Forall2_imp. intros p s. cbn [step_text].
    apply piece_text_same. intros k. symmetry. apply Lk. }
  assert (Gen : forall l texts out o1 out1, fits su (out ++ String.concat "" texts) -> Forall2 (step_text su num tags) (clean l) texts ->
            run_steps su num tags l out = (o1, out1) -> forall e, o1 <> Err e).
  { clear. induction l as [|g l IH]; intros texts out o1 out1 Fi F R e; cbn [run_steps] in R; [injection R as <- _; discriminate|].
    destruct g as [|p]; [cbn [run_step and_then] in R; injection R as <- _; discriminate|].
    rewrite clean_piece in F. inversion F as [|g0 s l0 texts' T F']; subst. rewrite sconcat_cons in Fi. rewrite <- sapp_assoc in Fi.
    pose proof (fits_app su _ _ Fi) as Fs. pose proof (fits_app su _ _ Fs) as F0.
    destruct (run_step_cases su num tags (GPiece p) out F0) as [(s' & T' & _ & E)|[(s' & p' & r & T' & N & _ & E)|(N & E)]]; rewrite E in R; cbn [and_then] in R.
    - rewrite (step_text_unique su num tags _ _ _ T' T) in R. exact (IH texts' _ _ _ Fi F' R e).
    - rewrite (step_text_unique su num tags _ _ _ T' T) in N. contradiction.
    - exfalso. exact (N _ T). }
  refine (Gen _ _ "" _ _ _ Cl G e eq_refl). exact L.
Qed.

(** The definition given as the output too. *)
Lemma generate_onto_itself su source output fs n : json_parser su -> proto_number su source = Ok n ->
  su_place su source = su_place su output -> su_creates su (su_place su output) = true ->
  exists fs', generate su source output fs = (Panic, fs') /\ fs' (su_place su source) = Some "".
Proof.
  intros J PN S C. destruct (generate su source output fs) as [o fs'] eqn:E. pose proof E as E0. apply generate_ends in E; [|exact J].
  destruct E as [(_ & [[_ E]|[_ E]])|(num & PN' & _ & [(-> & -> & _)|(text & doc & out & R & S' & _)])].
  - exfalso. exact (E n PN).
  - congruence.
  - eexists. split; [reflexivity|]. rewrite S. apply put_same.
  - contradiction.
Qed.

(** ** Events *)

(** [tags_with d enum v]: the struct [d] has the constant [enum.v]. *)
Definition tags_with (d : json) (enum v : string) : Prop :=
  is_struct d = true /\ exists f, In f (fields_of d) /\ is_const f = true /\
    at_key "fullname" (at_key "type_info" f) = JStr enum /\ at_key "fullname" (at_key "value" f) = JStr (enum ++ "." ++ v)%string.
(** The name of the enum does not come again in that of its variant. *)
Definition apart (enum v : string) : Prop := without enum ("." ++ v)%string = ("." ++ v)%string.

Lemma event_key_of su f enum v : enum <> "" -> apart enum v ->
  at_key "fullname" (at_key "type_info" f) = JStr enum -> at_key "fullname" (at_key "value" f) = JStr (enum ++ "." ++ v)%string ->
  event_key su f = (rust_name su enum ++ "::" ++ rust_name su v)%string.
Proof.
  intros N A E1 E2. unfold event_key. rewrite E1, E2. cbn [as_text]. rewrite without_self by exact N. rewrite A.
  change ("." ++ v)%string with (String "." v). now rewrite rust_name_dot.
Qed.
Lemma all_tags_in mods d enum v : In d (taggable mods) -> tags_with d enum v -> exists f, In (f, d) (all_tags mods) /\
  at_key "fullname" (at_key "type_info" f) = JStr enum /\ at_key "fullname" (at_key "value" f) = JStr (enum ++ "." ++ v)%string.
Proof.
  intros I (S & f & If & C & E1 & E2). exists f. split; [|auto]. unfold all_tags. apply in_flat_map. exists d. split; [apply filter_In; auto|].
  apply in_map_iff. exists f. split; [reflexivity|]. apply filter_In. auto.
Qed.
(** The variant of an event enum holds the struct tagged with it, if no struct
    before it has a tag of the same Rust name. *)
Lemma event_struct su mods d enum v full pre post :
  shows_text su -> enum <> "" -> all_plain enum = true -> apart enum v ->
  taggable mods = pre ++ d :: post -> tags_with d enum v -> at_key "fullname" d = JStr full -> all_plain full = true ->
  (forall d' f, In d' pre -> is_struct d' = true -> In f (fields_of d') -> is_const f = true -> event_key su f <> (rust_name su enum ++ "::" ++ rust_name su v)%string) ->
  struct_for su mods (rust_name su (su_show su (JStr enum)) ++ "::" ++ rust_name su v)%string = Some (rust_name su full).
Proof.
  intros Sh N P A T W F PF Fst. rewrite (Sh enum P), rust_name_quoted. set (key := (rust_name su enum ++ "::" ++ rust_name su v)%string) in *.
  unfold struct_for, all_tags. rewrite T, filter_app, flat_map_app.
  assert (Skip : forall l l', (forall e, In e l -> event_key su (fst e) <> key) ->
    find (fun e : json * json => String.eqb (event_key su (fst e)) key) (l ++ l') = find (fun e : json * json => String.eqb (event_key su (fst e)) key) l').
  { induction l as [|e l IH]; intros l' H; cbn [List.app find]; [reflexivity|]. destruct (String.eqb (event_key su (fst e)) key) eqn:E.
    - apply String.eqb_eq in E. exfalso. exact (H e (or_introl eq_refl) E).
    - apply IH. intros e' I. apply H. now right. }
  rewrite Skip.
  2: { intros e I. apply in_flat_map in I. destruct I as (d' & Id & I). apply filter_In in Id. destruct Id as (Id & S'). apply in_map_iff in I. destruct I as (f & <- & If).
       apply filter_In in If. destruct If as (If & Cf). cbn [fst]. exact (Fst d' f Id S' If Cf). }
  destruct W as (S & f & If & C & E1 & E2). cbn [filter]. rewrite S. cbn [flat_map].
  assert (Fd : forall fs l', In f fs -> exists f', find (fun e : json * json => String.eqb (event_key su (fst e)) key) (map (fun f => (f, d)) (filter is_const fs) ++ l') = Some (f', d)).
  { induction fs as [|g fs IH]; intros l' Ig; [destruct Ig|]. cbn [filter].
    destruct (is_const g) eqn:Cg; cbn [map List.app find fst].
    - destruct (String.eqb (event_key su g) key) eqn:K; [now exists g|]. destruct Ig as [->|Ig]; [|now apply IH].
      exfalso. apply String.eqb_neq in K. apply K. now apply event_key_of.
    - destruct Ig as [->|Ig]; [congruence | now apply IH]. }
  destruct (Fd (fields_of d) (flat_map (fun d0 => map (fun f => (f, d0)) (filter is_const (fields_of d0))) (filter is_struct post)) If) as (f' & ->).
  cbn [snd]. rewrite F, (Sh full PF), rust_name_quoted. reflexivity.
Qed.
(** A struct that comes later with the same tag is not heard of. *)
Lemma second_struct su : shows_text su -> su_pascal su "GameSA" <> su_pascal su "GameSB" ->
  ~ (forall mods d full enum v, In d (taggable mods) -> tags_with d enum v -> tags_fine mods -> at_key "fullname" d = JStr full ->
       struct_for su mods (rust_name su enum ++ "::" ++ rust_name su v)%string = Some (rust_name su full)).
Proof.
  intros Sh D H.
  set (c := JObj [("type", JStr "ConstDecl"); ("type_info", JObj [("fullname", JStr "NNet.Game.EEventId")]);
        ("value", JObj [("type", JStr "IdentifierExpr"); ("fullname", JStr "NNet.Game.EEventId.EBankFile")])]).
  set (s := fun n => JObj [("fullname", JStr n); ("type_info", JObj [("type", JStr "StructType"); ("fields", JArr [c])])]).
  set (mods := [JObj [("fullname", JStr "NNet.Game"); ("decls", JArr [s "NNet.Game.SA"; s "NNet.Game.SB"])]]).
  assert (W : forall n, tags_with (s n) "NNet.Game.EEventId" "EBankFile").
  { intros n. split; [reflexivity|]. exists c. split; [now left|]. repeat split. }
  assert (Fine : tags_fine mods).
  { split; [intros m [<-|[]] _; eexists; reflexivity|]. intros d [<-|[<-|[]]] _; (split; [eexists; reflexivity|]); intros f [<-|[]];
      (split; [eexists; reflexivity|]); intros _; (split; [eexists; reflexivity|]; split; [reflexivity | eexists; reflexivity]). }
  pose proof (H mods (s "NNet.Game.SA") "NNet.Game.SA" "NNet.Game.EEventId" "EBankFile" (or_introl eq_refl) (W _) Fine eq_refl) as A.
  pose proof (H mods (s "NNet.Game.SB") "NNet.Game.SB" "NNet.Game.EEventId" "EBankFile" (or_intror (or_introl eq_refl)) (W _) Fine eq_refl) as B.
  rewrite A in B. apply D. injection B as B. unfold rust_name in B. exact B.
Qed.

(** ** What the file says about an event *)
Definition holds_text (s t : string) : Prop := exists a b, t = (a ++ s ++ b)%string.
Lemma holds_concat s l : In s l -> holds_text s (String.concat "" l).
Proof.
  intros I. apply in_split in I. destruct I as (l1 & l2 & ->). exists (String.concat "" l1), (String.concat "" l2).
  now rewrite sconcat_app, sconcat_cons.
Qed.
Lemma holds_trans r s t : holds_text r s -> holds_text s t -> holds_text r t.
Proof. intros (a & b & ->) (c & d & ->). exists (c ++ a)%string, (b ++ d)%string. now rewrite !sapp_assoc. Qed.
Lemma holds_in s t : forall a b, t = (a ++ s ++ b)%string -> holds_text s t.
Proof. intros a b E. now exists a, b. Qed.

(** The enum [d] of name [enum] has the variant [v] with the number [n]. *)
Definition has_variant (d : json) (enum v n : string) : Prop :=
  (exists t, at_key "type" d = JStr t /\ t <> "ConstDecl") /\ at_key "type" (at_key "type_info" d) = JStr "EnumType" /\ at_key "fullname" d = JStr enum /\
  exists x, In x (fields_of d) /\ at_key "name" x = JStr v /\ at_key "value" (at_key "value" x) = JStr n.

Lemma enum_in_file su source output fs fs' dec d enum v n :
  json_parser su -> generate su source output fs = (Ok tt, fs') -> has_variant d enum v n ->
  exists text doc mods out, fs (su_place su source) = Some text /\ su_parse su text = Some doc /\ modules_of doc = Ok mods /\ fs' (su_place su output) = Some out /\
    (In d (wanted_of dec mods) ->
     let payload := struct_for su mods (rust_name su (su_show su (JStr enum)) ++ "::" ++ rust_name su v)%string in
     holds_text (variant_line (rust_name su v) payload) out /\ holds_text (variant_arm n (rust_name su v) payload) out).
Proof.
  intros J E ((t & T & NC) & U & Full & x & Ix & Nx & Vx). apply generate_contents in E; [|exact J].
  destruct E as (num & text & doc & mods & texts & PN & F & P & M & F2 & O & _).
  exists text, doc, mods, (String.concat "" texts). repeat (split; [assumption|]). intros W payload.
  assert (Ip : In (CodeOf dec d) (module_pieces source mods)).
  { unfold module_pieces. destruct dec.
    - apply in_or_app. right. apply in_or_app. left. now apply in_map.
    - apply in_or_app. right. apply in_or_app. right. apply in_or_app. right. apply in_or_app. left. now apply in_map. }
  assert (Ex : exists s, In s texts /\ declaration_text su num (struct_for su mods) dec d s).
  { clear - F2 Ip. induction F2 as [|p s ps ss PT F2 IH]; [destruct Ip|]. destruct Ip as [->|Ip].
    - exists s. split; [now left|]. now inversion PT.
    - destruct (IH Ip) as (s' & I & D). exists s'. split; [now right | exact D]. }
  destruct Ex as (s & Is & D). pose proof (holds_concat s texts Is) as H.
  inversion D as [C|t' unit name kw inner impl E1 C E2 N K B]; subst s; [congruence|].
  assert (unit = "EnumType") by congruence. subst unit. destruct B as [(_ & vs & ts & A & F3 & Inn & Imp)|[B _]]; [|congruence].
  assert (Ev : exists t, In t ts /\ t = (variant_line (rust_name su v) payload, variant_arm n (rust_name su v) payload)).
  { unfold fields_of in Ix. rewrite A in Ix. cbn [as_list listed] in Ix. clear - F3 Ix Nx Vx Full.
    induction F3 as [|y t vs ts OV F3 IH]; [destruct Ix|]. destruct Ix as [->|Ix].
    - exists t. split; [now left|]. destruct OV as (n' & v' & X1 & X2 & _ & ->). assert (n' = v) by congruence. assert (v' = n) by congruence. subst n' v'.
      subst payload. rewrite Full. reflexivity.
    - destruct (IH Ix) as (t' & I & E). exists t'. split; [now right | exact E]. }
  destruct Ev as (tt0 & It & ->).
  pose proof (holds_concat _ _ (in_map fst _ _ It)) as H1. pose proof (holds_concat _ _ (in_map snd _ _ It)) as H2. cbn [fst snd] in H1, H2.
  rewrite <- Inn in H1.
  assert (H2' : holds_text (variant_arm n (rust_name su v) payload) impl).
  { rewrite Imp. eapply holds_trans; [exact H2|].
    exists (su_enum_open su dec num name (length vs)), (unknown_arm ++ su_enum_close su dec)%string. reflexivity. }
  split; (eapply holds_trans; [|exact H]).
  - eapply holds_trans; [exact H1|].
    eapply (holds_in _ _ (nl ++ "#[derive(Debug, PartialEq, Clone)]" ++ nl ++ "pub " ++ kw ++ " " ++ name ++ " {" ++ nl)%string).
    rewrite !sapp_assoc. reflexivity.
  - eapply holds_trans; [exact H2'|].
    eapply (holds_in _ _ (nl ++ "#[derive(Debug, PartialEq, Clone)]" ++ nl ++ "pub " ++ kw ++ " " ++ name ++ " {" ++ nl ++ inner ++ "}" ++ nl ++
         "impl " ++ name ++ " {" ++ nl)%string).
    rewrite !sapp_assoc. reflexivity.
Qed.
