(** * The texts [generate] writes, and the tags it collects *)
From Coq Require Import Ascii Lia.
From Verif Require Import Base BalanceJson GenerateRun GenerateSpec GenerateFacts.
#[local] Open Scope string_scope.
#[local] Open Scope Z_scope.
#[local] Open Scope list_scope.

Lemma as_text_str v s : as_text v = Some s <-> v = JStr s.
Proof. destruct v; cbn [as_text]; split; intros E; congruence. Qed.
Lemma or_panic_ok {A} (o : option A) a : or_panic o = Ok a <-> o = Some a.
Proof. destruct o; cbn [or_panic]; split; intros E; congruence. Qed.
Lemma or_panic_not_err {A} (o : option A) e : or_panic o <> Err e.
Proof. destruct o; discriminate. Qed.
Lemma is_text_str s v : is_text s v = true <-> v = JStr s.
Proof. destruct v; cbn [is_text]; try (split; discriminate). rewrite String.eqb_eq. split; congruence. Qed.

(** [String.concat ""] *)
Lemma sconcat_cons a l : String.concat "" (a :: l) = (a ++ String.concat "" l)%string.
Proof. destruct l; cbn [String.concat]; [symmetry; apply sapp_nil | reflexivity]. Qed.
Lemma sconcat_app a b : String.concat "" (a ++ b) = (String.concat "" a ++ String.concat "" b)%string.
Proof.
  induction a as [|x a IH]; cbn [List.app]; [reflexivity|]. rewrite !sconcat_cons, IH. now rewrite sapp_assoc.
Qed.

Section Texts.
  Variable su : surroundings.
  Variable num : Z.
  Variable tags : string -> option string.

  Lemma enum_texts_ok ename vs ty arms :
    enum_texts su tags ename vs = Ok (ty, arms) <->
    exists ts, Forall2 (one_variant su tags ename) vs ts /\ ty = String.concat "" (map fst ts) /\ arms = (String.concat "" (map snd ts) ++ unknown_arm)%string.
  Proof.
    revert ty arms. induction vs as [|v vs IH]; intros ty arms; cbn [enum_texts].
    - split.
      + intros E. injection E as <- <-. exists []. repeat split. constructor.
      + intros (ts & F & -> & ->). inversion F; subst. reflexivity.
    - split.
      + intros E. apply obind_ok in E. destruct E as (name & E1 & E). unfold rust_name_of in E1. apply obind_ok in E1. destruct E1 as (n & E0 & E1).
        injection E1 as <-. apply or_panic_ok, as_text_str in E0.
        apply obind_ok in E. destruct E as (value & E2 & E). apply or_panic_ok, as_text_str in E2.
        apply obind_ok in E. destruct E as (sort & E3 & E). apply or_panic_ok, as_text_str in E3.
        destruct (String.eqb sort "IntLiteral") eqn:S; cbn [negb] in E; [|discriminate E]. apply String.eqb_eq in S. subst sort.
        apply obind_ok in E. destruct E as ([ty' arms'] & E4 & E). cbn [fst snd] in E. injection E as <- <-. apply IH in E4. destruct E4 as (ts & F & -> & ->).
        eexists (_ :: ts). split; [constructor; [exists n, value; eauto | exact F]|]. cbn [map fst snd]. rewrite !sconcat_cons. split; [reflexivity|].
        symmetry. apply sapp_assoc.
      + intros (ts & F & -> & ->). inversion F as [|a t vs0 ts' (n & value & A & B & C & ->) F' E1 E2]; subst. unfold rust_name_of.
        rewrite A, B, C. cbn [as_text or_panic obind String.eqb negb].
        replace (String.eqb "IntLiteral" "IntLiteral") with true by reflexivity. cbn [negb].
        assert (R : enum_texts su tags ename vs = Ok (String.concat "" (map fst ts'), (String.concat "" (map snd ts') ++ unknown_arm)%string)).
        { apply IH. exists ts'. auto. }
        rewrite R. cbn [obind fst snd map]. rewrite !sconcat_cons, sapp_assoc. reflexivity.
  Qed.

  Lemma body_texts_ok dec d unit name inner impl :
    body_texts su num tags dec d unit name = Ok (inner, impl) <-> insides su num tags dec d unit name inner impl.
  Proof.
    unfold body_texts, insides. destruct (String.eqb unit "EnumType") eqn:U.
    - apply String.eqb_eq in U. subst unit. split.
      + intros E. apply obind_ok in E. destruct E as (vs & E1 & E). apply or_panic_ok in E1.
        apply obind_ok in E. destruct E as ([ty arms] & E2 & E). cbn [fst snd] in E. injection E as <- <-.
        apply enum_texts_ok in E2. destruct E2 as (ts & F & -> & ->). left. split; [reflexivity|]. exists vs, ts.
        split; [destruct (at_key "fields" (at_key "type_info" d)); try discriminate E1; cbn [as_list] in E1; congruence|].
        split; [exact F|]. split; [reflexivity|]. now rewrite sapp_assoc.
      + intros [(_ & vs & ts & A & F & -> & ->)|[N _]]; [|contradiction]. rewrite A. cbn [as_list or_panic obind].
        assert (R : enum_texts su tags (rust_name su (su_show su (at_key "fullname" d))) vs = Ok (String.concat "" (map fst ts), (String.concat "" (map snd ts) ++ unknown_arm)%string)).
        { apply enum_texts_ok. exists ts. auto. }
        rewrite R. cbn [obind fst snd]. now rewrite sapp_assoc.
    - apply String.eqb_neq in U. rewrite or_panic_ok. split; [auto | intros [[E _]|[_ E]]; [contradiction | exact E]].
  Qed.

  Lemma type_head_ok unit name h :
    type_head unit name = Ok h <-> exists kw, keyword unit kw /\ h = ("#[derive(Debug, PartialEq, Clone)]" ++ nl ++ "pub " ++ kw ++ " " ++ name ++ " {" ++ nl)%string.
  Proof.
    unfold type_head, keyword.
    set (structs := ["StructType"; "IntType"; "BitArrayType"; "UserType"; "StringType"; "ArrayType"; "DynArrayType"; "InumType"; "BlobType"]).
    set (enums := ["EnumType"; "ChoiceType"]).
    assert (T : forall l, existsb (String.eqb unit) l = true <-> In unit l).
    { intros l. rewrite existsb_exists. split; [intros (x & I & E); apply String.eqb_eq in E; now subst | intros I; exists unit; split; [exact I | apply String.eqb_refl]]. }
    assert (Dj : In unit structs -> In unit enums -> False).
    { intros I J. destruct J as [J|[J|[]]]; subst unit; cbn [In structs] in I; intuition discriminate. }
    destruct (existsb (String.eqb unit) structs) eqn:A; [|destruct (existsb (String.eqb unit) enums) eqn:B]; cbn [obind].
    - split.
      + intros E. injection E as <-. exists "struct". split; [left; split; [reflexivity | now apply T]|]. unfold nl. cbn. try rewrite !sapp_assoc. reflexivity.
      + intros (kw & [[-> I]|[-> I]] & ->); [|exfalso; apply Dj; [now apply T | exact I]]. unfold nl. cbn. try rewrite !sapp_assoc. reflexivity.
    - split.
      + intros E. injection E as <-. exists "enum". split; [right; split; [reflexivity | now apply T]|]. unfold nl. cbn. try rewrite !sapp_assoc. reflexivity.
      + intros (kw & [[-> I]|[-> I]] & ->); [apply T in I; congruence|]. unfold nl. cbn. try rewrite !sapp_assoc. reflexivity.
    - split; [discriminate|]. intros (kw & [[-> I]|[-> I]] & _); apply T in I; congruence.
  Qed.

  Definition joined (o : option (string * string)) : string := match o with Some (a, b) => (a ++ b)%string | None => "" end.

  Lemma proto_texts_ok dec d s :
    (exists o, proto_texts su num tags dec d = Ok o /\ s = joined o) <-> declaration_text su num tags dec d s.
  Proof.
    unfold proto_texts. split.
    - intros (o & E & ->). apply obind_ok in E. destruct E as (t & E1 & E). apply or_panic_ok, as_text_str in E1.
      destruct (String.eqb t "ConstDecl") eqn:C.
      { injection E as <-. apply String.eqb_eq in C. subst t. now apply text_of_constant. }
      apply String.eqb_neq in C. apply obind_ok in E. destruct E as (unit & E2 & E). apply or_panic_ok, as_text_str in E2.
      apply obind_ok in E. destruct E as (name & E3 & E). apply obind_ok in E. destruct E as (h & E4 & E).
      apply obind_ok in E. destruct E as ([inner impl] & E5 & E). cbn [fst snd] in E. injection E as <-.
      apply type_head_ok in E4. destruct E4 as (kw & K & ->). apply body_texts_ok in E5. cbn [joined].
      match goal with |- declaration_text _ _ _ _ _ ?x => replace x with
        (nl ++ "#[derive(Debug, PartialEq, Clone)]" ++ nl ++ "pub " ++ kw ++ " " ++ name ++ " {" ++ nl ++ inner ++ "}" ++ nl ++
         "impl " ++ name ++ " {" ++ nl ++ impl ++ "}" ++ nl ++ nl)%string by (unfold nl; cbn; repeat (progress (rewrite ?sapp_assoc; cbn)); reflexivity) end.
      refine (text_of_type su num tags dec d t unit name kw inner impl E1 C E2 _ K E5).
      unfold rust_name_is, name_of. destruct (as_text (at_key "fullname" d)) as [full|]; [congruence|].
      destruct (is_text "m_eventData" (at_key "name" d)) eqn:M; [|discriminate E3]. apply is_text_str in M. split; [exact M|].
      unfold rust_name_of in E3. rewrite M in E3. cbn [as_text or_panic obind] in E3. congruence.
    - intros D. destruct D as [C|t unit name kw inner impl E1 C E2 N K B].
      + exists None. rewrite C. split; reflexivity.
      + rewrite E1. cbn [as_text or_panic obind]. apply String.eqb_neq in C. rewrite C, E2. cbn [as_text or_panic obind].
        assert (E3 : match as_text (at_key "fullname" d) with
                     | Some s => Ok (rust_name su s)
                     | None => if is_text "m_eventData" (at_key "name" d) then rust_name_of su (at_key "name" d) else Panic
                     end = Ok name).
        { unfold rust_name_is, name_of in N. destruct (as_text (at_key "fullname" d)) as [full|]; [congruence|]. destruct N as (N & ->). now rewrite N. }
        rewrite E3. cbn [obind].
        assert (E4 : type_head unit name = Ok ("#[derive(Debug, PartialEq, Clone)]" ++ nl ++ "pub " ++ kw ++ " " ++ name ++ " {" ++ nl)%string).
        { apply type_head_ok. eauto. }
        apply body_texts_ok in B. rewrite E4. cbn [obind]. rewrite B. cbn [obind fst snd]. eexists. split; [reflexivity|].
        cbn [joined]. rewrite !sapp_assoc. reflexivity.
  Qed.

  Lemma enum_texts_not_err ename vs e : enum_texts su tags ename vs <> Err e.
  Proof.
    induction vs as [|v vs IH]; cbn [enum_texts]; [discriminate|]. unfold rust_name_of.
    destruct (or_panic (as_text (at_key "name" v))) eqn:E1; cbn [obind]; try discriminate; [|now apply or_panic_not_err in E1].
    destruct (or_panic (as_text (at_key "value" (at_key "value" v)))) eqn:E2; cbn [obind]; try discriminate; [|now apply or_panic_not_err in E2].
    destruct (or_panic (as_text (at_key "type" (at_key "value" v)))) eqn:E3; cbn [obind]; try discriminate; [|now apply or_panic_not_err in E3].
    destruct (negb (String.eqb a1 "IntLiteral")); [discriminate|].
    destruct (enum_texts su tags ename vs); cbn [obind]; try discriminate. intros E. apply IH. congruence.
  Qed.
  Lemma proto_texts_not_err dec d e : proto_texts su num tags dec d <> Err e.
  Proof.
    unfold proto_texts.
    destruct (or_panic (as_text (at_key "type" d))) eqn:E1; cbn [obind]; try discriminate; [|now apply or_panic_not_err in E1].
    destruct (String.eqb a "ConstDecl"); [discriminate|].
    destruct (or_panic (as_text (at_key "type" (at_key "type_info" d)))) eqn:E2; cbn [obind]; try discriminate; [|now apply or_panic_not_err in E2].
    destruct (as_text (at_key "fullname" d)) as [s|]; cbn [obind];
      [|destruct (is_text "m_eventData" (at_key "name" d)); [|discriminate]; unfold rust_name_of;
        destruct (as_text (at_key "name" d)) as [s|]; cbn [or_panic obind]; [|discriminate]].
    all: unfold type_head; destruct (existsb (String.eqb a0) _); [|destruct (existsb (String.eqb a0) _)]; cbn [obind]; try discriminate;
      unfold body_texts; destruct (String.eqb a0 "EnumType").
    all: try (destruct (su_body su dec num d a0 _); cbn [or_panic obind]; discriminate).
    all: destruct (as_list (at_key "fields" (at_key "type_info" d))) as [vs|]; cbn [or_panic obind]; [|discriminate];
      match goal with |- context [enum_texts su tags ?n vs] => destruct (enum_texts su tags n vs) eqn:EE end; cbn [obind]; try discriminate;
      exfalso; exact (enum_texts_not_err _ _ _ EE).
  Qed.

  (** ** Writing *)
  Definition step_text (g : gstep) (s : string) : Prop := match g with GStop => False | GPiece p => piece_text su num tags p s end.
  Definition fits (s : string) : Prop := (String.length s <= su_room su)%nat.
  Definition starts_text (p s : string) : Prop := exists r, s = (p ++ r)%string.

  Lemma substring_app k s : exists r, s = (String.substring 0 k s ++ r)%string.
  Proof.
    revert k. induction s as [|a s IH]; intros [|k].
    - now exists "".
    - now exists "".
    - now exists (String a s).
    - destruct (IH k) as (r & E). exists r. cbn [String.substring]. cbn [append]. now rewrite <- E.
  Qed.
  Lemma write_text_ok s out : fits (out ++ s) -> write_text su s out = (Ok tt, (out ++ s)%string).
  Proof. unfold fits, write_text. rewrite slength_app. intros F. apply Nat.leb_le in F. now rewrite F. Qed.
  Lemma write_text_full s out : ~ fits (out ++ s) -> exists p r, write_text su s out = (Err (EOther "io"), (out ++ p)%string) /\ s = (p ++ r)%string.
  Proof.
    unfold fits, write_text. rewrite slength_app. intros F. destruct (Nat.leb_spec (String.length out + String.length s) (su_room su)) as [L|L]; [contradiction|].
    destruct (substring_app (su_room su - String.length out) s) as (r & E). eauto.
  Qed.
  Lemma fits_app a b : fits (a ++ b) -> fits a.
  Proof. unfold fits. rewrite slength_app. lia. Qed.

  Lemma run_step_cases g out :
    fits out ->
    (exists s, step_text g s /\ fits (out ++ s) /\ run_step su num tags g out = (Ok tt, (out ++ s)%string)) \/
    (exists s p r, step_text g s /\ ~ fits (out ++ s) /\ s = (p ++ r)%string /\ run_step su num tags g out = (Err (EOther "io"), (out ++ p)%string)) \/
    ((forall s, ~ step_text g s) /\ run_step su num tags g out = (Panic, out)).
  Proof.
    intros F0. destruct g as [|[l|dec d]]; cbn [run_step step_text].
    - right. right. split; [intros s []|reflexivity].
    - set (s := String.concat "" (map (fun s => s ++ nl)%string l)). pose proof (text_of_lines su num tags l) as T. fold s in T.
      destruct (le_dec (String.length (out ++ s)) (su_room su)) as [L|L].
      + left. exists s. split; [exact T|]. split; [exact L|]. now apply write_text_ok.
      + right. left. destruct (write_text_full s out L) as (p & r & E & E'). exists s, p, r. auto.
    - unfold write_decl. destruct (proto_texts su num tags dec d) as [o|e|] eqn:P.
      + assert (T : declaration_text su num tags dec d (joined o)) by (apply proto_texts_ok; eauto).
        assert (T' : piece_text su num tags (CodeOf dec d) (joined o)) by (now constructor).
        destruct o as [[ty im]|]; cbn [joined] in T'.
        * destruct (le_dec (String.length (out ++ ty ++ im)) (su_room su)) as [L|L].
          -- left. exists (ty ++ im)%string. split; [exact T'|]. split; [exact L|].
             rewrite write_text_ok; cbn [and_then]; [|apply (fits_app _ im); rewrite sapp_assoc; exact L].
             rewrite write_text_ok by (rewrite sapp_assoc; exact L). now rewrite sapp_assoc.
          -- right. left. destruct (le_dec (String.length (out ++ ty)) (su_room su)) as [L'|L'].
             ++ destruct (write_text_full im (out ++ ty)%string) as (p & r & E & E'); [rewrite sapp_assoc; exact L|].
                exists (ty ++ im)%string, (ty ++ p)%string, r. split; [exact T'|]. split; [exact L|]. split; [now rewrite sapp_assoc, <- E'|].
                rewrite write_text_ok by exact L'. cbn [and_then]. now rewrite E, sapp_assoc.
             ++ destruct (write_text_full ty out L') as (p & r & E & E'). exists (ty ++ im)%string, p, (r ++ im)%string.
                split; [exact T'|]. split; [exact L|]. split; [now rewrite E', sapp_assoc|]. now rewrite E.
        * left. exists "". split; [exact T'|]. rewrite sapp_nil. split; [exact F0 | reflexivity].
      + exfalso. exact (proto_texts_not_err _ _ _ P).
      + right. right. split; [|reflexivity]. intros s H. inversion H as [|dec' d' s' T]; subst. apply proto_texts_ok in T. destruct T as (o & E & _). congruence.
  Qed.

  (** ** A run *)
  Lemma step_text_unique g s s' : step_text g s -> step_text g s' -> s = s'.
  Proof.
    destruct g as [|[l|dec d]]; cbn [step_text]; [intros []| |].
    - intros A B. inversion A; subst. now inversion B; subst.
    - intros A B. inversion A as [|? ? ? TA]; subst. inversion B as [|? ? ? TB]; subst.
      apply proto_texts_ok in TA, TB. destruct TA as (o & E & ->), TB as (o' & E' & ->). congruence.
  Qed.
  Lemma run_steps_ok l out out' :
    fits out ->
    run_steps su num tags l out = (Ok tt, out') <->
    exists texts, Forall2 step_text l texts /\ out' = (out ++ String.concat "" texts)%string /\ fits out'.
  Proof.
    revert out. induction l as [|g l IH]; intros out F; cbn [run_steps].
    - split.
      + intros E. injection E as <-. exists []. split; [constructor|]. cbn [String.concat]. rewrite sapp_nil. auto.
      + intros (texts & T & -> & _). inversion T; subst. cbn [String.concat]. now rewrite sapp_nil.
    - destruct (run_step_cases g out F) as [(s & T & F' & E)|[(s & p & r & T & N & E' & E)|(N & E)]]; rewrite E; cbn [and_then].
      + rewrite IH by exact F'. split.
        * intros (texts & A & -> & B). exists (s :: texts). split; [now constructor|]. rewrite sconcat_cons, sapp_assoc. auto. split; [reflexivity|]. now rewrite sapp_assoc in B.
        * intros (texts & A & -> & B). inversion A as [|g0 s0 l0 texts' A1 A2]; subst. pose proof (step_text_unique g s s0 T A1) as <-.
          exists texts'. rewrite sconcat_cons in B |- *. rewrite sapp_assoc. auto.
      + split; [discriminate|]. intros (texts & A & -> & B). inversion A as [|g0 s0 l0 texts' A1 A2]; subst g0 l0 texts.
        pose proof (step_text_unique g s s0 T A1) as <-. exfalso. apply N. rewrite sconcat_cons, <- sapp_assoc in B. now apply fits_app in B.
      + split; [discriminate|]. intros (texts & A & -> & B). inversion A as [|g0 s0 l0 texts' A1 A2]; subst. exfalso. exact (N _ A1).
  Qed.
  (** A run that fails leaves the beginning of what its first pieces are. *)
  Lemma run_steps_fail l out o out' :
    fits out -> run_steps su num tags l out = (o, out') -> o <> Ok tt ->
    exists k texts, Forall2 step_text (firstn k l) texts /\ starts_text out' (out ++ String.concat "" texts)%string.
  Proof.
    revert out. induction l as [|g l IH]; intros out F E N; cbn [run_steps] in E.
    - injection E as <- <-. congruence.
    - destruct (run_step_cases g out F) as [(s & T & F' & R)|[(s & p & r & T & N' & E' & R)|(N' & R)]]; rewrite R in E; cbn [and_then] in E.
      + destruct (IH _ F' E N) as (k & texts & A & B). exists (Datatypes.S k), (s :: texts). cbn [firstn]. split; [now constructor|].
        rewrite sconcat_cons, <- sapp_assoc. exact B.
      + injection E as <- <-. exists 1%nat, [s]. cbn [firstn]. split; [constructor; [exact T | constructor]|]. exists r.
        cbn [String.concat]. now rewrite E', sapp_assoc.
      + injection E as <- <-. exists 0%nat, []. split; [constructor|]. exists "". cbn [String.concat]. now rewrite !sapp_nil.
  Qed.
  (** Whether a run panics or runs out of room. *)
  Lemma run_steps_err l out e out' : fits out -> run_steps su num tags l out = (Err e, out') -> e = EOther "io".
  Proof.
    revert out. induction l as [|g l IH]; intros out F E; cbn [run_steps] in E; [discriminate E|].
    destruct (run_step_cases g out F) as [(s & T & F' & R)|[(s & p & r & T & N' & E' & R)|(N' & R)]]; rewrite R in E; cbn [and_then] in E.
    - exact (IH _ F' E).
    - now injection E as <- _.
    - discriminate E.
  Qed.
End Texts.
