(** * C137, C138: the decoders of a generated module and its document *)
From Coq Require Import Ascii Lia.
From Verif Require Import Base BalanceJson Types BitFormat Generator GeneratorSpec GeneratorFacts GenerateRun GenerateSpec GenerateFacts GenerateTags GenerateEnds GenJson GenJsonSpec GenJsonFacts PropsGenerate.
#[local] Open Scope string_scope.
#[local] Open Scope Z_scope.
#[local] Open Scope list_scope.

(** ** C137: each decoder is that of the type its declaration describes

    [described_decl su mods d t] (GenJsonSpec.v): the declaration [d] of the
    document describes [t].  [gen Decl t]: the decoder for [t] (Generator.v), of
    which C110-C113 speak.  [module_code ... n name]: the decoder under a name of
    the module written, names followed [n] times. *)
Theorem C137_module : forall su source output fs fs',
  json_parser su -> stops_as_read su -> rust_name su "m_eventData" = "MEventData" ->
  generate su source output fs = (Ok tt, fs') ->
  exists text doc mods, fs (su_place su source) = Some text /\ su_parse su text = Some doc /\ modules_of doc = Ok mods /\
    (NoDup (map (jg_name su) (declared mods)) -> forall d t, In d (declared mods) -> described_decl su mods d t ->
     match gen Decl t with
     | Ok k => exists N, forall n, (N <= n)%nat -> module_code su (struct_for su mods) (declared mods) n (jg_name su d) = Some k
     | Err _ => forall n, module_code su (struct_for su mods) (declared mods) n (jg_name su d) = None
     | Panic => False
     end).
Proof. exact generated_module. Qed.
Print Assumptions C137_module.

(** A plain declaration (C110) of the document is therefore read in Blizzard's
    format, wherever its parts are declared. *)
Lemma module_reads : forall su source output fs fs',
  json_parser su -> stops_as_read su -> rust_name su "m_eventData" = "MEventData" ->
  generate su source output fs = (Ok tt, fs') ->
  exists text doc mods, fs (su_place su source) = Some text /\ su_parse su text = Some doc /\ modules_of doc = Ok mods /\
    (NoDup (map (jg_name su) (declared mods)) -> forall d t, In d (declared mods) -> described_decl su mods d t -> plain Decl t = true ->
     exists k N, (forall n, (N <= n)%nat -> module_code su (struct_for su mods) (declared mods) n (jg_name su d) = Some k) /\ reads k (layout t)).
Proof.
  intros su source output fs fs' J S M G. destruct (generated_module su source output fs fs' J S M G) as (text & doc & mods & H1 & H2 & H3 & H4).
  exists text, doc, mods. refine (conj H1 (conj H2 (conj H3 _))). intros N d t I D P. specialize (H4 N d t I D).
  destruct (generated_reads t P) as (k & E & R). rewrite E in H4. destruct H4 as (n & H4). exists k, n. split; assumption.
Qed.
Theorem C137_reads : forall su source output fs fs',
  json_parser su -> stops_as_read su -> rust_name su "m_eventData" = "MEventData" ->
  generate su source output fs = (Ok tt, fs') ->
  exists text doc mods, fs (su_place su source) = Some text /\ su_parse su text = Some doc /\ modules_of doc = Ok mods /\
    (NoDup (map (jg_name su) (declared mods)) -> forall d t, In d (declared mods) -> described_decl su mods d t -> plain Decl t = true ->
     exists k N, (forall n, (N <= n)%nat -> module_code su (struct_for su mods) (declared mods) n (jg_name su d) = Some k) /\ reads k (layout t)).
Proof. exact module_reads. Qed.
Print Assumptions C137_reads.

(** ** An example *)
Definition gj_bound (incl : bool) (n : string) (value : json) : json := JObj [("evalue", JStr n); ("inclusive", JBool incl); ("value", value)].
Definition gj_bounds (sort : string) (lo hi : json) : json := JObj [("type", JStr sort); ("min", lo); ("max", hi)].
Definition gj_upto (n : string) : json := gj_bounds "MinMaxConstraint" (gj_bound true "0" JNull) (gj_bound true n JNull).
Definition gj_below_pow (hi n : string) : json :=
  gj_bounds "MinMaxConstraint" (gj_bound true "0" JNull) (gj_bound false hi (JObj [("type", JStr "PowExpr"); ("rhs", JObj [("value", JStr n)])])).
Definition gj_user (n : string) : json := JObj [("type", JStr "UserType"); ("fullname", JStr n)].
Definition gj_type (sort : string) (more : list (string * json)) : json := JObj (("type", JStr sort) :: more).
Definition gj_field (n : string) (ti : json) : json := JObj [("type", JStr "MemberStructField"); ("name", JStr n); ("type_info", ti)].
Definition gj_tagged (n z : string) (ti : json) : json :=
  JObj [("name", JStr n); ("tag", JObj [("type", JStr "IntLiteral"); ("value", JStr z)]); ("type_info", ti)].

Definition gj_uint8 : json := ex_decl "NNet.uint8" "IntType" [("bounds", gj_below_pow "256" "8")].
Definition gj_name : json := ex_decl "NNet.CUserName" "StringType" [("bounds", gj_upto "255")].
Definition gj_events : json := ex_decl "NNet.Game.EEventId" "EnumType" [("fields", JArr [ex_variant "ECmd" "1"; ex_variant "EQuiet" "0"])].
Definition gj_cmd : json := ex_decl "NNet.Game.SCmdEvent" "StructType" [("fields", JArr [
  ex_const "NNet.Game.EEventId" "ECmd";
  gj_field "m_flags" (gj_user "NNet.uint8");
  gj_field "m_maybe" (gj_type "OptionalType" [("type_info", gj_user "NNet.uint8")]);
  gj_field "m_list" (gj_type "ArrayType" [("bounds", gj_upto "10"); ("element_type", gj_user "NNet.uint8")])])].
Definition gj_data : json := gj_field "m_eventData" (gj_type "ChoiceType" [("fields", JArr [
  gj_tagged "None" "0" (gj_type "NullType" []); gj_tagged "Checked" "1" (gj_type "BoolType" [])])]).
Definition gj_dialog : json := ex_decl "NNet.Game.STriggerDialogControlEvent" "StructType" [("fields", JArr [
  gj_field "m_controlId" (gj_type "IntType" [("bounds", gj_upto "1000")]); gj_data])].
Definition gj_mods : list json := [gj_uint8; ex_module "NNet.Game" [gj_events; gj_cmd; gj_dialog]].
Definition gj_su_of (ms : list json) : surroundings :=
  mk_surroundings (fun s => s) (fun s => if String.eqb s "definition" then Some (JObj [("modules", JArr [JObj [("decls", JArr ms)]])]) else None)
    (fun v => match v with JStr s => String quote (s ++ String quote "") | _ => "null" end)
    (fun s => if String.eqb s "m_eventData" then "MEventData" else s)
    (fun dec _ d _ _ => match dec with
                        | ByteAligned => Some ("", "")
                        | BitPacked => match jg_decl (mk_surroundings (fun s => s) (fun _ => None)
                                          (fun v => match v with JStr s => String quote (s ++ String quote "") | _ => "null" end)
                                          (fun s => if String.eqb s "m_eventData" then "MEventData" else s)
                                          (fun _ _ _ _ _ => None) (fun _ _ _ _ => "") (fun _ => "") (fun p => p) (fun _ => true) (fun _ => true) 0%nat)
                                          (fun _ => None) (fun _ => None) d with
                                       | Panic => None
                                       | _ => Some ("", "")
                                       end
                        end)
    (fun _ _ _ _ => "fn parse {") (fun _ => "}") (fun p => p) (fun _ => true) (fun _ => true) (20 * 400)%nat.
Lemma same_reading su su' r t d : su_pascal su = su_pascal su' -> su_show su = su_show su' -> jg_decl su r t d = Panic -> jg_decl su' r t d = Panic.
Proof. destruct su, su'. cbn. intros -> ->. auto. Qed.
Lemma gj_stops ms : stops_as_read (gj_su_of ms).
Proof.
  intros num d unit name _ _ H E. apply H. cbn [gj_su_of su_body].
  erewrite (same_reading (gj_su_of ms) _ (fun _ => None) (fun _ => None) d); [reflexivity|reflexivity|reflexivity|exact E].
Qed.
Definition gj_su : surroundings := gj_su_of gj_mods.
Definition gj_made (ms : list json) : outcome unit * gen_files := generate (gj_su_of ms) "json/protocol87702.json" "out.rs" ex_gen_files.
Example gj_runs : match gj_made gj_mods with (Ok _, _) => true | _ => false end = true.
Proof. vm_compute. reflexivity. Qed.
Lemma gj_declared : declared gj_mods = [gj_uint8; gj_events; gj_cmd; gj_dialog; gj_data].
Proof. vm_compute. reflexivity. Qed.
Example gj_names : map (jg_name gj_su) (declared gj_mods) = ["uint8"; "GameEEventId"; "GameSCmdEvent"; "GameSTriggerDialogControlEvent"; "MEventData"] /\
  rust_name gj_su "m_eventData" = "MEventData".
Proof. split; vm_compute; reflexivity. Qed.

Definition n_uint8 : ntype := NInt (mkbounds false 0 true 256 false (Pow 8)).
Definition n_upto (n : Z) : bounds := mkbounds false 0 true n true Lit.
Definition n_cmd : ntype := NStruct [("m_flags", NUser n_uint8); ("m_maybe", NOpt (NUser n_uint8)); ("m_list", NArray false (n_upto 10) (NUser n_uint8))].
Definition n_data : ntype := NChoice [(0, "None", NNull); (1, "Checked", NBool)].
Definition n_dialog : ntype := NStruct [("m_controlId", NInt (n_upto 1000)); ("m_eventData", n_data)].
Definition n_events : ntype := NEvents [(1, "ECmd", Some n_cmd); (0, "EQuiet", None)].
Ltac bounds_by := refine (conj _ (conj _ (conj _ (conj _ (conj _ _))))); try reflexivity; try (split; reflexivity).
Ltac declared_by := rewrite gj_declared; cbn [In]; tauto.
Lemma gj_is_uint8 : described_decl gj_su gj_mods gj_uint8 n_uint8.
Proof. apply is_type; [discriminate|]. apply is_int; [split; reflexivity|bounds_by]. Qed.
Lemma gj_user_uint8 : described gj_su gj_mods (gj_user "NNet.uint8") (NUser n_uint8).
Proof. apply (is_name _ _ _ "NNet.uint8" gj_uint8); try reflexivity; [declared_by|exact gj_is_uint8]. Qed.
Lemma gj_is_cmd : described_decl gj_su gj_mods gj_cmd n_cmd.
Proof.
  apply is_type; [discriminate|]. eapply is_fields; [split; reflexivity|reflexivity|].
  apply a_constant; [reflexivity|left; discriminate|].
  apply one_more_field; [reflexivity|reflexivity|reflexivity|discriminate|exact gj_user_uint8|].
  apply one_more_field; [reflexivity|reflexivity|reflexivity|discriminate|apply is_option; [split; reflexivity|exact gj_user_uint8]|].
  apply one_more_field; [reflexivity|reflexivity|reflexivity|discriminate| |apply no_field].
  apply is_array; [split; reflexivity|bounds_by|exact gj_user_uint8].
Qed.
Lemma gj_is_data : described gj_su gj_mods (at_key "type_info" gj_data) n_data.
Proof.
  eapply is_choice; [split; reflexivity|reflexivity|].
  apply one_more_variant; [reflexivity|split; reflexivity|apply is_null; split; reflexivity|].
  apply one_more_variant; [reflexivity|split; reflexivity|apply is_bool; split; reflexivity|apply no_variant].
Qed.
Lemma gj_is_dialog : described_decl gj_su gj_mods gj_dialog n_dialog.
Proof.
  apply is_type; [discriminate|]. eapply is_fields; [split; reflexivity|reflexivity|].
  apply one_more_field; [reflexivity|reflexivity|reflexivity|discriminate|apply is_int; [split; reflexivity|bounds_by]|].
  apply one_more_field; [reflexivity|reflexivity|reflexivity| |exact gj_is_data|apply no_field].
  intros _ _. split; [declared_by|reflexivity].
Qed.
Lemma gj_is_events : described_decl gj_su gj_mods gj_events n_events.
Proof.
  eapply is_events; [split; reflexivity|reflexivity| |].
  - eapply (id_of_struct _ _ _ _ _ _ _ "GameSCmdEvent" gj_cmd); [reflexivity|split; reflexivity|vm_compute; reflexivity|declared_by|vm_compute; reflexivity|exact gj_is_cmd|].
    apply bare_id; [reflexivity|split; reflexivity|vm_compute; reflexivity|apply no_id].
  - eexists. split; [left; reflexivity|discriminate].
Qed.
Definition gj_codes : list (option code) :=
  Eval vm_compute in map (fun t => match gen Decl t with Ok k => Some k | _ => None end) [n_uint8; n_events; n_cmd; n_dialog; n_data].
Example gj_decoders : map (module_code gj_su (struct_for gj_su gj_mods) (declared gj_mods) 5) (map (jg_name gj_su) (declared gj_mods)) = gj_codes /\
  forallb (plain Decl) [n_uint8; n_events; n_cmd; n_dialog; n_data] = true /\ In (Some (KInt 0 8)) gj_codes.
Proof. split; [vm_compute; reflexivity|split; [vm_compute; reflexivity|left; reflexivity]]. Qed.

(** ** C138: a generated module holds the types it refers to *)

(** False: NNet.TOther is a declaration of the document, but none that is
    written, and NNet.Game.SUses refers to it; generation succeeds.  Likewise two
    declarations of one Rust name. *)
Definition gj_uses (n : string) : json := ex_decl "NNet.Game.SUses" "StructType" [("fields", JArr [gj_field "m_other" (gj_user n)])].
Definition gj_open_mods : list json := [ex_decl "NNet.TOther" "IntType" [("bounds", gj_below_pow "256" "8")]; ex_module "NNet.Game" [gj_uses "NNet.TOther"]].
Definition gj_twice_mods : list json := [gj_uint8; ex_decl "NNet.uint.8" "IntType" [("bounds", gj_below_pow "256" "8")]; ex_module "NNet.Game" [gj_uses "NNet.uint8"]].
Definition gj_lacks (ms : list json) : Prop :=
  (exists fs', gj_made ms = (Ok tt, fs')) /\
  exists d, In d (declared ms) /\ forall n, module_code (gj_su_of ms) (struct_for (gj_su_of ms) ms) (declared ms) n (jg_name (gj_su_of ms) d) = None.
Lemma made_ok : forall x : outcome unit * gen_files, match fst x with Ok _ => true | _ => false end = true -> exists fs', x = (Ok tt, fs').
Proof. intros [[[]| |] fs'] H; try discriminate H. eexists. reflexivity. Qed.
Lemma uses_lacks su tags ds other : filter (fun d => String.eqb (jg_name su d) "GameSUses") ds = [gj_uses other] ->
  String.prefix "NNet" other = true -> (forall n, module_code su tags ds n (rust_name su other) = None) -> forall n, module_code su tags ds n "GameSUses" = None.
Proof.
  intros F P H [|n]; [reflexivity|]. cbn [module_code]. rewrite F.
  change (jg_decl su (module_code su tags ds n) tags (gj_uses other)) with
    (do ks <- jg_fields su (module_code su tags ds n) [gj_field "m_other" (gj_user other)]; Ok (option_map KStruct ks)).
  cbn [jg_fields]. change (jg_sort (at_key "type_info" (gj_field "m_other" (gj_user other)))) with (Ok other). cbn [obind].
  change (or_panic (as_text (at_key "type" (gj_field "m_other" (gj_user other))))) with (Ok "MemberStructField").
  change (or_panic (as_text (at_key "name" (gj_field "m_other" (gj_user other))))) with (Ok "m_other"). cbn [obind].
  change (String.eqb "MemberStructField" "ConstDecl") with false. change (String.eqb "MemberStructField" "MemberStructField") with true. cbn [negb].
  unfold jg_field. change (is_text "m_eventData" (at_key "name" (gj_field "m_other" (gj_user other)))) with false. cbn [andb].
  rewrite (table_name su other P). cbn [obind]. rewrite H. reflexivity.
Qed.
Lemma open_lacks : gj_lacks gj_open_mods /\ gj_lacks gj_twice_mods.
Proof.
  split; (split; [apply made_ok; vm_compute; reflexivity|]).
  - exists (gj_uses "NNet.TOther"). split; [vm_compute; auto|]. apply (uses_lacks _ _ _ "NNet.TOther"); [vm_compute; reflexivity|reflexivity|].
    intros [|n]; reflexivity.
  - exists (gj_uses "NNet.uint8"). split; [vm_compute; auto|]. apply (uses_lacks _ _ _ "NNet.uint8"); [vm_compute; reflexivity|reflexivity|].
    intros [|n]; reflexivity.
Qed.
Theorem C138_refers_refuted : gj_lacks gj_open_mods /\ gj_lacks gj_twice_mods.
Proof. exact open_lacks. Qed.
Print Assumptions C138_refers_refuted.

(** When the names of the module are distinct and each of its declarations is
    described, that is refers to declarations of the module only, every type has
    its decoder, unless the text of one is no Rust. *)
Lemma described_held : forall su source output fs fs',
  json_parser su -> stops_as_read su -> rust_name su "m_eventData" = "MEventData" ->
  generate su source output fs = (Ok tt, fs') ->
  exists text doc mods, fs (su_place su source) = Some text /\ su_parse su text = Some doc /\ modules_of doc = Ok mods /\
    (NoDup (map (jg_name su) (declared mods)) ->
     (forall d, In d (declared mods) -> exists t, described_decl su mods d t /\ gen Decl t <> Err no_compile) ->
     exists N, forall n d, (N <= n)%nat -> In d (declared mods) ->
       exists k, module_code su (struct_for su mods) (declared mods) n (jg_name su d) = Some k).
Proof.
  intros su source output fs fs' J S M G. destruct (generated_module su source output fs fs' J S M G) as (text & doc & mods & H1 & H2 & H3 & H4).
  exists text, doc, mods. refine (conj H1 (conj H2 (conj H3 _))). intros ND D. specialize (H4 ND).
  assert (E : forall d, In d (declared mods) -> exists N, forall n, (N <= n)%nat ->
            exists k, module_code su (struct_for su mods) (declared mods) n (jg_name su d) = Some k).
  { intros d I. destruct (D d I) as (t & Dt & Nt). specialize (H4 d t I Dt). destruct (gen Decl t) as [k|e|] eqn:Eg; [| |destruct H4].
    - destruct H4 as (N & H4). exists N. intros n Hn. exists k. auto.
    - destruct Nt. f_equal. exact (gen_err _ _ _ Eg). }
  clear - E. generalize (module_code su (struct_for su mods) (declared mods)) as mc, E. clear E. generalize (declared mods) as l.
  induction l as [|d l IH]; intros mc E; [exists 0%nat; intros n d _ []|].
  destruct (IH mc) as (N & H); [intros d' I; apply E; right; exact I|]. destruct (E d (or_introl eq_refl)) as (N' & H').
  exists (Nat.max N N'). intros n d' Hn [<-|I]; [apply H'; lia|apply H; [lia|exact I]].
Qed.
Theorem C138_refers_partial : forall su source output fs fs',
  json_parser su -> stops_as_read su -> rust_name su "m_eventData" = "MEventData" ->
  generate su source output fs = (Ok tt, fs') ->
  exists text doc mods, fs (su_place su source) = Some text /\ su_parse su text = Some doc /\ modules_of doc = Ok mods /\
    (NoDup (map (jg_name su) (declared mods)) ->
     (forall d, In d (declared mods) -> exists t, described_decl su mods d t /\ gen Decl t <> Err no_compile) ->
     exists N, forall n d, (N <= n)%nat -> In d (declared mods) ->
       exists k, module_code su (struct_for su mods) (declared mods) n (jg_name su d) = Some k).
Proof. exact described_held. Qed.
Print Assumptions C138_refers_partial.
Example gj_all_described : forall d, In d (declared gj_mods) -> exists t, described_decl gj_su gj_mods d t /\ gen Decl t <> Err no_compile.
Proof.
  rewrite gj_declared. intros d H. cbn [In] in H. destruct H as [<-|[<-|[<-|[<-|[<-|[]]]]]]; eexists; (split; [|]).
  - exact gj_is_uint8.
  - discriminate.
  - exact gj_is_events.
  - discriminate.
  - exact gj_is_cmd.
  - discriminate.
  - exact gj_is_dialog.
  - discriminate.
  - apply is_type; [discriminate|]. exact gj_is_data.
  - discriminate.
Qed.
