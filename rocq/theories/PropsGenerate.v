(** * C133–C136: the [generate] command *)
From Coq Require Import Ascii Lia.
From Verif Require Import Base BalanceJson ConvertSpec GenerateRun GenerateSpec GenerateFacts GenerateTexts GenerateTags GenerateNames GenerateEnds.
#[local] Open Scope string_scope.
#[local] Open Scope Z_scope.
#[local] Open Scope list_scope.

(** ** An example: a definition in json/protocol87702.json *)
Definition ex_decl (full unit : string) (more : list (string * json)) : json :=
  JObj [("fullname", JStr full); ("type", JStr "TypeDecl"); ("type_info", JObj (("type", JStr unit) :: more))].
Definition ex_const (enum v : string) : json :=
  JObj [("type", JStr "ConstDecl"); ("type_info", JObj [("fullname", JStr enum)]);
        ("value", JObj [("type", JStr "IdentifierExpr"); ("fullname", JStr (enum ++ "." ++ v))])].
Definition ex_variant (v n : string) : json :=
  JObj [("name", JStr v); ("value", JObj [("type", JStr "IntLiteral"); ("value", JStr n)])].
Definition ex_module (full : string) (ds : list json) : json := JObj [("fullname", JStr full); ("decls", JArr ds)].
Definition ex_event_enum : json := ex_decl "NNet.Game.EEventId" "EnumType" [("fields", JArr [ex_variant "EBankFile" "7"; ex_variant "ECamera" "49"])].
Definition ex_bank (n : string) : json := ex_decl ("NNet.Game.SBankFile" ++ n)%string "StructType" [("fields", JArr [ex_const "NNet.Game.EEventId" "EBankFile"])].
Definition ex_mods : list json :=
  [ex_decl "NNet.uint8" "IntType" []; ex_decl "NNet.SVersion" "StructType" [("fields", JArr [])]; ex_decl "NNet.TOther" "IntType" [];
   ex_module "NNet.Replay" [ex_decl "NNet.Replay.SHeader" "StructType" [("fields", JArr [])];
                            ex_module "NNet.Replay.Tracker" [ex_decl "NNet.Replay.Tracker.SUnitBorn" "StructType" [("fields", JArr [])]]];
   ex_module "NNet.Game" [ex_event_enum; ex_decl "NNet.Game.ESenders" "EnumType" [("fields", JArr [])]; ex_bank ""; ex_bank "2"]].
Definition ex_doc : json := JObj [("modules", JArr [JObj [("decls", JArr ex_mods)]])].
Definition ex_su : surroundings :=
  mk_surroundings (fun s => s) (fun s => if String.eqb s "definition" then Some ex_doc else None)
    (fun v => match v with JStr s => String quote (s ++ String quote "") | _ => "null" end) (fun s => s)
    (fun _ _ _ _ _ => Some ("", "")) (fun _ _ _ _ => "fn parse {") (fun _ => "}")
    (fun p => p) (fun _ => true) (fun _ => true) 4000%nat.
Definition ex_gen_files : gen_files := fun f => if String.eqb f "json/protocol87702.json" then Some "definition" else if String.eqb f "out.rs" then Some "old" else None.
Definition has_text (s : string) (o : outcome unit * gen_files) (f : string) : bool :=
  match o with (Ok _, fs) => match fs f with Some t => match String.index 0 s t with Some _ => true | None => false end | None => false end | _ => false end.
Definition ex_generated : outcome unit * gen_files := generate ex_su "json/protocol87702.json" "out.rs" ex_gen_files.

(** ** C133: what a successful run writes, and when a run succeeds *)
Theorem C133_file : forall su source output fs fs', json_parser su ->
  generate su source output fs = (Ok tt, fs') <->
  exists num text doc out,
    proto_number su source = Ok num /\ su_creates su (su_place su output) = true /\ su_reads su (su_place su source) = true /\
    su_place su source <> su_place su output /\ fs (su_place su source) = Some text /\ su_parse su text = Some doc /\ definition_fine doc /\
    gen_text su source num doc out /\ (String.length out <= su_room su)%nat /\
    fs' = put_file (su_place su output) out (put_file (su_place su output) "" fs).
Proof. exact generate_ok. Qed.
Print Assumptions C133_file.

(** The content of the output is that of the pieces of the module, whose
    declarations are the wanted ones in the order of the document; no other
    file changes. *)
Theorem C133_contents : forall su source output fs fs', json_parser su -> generate su source output fs = (Ok tt, fs') ->
  exists num text doc mods texts,
    proto_number su source = Ok num /\ fs (su_place su source) = Some text /\ su_parse su text = Some doc /\ modules_of doc = Ok mods /\
    Forall2 (piece_text su num (struct_for su mods)) (module_pieces source mods) texts /\
    fs' (su_place su output) = Some (String.concat "" texts) /\
    forall f, f <> su_place su output -> fs' f = fs f.
Proof. exact generate_contents. Qed.
Print Assumptions C133_contents.

(** The Rust name of NNet.A.B is that of AB, in Pascal case. *)
Theorem C133_names : forall su parts,
  parts <> [] -> Forall (fun p => has_no "." p = true) parts -> has_no quote (String.concat "" parts) = true ->
  without "NNet" (String.concat "" parts) = String.concat "" parts ->
  rust_name su ("NNet." ++ String.concat "." parts)%string = su_pascal su (String.concat "" parts).
Proof. exact rust_name_parts. Qed.
Print Assumptions C133_names.

Example C133_names_example :
  without "NNet" (String.concat "" ["Replay"; "Tracker"; "SUnitBorn"]) = String.concat "" ["Replay"; "Tracker"; "SUnitBorn"] /\
  ("NNet." ++ String.concat "." ["Replay"; "Tracker"; "SUnitBorn"])%string = "NNet.Replay.Tracker.SUnitBorn".
Proof. split; reflexivity. Qed.

Example C133_example :
  json_parser ex_su /\ definition_fine ex_doc /\ fst ex_generated = Ok tt /\ modules_of ex_doc = Ok ex_mods /\
  wanted_of ByteAligned ex_mods =
    [ex_decl "NNet.SVersion" "StructType" [("fields", JArr [])]; ex_decl "NNet.Replay.SHeader" "StructType" [("fields", JArr [])];
     ex_decl "NNet.Replay.Tracker.SUnitBorn" "StructType" [("fields", JArr [])]] /\
  wanted_of BitPacked ex_mods =
    [ex_decl "NNet.uint8" "IntType" []; ex_decl "NNet.SVersion" "StructType" [("fields", JArr [])]; ex_event_enum; ex_bank ""; ex_bank "2"] /\
  has_text (nl ++ "pub struct ReplayTrackerSUnitBorn {" ++ nl) ex_generated "out.rs" = true /\
  has_text "TOther" ex_generated "out.rs" = false /\ has_text "ESenders" ex_generated "out.rs" = false /\ has_text "old" ex_generated "out.rs" = false.
Proof.
  split; [reflexivity|]. split.
  - assert (E : fst (gen_rest ex_su "" 0 ex_doc) = Ok tt) by (vm_compute; reflexivity).
    destruct (gen_rest ex_su "" 0 ex_doc) as [o out] eqn:G. cbn [fst] in E. subst o. apply gen_rest_ok in G. exact (proj2 (proj2 G)).
  - repeat split; vm_compute; reflexivity.
Qed.

(** ** C134: a run that fails *)

(** Nothing has changed, or the output is empty or the beginning of a new
    module; the other files are as they were. *)
Theorem C134_partial : forall su source output fs o fs', json_parser su -> generate su source output fs = (o, fs') -> o <> Ok tt ->
  (fs' = fs /\ ((forall n, proto_number su source <> Ok n) \/ su_creates su (su_place su output) = false)) \/
  ((forall f, f <> su_place su output -> fs' f = fs f) /\
   exists out, fs' (su_place su output) = Some out /\
     (out = "" \/ exists num text doc mods k texts rest,
        proto_number su source = Ok num /\ fs (su_place su source) = Some text /\ su_parse su text = Some doc /\ modules_of doc = Ok mods /\
        Forall2 (piece_text su num (struct_for su mods)) (firstn k (module_pieces source mods)) texts /\
        String.concat "" texts = (out ++ rest)%string)).
Proof. exact generate_fails. Qed.
Print Assumptions C134_partial.

(** An error, rather than a panic, means that the output cannot be created, or
    that there is too little room for it. *)
Theorem C134_error_partial : forall su source output fs e fs', json_parser su -> generate su source output fs = (Err e, fs') ->
  (fs' = fs /\ su_creates su (su_place su output) = false) \/
  (exists text doc num, fs (su_place su source) = Some text /\ su_parse su text = Some doc /\ proto_number su source = Ok num /\
     forall out, gen_text su source num doc out -> (su_room su < String.length out)%nat).
Proof. exact generate_error. Qed.
Print Assumptions C134_error_partial.

(** A definition that is not there empties the output; and a definition that is
    its own output is destroyed. *)
Theorem C134_refuted :
  ~ (forall su source output fs o fs', json_parser su -> generate su source output fs = (o, fs') -> o <> Ok tt ->
       fs' (su_place su output) = fs (su_place su output)) /\
  (forall su source output fs n, json_parser su -> proto_number su source = Ok n ->
     su_place su source = su_place su output -> su_creates su (su_place su output) = true ->
     exists fs', generate su source output fs = (Panic, fs') /\ fs' (su_place su source) = Some "").
Proof.
  split; [|exact generate_onto_itself]. intros H.
  destruct (generate ex_su "protocol1.json" "out.rs" ex_gen_files) as [o fs'] eqn:E.
  assert (B : o = Panic /\ fs' "out.rs" = Some "").
  { assert (B : match generate ex_su "protocol1.json" "out.rs" ex_gen_files with (Panic, fs) => match fs "out.rs" with Some "" => True | _ => False end | _ => False end)
      by (vm_compute; exact Logic.I).
    rewrite E in B. destruct o; try contradiction. destruct (fs' "out.rs") as [[]|]; try contradiction. auto. }
  destruct B as (-> & B). specialize (H ex_su _ _ _ _ _ eq_refl E ltac:(discriminate)). cbn [su_place ex_su] in H. rewrite B in H. discriminate H.
Qed.
Print Assumptions C134_refuted.

Example C134_example :
  (* too little room: the file is cut *)
  (let su := mk_surroundings (su_debug ex_su) (su_parse ex_su) (su_show ex_su) (su_pascal ex_su) (su_body ex_su) (su_enum_open ex_su) (su_enum_close ex_su)
               (su_place ex_su) (su_creates ex_su) (su_reads ex_su) 20%nat in
   match generate su "json/protocol87702.json" "out.rs" ex_gen_files with
   | (Err _, fs) => fs "out.rs" = Some ("pub mod events;" ++ nl ++ "pub ")%string
   | _ => False
   end) /\
  (* a name without a number: nothing changes *)
  generate ex_su "protocol.json" "out.rs" ex_gen_files = (Panic, ex_gen_files).
Proof. split; vm_compute; reflexivity. Qed.

(** ** C135: the number of the protocol *)
Definition ends_in_digit (s : string) : bool := match rev_text s "" with String a _ => is_digit a | EmptyString => false end.
Definition begins_with_digit (s : string) : bool := match s with String a _ => is_digit a | EmptyString => false end.

(** The only number in the file's name is that of the protocol the code is for. *)
Theorem C135_partial : forall su dir pre n post,
  0 <= n < 2 ^ 64 -> all_plain (pre ++ post) = true -> no_slash (pre ++ post) = true -> digit_free pre -> digit_free post ->
  proto_number su (in_directory dir (pre ++ decimal n ++ post)) = Ok n.
Proof. exact number_of_name. Qed.
Print Assumptions C135_partial.

(** With other digits in the name it is another number. *)
Theorem C135_refuted :
  ~ (forall su dir pre n post, 0 <= n < 2 ^ 64 -> all_plain (pre ++ post) = true -> no_slash (pre ++ post) = true ->
       ends_in_digit pre = false -> begins_with_digit post = false -> proto_number su (in_directory dir (pre ++ decimal n ++ post)) = Ok n) /\
  (forall su, proto_number su "s2protocol87702.json" = Ok 287702 /\ proto_number su "json/protocol87702 (1).json" = Ok 877021).
Proof.
  split.
  - intros H. specialize (H ex_su "" "s2protocol" 87702 ".json" ltac:(lia) eq_refl eq_refl eq_refl eq_refl).
    assert (B : proto_number ex_su (in_directory "" ("s2protocol" ++ decimal 87702 ++ ".json")) = Ok 287702) by (vm_compute; reflexivity). congruence.
  - intros su. split; vm_compute; reflexivity.
Qed.
Print Assumptions C135_refuted.

Example C135_example : proto_number ex_su "./s2protocol/json/protocol87702.json" = Ok 87702 /\
  in_directory "./s2protocol/json" ("protocol" ++ decimal 87702 ++ ".json") = "./s2protocol/json/protocol87702.json".
Proof. split; vm_compute; reflexivity. Qed.

(** ** C136: the events *)

(** Every enum that is written lists its variants, each with the struct for it
    in the type and in the arm that decodes it. *)
Theorem C136_enum : forall su source output fs fs' dec d enum v n,
  json_parser su -> generate su source output fs = (Ok tt, fs') -> has_variant d enum v n ->
  exists text doc mods out, fs (su_place su source) = Some text /\ su_parse su text = Some doc /\ modules_of doc = Ok mods /\ fs' (su_place su output) = Some out /\
    (In d (wanted_of dec mods) ->
     let payload := struct_for su mods (rust_name su (su_show su (JStr enum)) ++ "::" ++ rust_name su v)%string in
     holds_text (variant_line (rust_name su v) payload) out /\ holds_text (variant_arm n (rust_name su v) payload) out).
Proof. exact enum_in_file. Qed.
Print Assumptions C136_enum.

(** The struct for an event id is the first that is tagged with it. *)
Theorem C136_partial : forall su mods d enum v full pre post,
  shows_text su -> enum <> "" -> all_plain enum = true -> apart enum v ->
  taggable mods = pre ++ d :: post -> tags_with d enum v -> at_key "fullname" d = JStr full -> all_plain full = true ->
  (forall d' f, In d' pre -> is_struct d' = true -> In f (fields_of d') -> is_const f = true -> event_key su f <> (rust_name su enum ++ "::" ++ rust_name su v)%string) ->
  struct_for su mods (rust_name su (su_show su (JStr enum)) ++ "::" ++ rust_name su v)%string = Some (rust_name su full).
Proof. exact event_struct. Qed.
Print Assumptions C136_partial.

(** A second struct with the same tag is ignored. *)
Theorem C136_refuted : forall su, shows_text su -> su_pascal su "GameSA" <> su_pascal su "GameSB" ->
  ~ (forall mods d full enum v, In d (taggable mods) -> tags_with d enum v -> tags_fine mods -> at_key "fullname" d = JStr full ->
       struct_for su mods (rust_name su enum ++ "::" ++ rust_name su v)%string = Some (rust_name su full)).
Proof. exact second_struct. Qed.
Print Assumptions C136_refuted.

Example C136_example :
  shows_text ex_su /\ apart "NNet.Game.EEventId" "EBankFile" /\ tags_with (ex_bank "") "NNet.Game.EEventId" "EBankFile" /\
  tags_with (ex_bank "2") "NNet.Game.EEventId" "EBankFile" /\ has_variant ex_event_enum "NNet.Game.EEventId" "EBankFile" "7" /\
  has_text ("    EBankFile(GameSBankFile)," ++ nl)%string ex_generated "out.rs" = true /\
  has_text ("    ECamera," ++ nl)%string ex_generated "out.rs" = true /\
  has_text "let (tail, res) = GameSBankFile::parse(tail)?;" ex_generated "out.rs" = true /\
  has_text "GameSBankFile2::parse" ex_generated "out.rs" = false.
Proof.
  split; [intros s _; reflexivity|]. split; [reflexivity|].
  assert (W : forall n, tags_with (ex_bank n) "NNet.Game.EEventId" "EBankFile").
  { intros n. split; [reflexivity|]. eexists. split; [left; reflexivity|]. repeat split. }
  split; [apply W|]. split; [apply W|]. split.
  - split; [exists "TypeDecl"; split; [reflexivity | discriminate]|]. split; [reflexivity|]. split; [reflexivity|].
    eexists. split; [left; reflexivity|]. split; reflexivity.
  - repeat split; vm_compute; reflexivity.
Qed.
