(** * What [generate] should write: specification

    A protocol definition is an array of modules; each may hold declarations,
    and some of those hold declarations or fields.  [walk] lists them all in the
    order of the document with the place each is at; [wanted] says which of them
    a module of decoders is made of.  A generated file is then a sequence of
    [piece]s: fixed lines, and the code of the wanted declarations. *)
From Coq Require Import Ascii.
From Verif Require Import Base BalanceJson GenerateRun.
#[local] Open Scope string_scope.
#[local] Open Scope Z_scope.
#[local] Open Scope list_scope.

Definition listed (o : option (list json)) : list json := match o with Some l => l | None => [] end.
Definition decls_of (d : json) : list json := listed (as_list (at_key "decls" d)).
Definition fields_of (d : json) : list json := listed (as_list (at_key "fields" (at_key "type_info" d))).
(** The name of a declaration, if it has one. *)
Definition name_of (d : json) : option string := as_text (at_key "fullname" d).

Inductive doc_place :=
| AtTop
| InModule (m : option string)                      (* in the module of this name *)
| InTracker (m c : option string)                   (* in the declaration [c] of the module [m] *)
| AsField (m c : option string).                    (* a field of the declaration [c] of the module [m] *)

Definition walk (mods : list json) : list (doc_place * json) :=
  flat_map (fun m => (AtTop, m) ::
    flat_map (fun c => (InModule (name_of m), c) ::
      map (fun g => (InTracker (name_of m) (name_of c), g)) (decls_of c) ++
      map (fun f => (AsField (name_of m) (name_of c), f)) (fields_of c)) (decls_of m)) mods.

Definition one_of (o : option string) (l : list string) : bool := match o with Some s => existsb (String.eqb s) l | None => false end.
Definition begins_with (o : option string) (p : string) : bool := match o with Some s => String.prefix p s | None => false end.

(** The declarations a sub-module is made of. *)
Definition wanted (dec : decoder) (e : doc_place * json) : bool :=
  let n := name_of (snd e) in
  match dec, fst e with
  | ByteAligned, AtTop => one_of n ["NNet.SVersion"; "NNet.SVarUint32"; "NNet.SMD5"; "NNet.EObserve"]
  | ByteAligned, InModule m =>
      one_of m ["NNet.Replay"; "NNet.Game"] &&
      one_of n ["NNet.Replay.SHeader"; "NNet.Game.CPlayerDetailsArray"; "NNet.Game.SDetails"; "NNet.Game.SPlayerDetails"; "NNet.Game.SThumbnail";
                "NNet.Game.EGameSpeed"; "NNet.Game.EResultDetails"; "NNet.Game.SToonNameDetails"; "NNet.Game.SColor"]
  | ByteAligned, InTracker m c =>
      one_of m ["NNet.Replay"; "NNet.Game"] && one_of c ["NNet.Replay.Tracker"] &&
      (begins_with n "NNet.Replay.Tracker.S" || one_of n ["NNet.Replay.Tracker.EEventId"])
  | ByteAligned, AsField _ _ => false
  | BitPacked, AtTop =>
      begins_with n "NNet.uint" || begins_with n "NNet.int" ||
      one_of n ["NNet.SVarUint32"; "NNet.TUserId"; "NNet.ELeaveReason"; "NNet.CToonHandle"; "NNet.CFilePath"; "NNet.EObserve"; "NNet.CUserName";
                "NNet.CClanTag"; "NNet.CUserInitialDataArray"; "NNet.EReconnectStatus"; "NNet.TUserCount"; "NNet.CCommanderHandle";
                "NNet.CMountHandle"; "NNet.CSkinHandle"; "NNet.CHeroHandle"; "NNet.TRacePreference"; "NNet.CArtifactHandle"; "NNet.TRaceCount";
                "NNet.TRaceId"; "NNet.SUserInitialData"; "NNet.CAllowedObserveTypes"; "NNet.CAllowedRaces"; "NNet.CCacheHandle";
                "NNet.TTeamPreference"; "NNet.SVersion"; "NNet.SMD5"]
  | BitPacked, InModule m =>
      (one_of m ["NNet.Replay"] && one_of n ["NNet.Replay.SGameUserId"; "NNet.Replay.SInitData"]) ||
      (one_of m ["NNet.Game"] && negb (one_of n ["NNet.Game.ESenders"]))
  | BitPacked, InTracker _ _ => false
  | BitPacked, AsField m c =>
      one_of m ["NNet.Game"] && one_of c ["NNet.Game.STriggerDialogControlEvent"] && one_of (as_text (at_key "name" (snd e))) ["m_eventData"]
  end.
Definition wanted_of (dec : decoder) (mods : list json) : list json := map snd (filter (wanted dec) (walk mods)).

(** ** The pieces of a generated file *)
Inductive piece := Lines (l : list string) | CodeOf (dec : decoder) (d : json).
Definition module_pieces (source : string) (mods : list json) : list piece :=
  [Lines ["pub mod events;"; "pub use events::*;"];
   Lines ["pub mod byte_aligned {"]; Lines [("//! Generated code from source: " ++ source)%string];
   Lines ["use crate::*;"; "use nom_mpq::parser::peek_hex;"]] ++
  map (CodeOf ByteAligned) (wanted_of ByteAligned mods) ++
  [Lines ["}"];
   Lines ["pub mod bit_packed {"]; Lines [("//! Generated code from source: " ++ source)%string];
   Lines ["use crate::*;"]] ++
  map (CodeOf BitPacked) (wanted_of BitPacked mods) ++
  [Lines ["}"]].

(** ** The structs the event ids lead to *)

(** The declarations that can be tagged with an event id, in document order:
    those in NNet.Replay and NNet.Game, or what is inside them. *)
Definition taggable (mods : list json) : list json :=
  flat_map (fun m => if one_of (name_of m) ["NNet.Replay"; "NNet.Game"]
                     then flat_map (fun c => match as_list (at_key "decls" c) with Some l => l | None => [c] end) (decls_of m)
                     else []) mods.
Definition is_struct (d : json) : bool := one_of (as_text (at_key "type" (at_key "type_info" d))) ["StructType"].
Definition is_const (f : json) : bool := one_of (as_text (at_key "type" f)) ["ConstDecl"].
(** The constants of the structs: what each struct is tagged with, as the text
    of the enum, of the variant, and the struct. *)
Definition all_tags (mods : list json) : list (json * json) :=
  flat_map (fun d => map (fun f => (f, d)) (filter is_const (fields_of d))) (filter is_struct (taggable mods)).

Section Spec.
  Variable su : surroundings.
  (** The event id of a constant: its enum and its variant, in Rust. *)
  Definition event_key (f : json) : string :=
    let full := match as_text (at_key "fullname" (at_key "type_info" f)) with Some s => s | None => "" end in
    let v := match as_text (at_key "fullname" (at_key "value" f)) with Some s => s | None => "" end in
    (rust_name su full ++ "::" ++ rust_name su (without full v))%string.
  (** The struct for an event id: the first one tagged with it. *)
  Definition struct_for (mods : list json) (key : string) : option string :=
    match find (fun e => String.eqb (event_key (fst e)) key) (all_tags mods) with
    | Some e => Some (rust_name su (su_show su (at_key "fullname" (snd e))))
    | None => None
    end.

  (** ** The code of a declaration *)
  Definition rust_name_is (d : json) (name : string) : Prop :=
    match name_of d with
    | Some s => name = rust_name su s
    | None => at_key "name" d = JStr "m_eventData" /\ name = rust_name su "m_eventData"
    end.
  Definition keyword (unit kw : string) : Prop :=
    (kw = "struct" /\ In unit ["StructType"; "IntType"; "BitArrayType"; "UserType"; "StringType"; "ArrayType"; "DynArrayType"; "InumType"; "BlobType"]) \/
    (kw = "enum" /\ In unit ["EnumType"; "ChoiceType"]).
  Definition one_variant (tags : string -> option string) (ename : string) (v : json) (t : string * string) : Prop :=
    exists name value, at_key "name" v = JStr name /\ at_key "value" (at_key "value" v) = JStr value /\
      at_key "type" (at_key "value" v) = JStr "IntLiteral" /\
      t = (variant_line (rust_name su name) (tags (ename ++ "::" ++ rust_name su name)%string),
           variant_arm value (rust_name su name) (tags (ename ++ "::" ++ rust_name su name)%string)).
  Definition insides (num : Z) (tags : string -> option string) (dec : decoder) (d : json) (unit name inner impl : string) : Prop :=
    (unit = "EnumType" /\ exists vs ts, at_key "fields" (at_key "type_info" d) = JArr vs /\
       Forall2 (one_variant tags (rust_name su (su_show su (at_key "fullname" d)))) vs ts /\
       inner = String.concat "" (map fst ts) /\
       impl = (su_enum_open su dec num name (length vs) ++ String.concat "" (map snd ts) ++ unknown_arm ++ su_enum_close su dec)%string) \/
    (unit <> "EnumType" /\ su_body su dec num d unit name = Some (inner, impl)).
  (** [declaration_text d text]: [text] is the code of [d]; constants have none. *)
  Inductive declaration_text (num : Z) (tags : string -> option string) (dec : decoder) (d : json) : string -> Prop :=
  | text_of_constant : at_key "type" d = JStr "ConstDecl" -> declaration_text num tags dec d ""
  | text_of_type t unit name kw inner impl :
      at_key "type" d = JStr t -> t <> "ConstDecl" ->
      at_key "type" (at_key "type_info" d) = JStr unit -> rust_name_is d name -> keyword unit kw ->
      insides num tags dec d unit name inner impl ->
      declaration_text num tags dec d
        (nl ++ "#[derive(Debug, PartialEq, Clone)]" ++ nl ++ "pub " ++ kw ++ " " ++ name ++ " {" ++ nl ++ inner ++ "}" ++ nl ++
         "impl " ++ name ++ " {" ++ nl ++ impl ++ "}" ++ nl ++ nl)%string.
  Inductive piece_text (num : Z) (tags : string -> option string) : piece -> string -> Prop :=
  | text_of_lines l : piece_text num tags (Lines l) (String.concat "" (map (fun s => s ++ nl)%string l))
  | text_of_code dec d s : declaration_text num tags dec d s -> piece_text num tags (CodeOf dec d) s.

  (** ** Definitions that can be generated from *)
  Definition const_fine (f : json) : Prop :=
    (exists s, at_key "fullname" (at_key "type_info" f) = JStr s) /\ at_key "type" (at_key "value" f) = JStr "IdentifierExpr" /\
    (exists s, at_key "fullname" (at_key "value" f) = JStr s).
  Definition tags_fine (mods : list json) : Prop :=
    (forall m, In m mods -> one_of (name_of m) ["NNet.Replay"; "NNet.Game"] = true -> exists l, at_key "decls" m = JArr l) /\
    (forall d, In d (taggable mods) -> is_struct d = true ->
       (exists l, at_key "fields" (at_key "type_info" d) = JArr l) /\
       forall f, In f (fields_of d) -> (exists s, at_key "type" f = JStr s) /\ (is_const f = true -> const_fine f)).
  Definition shape_fine (mods : list json) : Prop :=
    (forall m, In m mods -> exists s, at_key "fullname" m = JStr s) /\
    (forall m c, In m mods -> In c (decls_of m) -> one_of (name_of m) ["NNet.Replay"; "NNet.Game"] = true ->
       one_of (name_of c) ["NNet.Replay.Tracker"] = true ->
       (exists l, at_key "decls" c = JArr l) /\ forall t, In t (decls_of c) -> exists s, at_key "fullname" t = JStr s) /\
    (forall m c, In m mods -> In c (decls_of m) -> one_of (name_of m) ["NNet.Game"] = true ->
       one_of (name_of c) ["NNet.Game.STriggerDialogControlEvent"] = true -> exists l, at_key "fields" (at_key "type_info" c) = JArr l).
End Spec.
