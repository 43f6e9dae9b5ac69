(** * The [generate] command as a whole

    src/generator/proto_morphist.rs:31-557: from the path of a protocol
    definition (JSON) to the Rust module written.  Generator.v and ByteGen.v
    model the decoder written for one declaration; here is which declarations
    are written, in which order, under which names, and what is in the output
    file after a run, whether it succeeds or not.

    External: the JSON parser, [Value::to_string], [convert_case], the [Debug]
    text of a file name with characters other than printable ASCII, and the text
    between the braces of a declaration that is not an enum
    (src/generator/decoder_type.rs, which returns [String]s: it may panic but has
    no errors).  Log calls are left out. *)
From Coq Require Import Ascii.
From Verif Require Import Base BalanceJson.
#[local] Open Scope string_scope.
#[local] Open Scope Z_scope.
#[local] Open Scope list_scope.

(** [&v[key]], [&v[0]] of [serde_json::Value]: null if there is none. *)
Definition at_key (k : string) (v : json) : json :=
  match v with
  | JObj m => match find (fun e => String.eqb (fst e) k) m with Some e => snd e | None => JNull end
  | _ => JNull
  end.
Definition at_zero (v : json) : json := match v with JArr (x :: _) => x | _ => JNull end.
(** [as_str], [as_array], and [v == "text"]. *)
Definition as_text (v : json) : option string := match v with JStr s => Some s | _ => None end.
Definition as_list (v : json) : option (list json) := match v with JArr l => Some l | _ => None end.
Definition is_text (s : string) (v : json) : bool := match v with JStr s' => String.eqb s' s | _ => false end.
(** [unwrap], [expect] *)
Definition or_panic {A} (o : option A) : outcome A := match o with Some a => Ok a | None => Panic end.

(** [str::replace(pat, "")], leftmost matches first; an empty [pat] changes nothing. *)
Fixpoint drop_prefix (p s : string) : option string :=
  match p, s with
  | EmptyString, _ => Some s
  | String a p', String b s' => if Ascii.eqb a b then drop_prefix p' s' else None
  | _, _ => None
  end.
Fixpoint without_from (fuel : nat) (p s : string) : string :=
  match fuel with
  | O => s
  | Datatypes.S fuel' =>
      match drop_prefix p s with
      | Some rest => without_from fuel' p rest
      | None => match s with EmptyString => EmptyString | String a s' => String a (without_from fuel' p s') end
      end
  end.
Definition without (p s : string) : string :=
  match p with EmptyString => s | _ => without_from (String.length s) p s end.
(** [trim_matches] of the double quote. *)
Definition quote : ascii := Ascii.ascii_of_nat 34.
Fixpoint trim_left (s : string) : string :=
  match s with String a s' => if Ascii.eqb a quote then trim_left s' else s | EmptyString => EmptyString end.
Fixpoint rev_text (s acc : string) : string := match s with EmptyString => acc | String a s' => rev_text s' (String a acc) end.
Definition trim_quotes (s : string) : string := rev_text (trim_left (rev_text (trim_left s) "")) "".
(** [starts_with] *)
Definition starts (p s : string) : bool := match drop_prefix p s with Some _ => true | None => false end.

(** [Path::file_name] on Unix: the last component, if it is not [..]; empty
    components and [.] do not count. *)
Fixpoint path_parts (s cur : string) : list string :=
  match s with
  | EmptyString => [cur]
  | String a s' => if Ascii.eqb a "/"%char then cur :: path_parts s' "" else path_parts s' (cur ++ String a "")
  end.
Definition file_name (p : string) : option string :=
  match rev (filter (fun c => negb (String.eqb c "" || String.eqb c ".")) (path_parts p "")) with
  | [] => None
  | c :: _ => if String.eqb c ".." then None else Some c
  end.
Definition is_digit (a : ascii) : bool := let n := Ascii.nat_of_ascii a in (Nat.leb 48 n && Nat.leb n 57)%bool.
Fixpoint digits_of (s : string) : string :=
  match s with EmptyString => EmptyString | String a s' => if is_digit a then String a (digits_of s') else digits_of s' end.
(** [parse::<u64>] of a text of digits: an empty text and a value of 2^64 or
    more are errors. *)
Fixpoint digits_value (s : string) (acc : Z) : Z :=
  match s with EmptyString => acc | String a s' => digits_value s' (acc * 10 + (Z.of_nat (Ascii.nat_of_ascii a) - 48)) end.
Definition parse_u64 (s : string) : option Z :=
  match s with
  | EmptyString => None
  | _ => let v := digits_value s 0 in if v <? 2 ^ 64 then Some v else None
  end.
(** A character that [{:?}] prints as it is: printable ASCII but no quote and
    no backslash. *)
Definition is_plain (a : ascii) : bool :=
  let n := Ascii.nat_of_ascii a in (Nat.leb 32 n && Nat.leb n 126 && negb (Nat.eqb n 34) && negb (Nat.eqb n 92))%bool.
Fixpoint all_plain (s : string) : bool := match s with EmptyString => true | String a s' => (is_plain a && all_plain s')%bool end.

(** Model of src/generator/decoder_type.rs:14-20 [DecoderType]. *)
Inductive decoder := ByteAligned | BitPacked.

(** What is around a run: the external functions, which path leads to which
    file, which files can be created, and how many bytes they can hold. *)
Record surroundings := mk_surroundings {
  su_debug : string -> string;                 (* [{:?}] of a file name that is not plain *)
  su_parse : string -> option json;            (* [serde_json::from_slice] *)
  su_show : json -> string;                    (* [Value::to_string] *)
  su_pascal : string -> string;                (* [to_case(Case::Pascal)] *)
  su_body : decoder -> Z -> json -> string -> string -> option (string * string);
                                               (* what is not an enum: the text inside the type and inside the impl, by the number
                                                  of the protocol, the declaration, the sort of its type and its name *)
  su_enum_open : decoder -> Z -> string -> nat -> string;   (* the start of an enum's [parse], decoder_type.rs:1621-1628 *)
  su_enum_close : decoder -> string;           (* its end, decoder_type.rs:1630-1635 *)
  su_place : string -> string;                 (* the file a path leads to *)
  su_creates : string -> bool;                 (* [File::create] works *)
  su_reads : string -> bool;                   (* an existing file can be opened and read *)
  su_room : nat }.

(** Files by place. *)
Definition gen_files : Type := string -> option string.
Definition put_file (f : string) (c : string) (fs : gen_files) : gen_files := fun g => if String.eqb g f then Some c else fs g.

Section Generate.
  Variable su : surroundings.

  (** Model of proto_morphist.rs:582-589 [str_nnet_name_to_rust_name] and
      577-580 [proto_nnet_name_to_rust_name]. *)
  Definition rust_name (s : string) : string := su_pascal su (trim_quotes (without "NNet" (without "." s))).
  Definition rust_name_of (v : json) : outcome string := do s <- or_panic (as_text v); Ok (rust_name s).

  (** Model of proto_morphist.rs:36-39: the number of the protocol. *)
  Definition debug_name (n : string) : string := if all_plain n then String quote (n ++ String quote "") else su_debug su n.
  Definition proto_number (source : string) : outcome Z :=
    do n <- or_panic (file_name source); or_panic (parse_u64 (digits_of (debug_name n))).

  (** Model of proto_morphist.rs:305-366 [fill_module_decl_structs]; [tags]: the
      [HashMap], of which only [get] is used. *)
  Fixpoint fill_fields (d : json) (fields : list json) (tags : string -> option string) : outcome (string -> option string) :=
    match fields with
    | [] => Ok tags
    | f :: fields' =>
        do t <- or_panic (as_text (at_key "type" f));
        if negb (String.eqb t "ConstDecl") then fill_fields d fields' tags
        else
          do full <- or_panic (as_text (at_key "fullname" (at_key "type_info" f)));
          if negb (is_text "IdentifierExpr" (at_key "type" (at_key "value" f))) then Panic
          else
            do v <- or_panic (as_text (at_key "fullname" (at_key "value" f)));
            let key := (rust_name full ++ "::" ++ rust_name (without full v))%string in
            let new := rust_name (su_show su (at_key "fullname" d)) in
            fill_fields d fields' (match tags key with
                                   | Some _ => tags
                                   | None => fun k => if String.eqb k key then Some new else tags k
                                   end)
    end.
  Definition fill_structs (d : json) (tags : string -> option string) : outcome (string -> option string) :=
    if negb (is_text "StructType" (at_key "type" (at_key "type_info" d))) then Ok tags
    else do fields <- or_panic (as_list (at_key "fields" (at_key "type_info" d))); fill_fields d fields tags.
  Fixpoint fill_all (ds : list json) (tags : string -> option string) : outcome (string -> option string) :=
    match ds with
    | [] => Ok tags
    | d :: ds' => do tags' <- fill_structs d tags; fill_all ds' tags'
    end.
  (** Model of proto_morphist.rs:111-145 [collect_enum_tags]. *)
  Fixpoint collect_in (subs : list json) (tags : string -> option string) : outcome (string -> option string) :=
    match subs with
    | [] => Ok tags
    | s :: subs' =>
        do tags' <- match as_list (at_key "decls" s) with
                    | Some inner => fill_all inner tags
                    | None => fill_structs s tags
                    end;
        collect_in subs' tags'
    end.
  Fixpoint collect (mods : list json) (tags : string -> option string) : outcome (string -> option string) :=
    match mods with
    | [] => Ok tags
    | m :: mods' =>
        if (is_text "NNet.Replay" (at_key "fullname" m) || is_text "NNet.Game" (at_key "fullname" m))%bool then
          do subs <- or_panic (as_list (at_key "decls" m));
          do tags' <- collect_in subs tags;
          collect mods' tags'
        else collect mods' tags
    end.
  (** [self.proto_json["modules"][0]["decls"].as_array()] *)
  Definition modules_of (doc : json) : outcome (list json) := or_panic (as_list (at_key "decls" (at_zero (at_key "modules" doc)))).
  Definition collect_enum_tags (doc : json) : outcome (string -> option string) :=
    do mods <- modules_of doc; collect mods (fun _ => None).

  (** Model of proto_morphist.rs:593-612 [open_type_def_skel], and 559-576,
      with 616-619 [close_type_def_skel]. *)
  Definition type_head (unit name : string) : outcome string :=
    let struct := ("#[derive(Debug, PartialEq, Clone)]" ++ String (Ascii.ascii_of_nat 10) ("pub struct " ++ name))%string in
    let enum := ("#[derive(Debug, PartialEq, Clone)]" ++ String (Ascii.ascii_of_nat 10) ("pub enum " ++ name))%string in
    do h <- (if existsb (String.eqb unit) ["StructType"; "IntType"; "BitArrayType"; "UserType"; "StringType"; "ArrayType"; "DynArrayType"; "InumType"; "BlobType"] then Ok struct
             else if existsb (String.eqb unit) ["EnumType"; "ChoiceType"] then Ok enum
             else Panic);
    Ok (h ++ " {" ++ String (Ascii.ascii_of_nat 10) "")%string.

  (** Model of src/generator/decoder_type.rs:1644-1694
      [gen_agnostic_proto_enum_code]: the variants of the type and the arms of
      the [match]; [ename]: the Rust name of the enum. *)
  Definition nl : string := String (Ascii.ascii_of_nat 10) "".
  Definition dq : string := String quote "".
  Definition variant_line (name : string) (payload : option string) : string :=
    ("    " ++ name ++ match payload with Some s => "(" ++ s ++ ")" | None => "" end ++ "," ++ nl)%string.
  Definition variant_arm (value name : string) (payload : option string) : string :=
    (" " ++ value ++ " => {" ++ nl ++ "tracing::debug!(" ++ dq ++ "Variant " ++ name ++ " for value '" ++ value ++ "'" ++ dq ++ ");" ++ nl ++
     match payload with
     | Some s => nl ++ "                let (tail, res) = " ++ s ++ "::parse(tail)?;" ++ nl ++ "                Ok((tail, Self::" ++ name ++ "(res)))" ++ nl ++ "}," ++ nl
     | None => "Ok((tail, Self::" ++ name ++ "))" ++ nl ++ "}," ++ nl
     end)%string.
  Definition unknown_arm : string :=
    (nl ++ "            _ => {" ++ nl ++ "tracing::error!(" ++ dq ++ "Unknown variant value {variant_tag}" ++ dq ++ ");" ++ nl ++
     "Err(S2ProtocolError::UnknownTag(variant_tag))" ++ nl ++ "}," ++ nl)%string.
  Fixpoint enum_texts (tags : string -> option string) (ename : string) (vs : list json) : outcome (string * string) :=
    match vs with
    | [] => Ok ("", unknown_arm)
    | v :: vs' =>
        do name <- rust_name_of (at_key "name" v);
        let payload := tags (ename ++ "::" ++ name)%string in
        do value <- or_panic (as_text (at_key "value" (at_key "value" v)));
        do sort <- or_panic (as_text (at_key "type" (at_key "value" v)));
        if negb (String.eqb sort "IntLiteral") then Panic
        else
          do rest <- enum_texts tags ename vs';
          Ok (variant_line name payload ++ fst rest, variant_arm value name payload ++ snd rest)%string
    end.
  Definition body_texts (num : Z) (tags : string -> option string) (dec : decoder) (d : json) (unit name : string) : outcome (string * string) :=
    if String.eqb unit "EnumType" then
      do vs <- or_panic (as_list (at_key "fields" (at_key "type_info" d)));
      do t <- enum_texts tags (rust_name (su_show su (at_key "fullname" d))) vs;
      Ok (fst t, su_enum_open su dec num name (length vs) ++ snd t ++ su_enum_close su dec)%string
    else or_panic (su_body su dec num d unit name).

  (** The texts of the two [write_all]s of proto_morphist.rs:382-557
      [gen_proto_code]; [None] for a [ConstDecl]. *)
  Definition proto_texts (num : Z) (tags : string -> option string) (dec : decoder) (d : json) : outcome (option (string * string)) :=
    do t <- or_panic (as_text (at_key "type" d));
    if String.eqb t "ConstDecl" then Ok None
    else
      do unit <- or_panic (as_text (at_key "type" (at_key "type_info" d)));
      do name <- match as_text (at_key "fullname" d) with
                 | Some s => Ok (rust_name s)
                 | None => if is_text "m_eventData" (at_key "name" d) then rust_name_of (at_key "name" d) else Panic
                 end;
      do head <- type_head unit name;
      do body <- body_texts num tags dec d unit name;
      Ok (Some (nl ++ head ++ fst body ++ "}" ++ nl,
                ("impl " ++ name ++ " {" ++ nl) ++ snd body ++ "}" ++ nl ++ nl)%string).

  (** [write_all] to the output: [out] is what it holds so far. *)
  Definition written : Type := outcome unit * string.
  Definition write_text (s out : string) : written :=
    if Nat.leb (String.length out + String.length s) (su_room su) then (Ok tt, out ++ s)%string
    else (Err (EOther "io"), out ++ String.substring 0 (su_room su - String.length out) s)%string.
  Definition and_then (w : written) (f : string -> written) : written := match w with (Ok _, out) => f out | _ => w end.
  (** Model of proto_morphist.rs:382-557 [gen_proto_code]. *)
  Definition write_decl (num : Z) (tags : string -> option string) (dec : decoder) (d : json) (out : string) : written :=
    match proto_texts num tags dec d with
    | Ok None => (Ok tt, out)
    | Ok (Some (ty, im)) => and_then (write_text ty out) (write_text im)
    | Err e => (Err e, out)
    | Panic => (Panic, out)
    end.
  (** A [for] loop whose body may stop the run. *)
  Fixpoint for_each (f : json -> string -> written) (l : list json) (out : string) : written :=
    match l with
    | [] => (Ok tt, out)
    | d :: l' => and_then (f d out) (for_each f l')
    end.
  Definition loop_over (o : option (list json)) (f : json -> string -> written) (out : string) : written :=
    match o with Some l => for_each f l out | None => (Panic, out) end.
  Definition only_if (b : bool) (f : string -> written) (out : string) : written := if b then f out else (Ok tt, out).
  Definition named_one (v : json) (l : list string) : bool := existsb (fun s => is_text s (at_key "fullname" v)) l.

  (** Model of proto_morphist.rs:56-83: the header of the two sub-modules. *)
  Definition source_line (source : string) : string := ("//! Generated code from source: " ++ source ++ String (Ascii.ascii_of_nat 10) "")%string.
  Definition line (s : string) : string := (s ++ String (Ascii.ascii_of_nat 10) "")%string.
  Definition nothing : string -> written := fun out => (Ok tt, out).

  (** Model of proto_morphist.rs:147-214 [gen_byte_aligned_mod], the body of
      its outer loop. *)
  Definition byte_module (num : Z) (tags : string -> option string) (m : json) (out : string) : written :=
    match as_text (at_key "fullname" m) with
    | None => (Panic, out)
    | Some full =>
        let gen := write_decl num tags ByteAligned in
        and_then (only_if (String.eqb full "NNet.SVersion") (gen m) out) (fun out =>
        and_then (only_if (String.eqb full "NNet.SVarUint32") (gen m) out) (fun out =>
        and_then (only_if (String.eqb full "NNet.SMD5") (gen m) out) (fun out =>
        and_then (only_if (String.eqb full "NNet.EObserve") (gen m) out) (fun out =>
        only_if (String.eqb full "NNet.Replay" || String.eqb full "NNet.Game")
          (loop_over (as_list (at_key "decls" m)) (fun r out =>
             and_then (only_if (named_one r ["NNet.Replay.SHeader"]) (gen r) out) (fun out =>
             and_then (only_if (named_one r ["NNet.Replay.Tracker"])
                         (loop_over (as_list (at_key "decls" r)) (fun t out =>
                            match as_text (at_key "fullname" t) with
                            | None => (Panic, out)
                            | Some tn => only_if (starts "NNet.Replay.Tracker.S" tn || String.eqb tn "NNet.Replay.Tracker.EEventId") (gen t) out
                            end)) out) (fun out =>
             only_if (named_one r ["NNet.Game.CPlayerDetailsArray"; "NNet.Game.SDetails"; "NNet.Game.SPlayerDetails"; "NNet.Game.SThumbnail";
                                   "NNet.Game.EGameSpeed"; "NNet.Game.EResultDetails"; "NNet.Game.SToonNameDetails"; "NNet.Game.SColor"])
               (gen r) out)))) out))))
    end.

  (** Model of proto_morphist.rs:216-303 [gen_bit_packed_mod], likewise. *)
  Definition bit_module (num : Z) (tags : string -> option string) (m : json) (out : string) : written :=
    match as_text (at_key "fullname" m) with
    | None => (Panic, out)
    | Some full =>
        let gen := write_decl num tags BitPacked in
        and_then (only_if (starts "NNet.uint" full) (gen m) out) (fun out =>
        and_then (only_if (starts "NNet.int" full) (gen m) out) (fun out =>
        and_then (only_if (existsb (String.eqb full)
          ["NNet.SVarUint32"; "NNet.TUserId"; "NNet.ELeaveReason"; "NNet.CToonHandle"; "NNet.CFilePath"; "NNet.EObserve"; "NNet.CUserName";
           "NNet.CClanTag"; "NNet.CUserInitialDataArray"; "NNet.EReconnectStatus"; "NNet.TUserCount"; "NNet.CCommanderHandle";
           "NNet.CMountHandle"; "NNet.CSkinHandle"; "NNet.CHeroHandle"; "NNet.TRacePreference"; "NNet.CArtifactHandle"; "NNet.TRaceCount";
           "NNet.TRaceId"; "NNet.SUserInitialData"; "NNet.CAllowedObserveTypes"; "NNet.CAllowedRaces"; "NNet.CCacheHandle";
           "NNet.TTeamPreference"]) (gen m) out) (fun out =>
        and_then (only_if (String.eqb full "NNet.Replay")
          (loop_over (as_list (at_key "decls" m)) (fun r out =>
             only_if (named_one r ["NNet.Replay.SGameUserId"; "NNet.Replay.SInitData"]) (gen r) out)) out) (fun out =>
        and_then (only_if (String.eqb full "NNet.SVersion") (gen m) out) (fun out =>
        and_then (only_if (String.eqb full "NNet.SMD5") (gen m) out) (fun out =>
        only_if (String.eqb full "NNet.Game")
          (loop_over (as_list (at_key "decls" m)) (fun g out =>
             if named_one g ["NNet.Game.ESenders"] then (Ok tt, out)
             else and_then (gen g out) (fun out =>
                    only_if (named_one g ["NNet.Game.STriggerDialogControlEvent"])
                      (loop_over (as_list (at_key "fields" (at_key "type_info" g))) (fun c out =>
                         only_if (is_text "m_eventData" (at_key "name" c)) (gen c) out)) out))) out))))))
    end.

  (** Model of proto_morphist.rs:149-153, 213 and 218-222, 302: a sub-module.
      The array of modules is there: [collect_enum_tags] came first. *)
  Definition sub_module (open : string) (imports : list string) (source : string) (one : json -> string -> written) (mods : list json) (out : string) : written :=
    and_then (write_text (line open) out) (fun out =>
    and_then (write_text (source_line source) out) (fun out =>
    and_then (write_text (String.concat "" (map line imports)) out) (fun out =>
    and_then (for_each one mods out) (write_text (line "}"))))).

  (** Model of proto_morphist.rs:371-380 [gen] after [new]: what the output
      holds at the end. *)
  Definition gen_rest (source : string) (num : Z) (doc : json) : written :=
    match collect_enum_tags doc with
    | Err e => (Err e, "")
    | Panic => (Panic, "")
    | Ok tags =>
        match modules_of doc with
        | Ok mods =>
            and_then (write_text (line "pub mod events;" ++ line "pub use events::*;") "") (fun out =>
            and_then (sub_module "pub mod byte_aligned {" ["use crate::*;"; "use nom_mpq::parser::peek_hex;"] source (byte_module num tags) mods out) (fun out =>
            sub_module "pub mod bit_packed {" ["use crate::*;"] source (bit_module num tags) mods out))
        | _ => (Panic, "")
        end
    end.

  (** Model of proto_morphist.rs:31-54 [new] and 368-380 [gen]: the output is
      created, that is emptied, before the definition is opened. *)
  Definition generate (source output : string) (fs : gen_files) : outcome unit * gen_files :=
    match proto_number source with
    | Err e => (Err e, fs)
    | Panic => (Panic, fs)
    | Ok num =>
        if negb (su_creates su (su_place su output)) then (Err (EOther "io"), fs)
        else
          let fs' := put_file (su_place su output) "" fs in
          match (if su_reads su (su_place su source) then fs' (su_place su source) else None) with
          | None => (Panic, fs')
          | Some text =>
              match su_parse su text with
              | None => (Panic, fs')
              | Some doc => let (o, out) := gen_rest source num doc in (o, put_file (su_place su output) out fs')
              end
          end
    end.
End Generate.
