(** * C139, C140: the byte-aligned decoders of a generated module and its document *)
From Coq Require Import Ascii Lia.
From Verif Require Import Base BalanceJson Types Versioned Generator ByteGen ByteGenSpec ByteGenFacts GenerateRun GenerateSpec GenerateFacts GenerateTags GenerateEnds GenJson GenJsonSpec GenJsonFacts ByteJson ByteJsonSpec ByteJsonFacts PropsGenerate PropsGenJson.
#[local] Open Scope string_scope.
#[local] Open Scope Z_scope.
#[local] Open Scope list_scope.

(** ** C139: each decoder is that of the type its declaration describes

    [ydescribed_decl su mods d t] (ByteJsonSpec.v): the declaration [d] of the
    document describes [t].  [ygen t]: the decoder for [t] (ByteGen.v), of which
    C120-C122 speak.  [byte_module_code ... n name]: the decoder under a name of
    the module written, names followed [n] times. *)
Theorem C139_module : forall su source output fs fs',
  json_parser su -> byte_stops_as_read su -> names_as_in_table su ->
  generate su source output fs = (Ok tt, fs') ->
  exists text doc mods, fs (su_place su source) = Some text /\ su_parse su text = Some doc /\ modules_of doc = Ok mods /\
    (NoDup (map (jg_name su) (declared_bytes mods)) -> forall d t, In d (declared_bytes mods) -> ydescribed_decl su mods d t ->
     match ygen t with
     | Ok k => exists N, forall n, (N <= n)%nat -> byte_module_code su (struct_for su mods) (declared_bytes mods) n (jg_name su d) = Some k
     | Err _ => forall n, byte_module_code su (struct_for su mods) (declared_bytes mods) n (jg_name su d) = None
     | Panic => False
     end).
Proof. exact generated_byte_module. Qed.
Print Assumptions C139_module.

(** A plain declaration (C120) of the document is therefore read in Blizzard's
    format, wherever its parts are declared. *)
Lemma byte_module_reads : forall su source output fs fs',
  json_parser su -> byte_stops_as_read su -> names_as_in_table su ->
  generate su source output fs = (Ok tt, fs') ->
  exists text doc mods, fs (su_place su source) = Some text /\ su_parse su text = Some doc /\ modules_of doc = Ok mods /\
    (NoDup (map (jg_name su) (declared_bytes mods)) -> forall d t, In d (declared_bytes mods) -> ydescribed_decl su mods d t -> yplain t = true ->
     exists k N, (forall n, (N <= n)%nat -> byte_module_code su (struct_for su mods) (declared_bytes mods) n (jg_name su d) = Some k) /\ yreads k t).
Proof.
  intros su source output fs fs' J S M G. destruct (generated_byte_module su source output fs fs' J S M G) as (text & doc & mods & H1 & H2 & H3 & H4).
  exists text, doc, mods. refine (conj H1 (conj H2 (conj H3 _))). intros N d t I D P. specialize (H4 N d t I D).
  destruct (byte_generated_reads t P) as (k & E & R). rewrite E in H4. destruct H4 as (n & H4). exists k, n. split; assumption.
Qed.
Theorem C139_reads : forall su source output fs fs',
  json_parser su -> byte_stops_as_read su -> names_as_in_table su ->
  generate su source output fs = (Ok tt, fs') ->
  exists text doc mods, fs (su_place su source) = Some text /\ su_parse su text = Some doc /\ modules_of doc = Ok mods /\
    (NoDup (map (jg_name su) (declared_bytes mods)) -> forall d t, In d (declared_bytes mods) -> ydescribed_decl su mods d t -> yplain t = true ->
     exists k N, (forall n, (N <= n)%nat -> byte_module_code su (struct_for su mods) (declared_bytes mods) n (jg_name su d) = Some k) /\ yreads k t).
Proof. exact byte_module_reads. Qed.
Print Assumptions C139_reads.

(** ** An example *)
Definition bj_field (n z : string) (ti : json) : json :=
  JObj [("type", JStr "MemberStructField"); ("name", JStr n); ("tag", JObj [("type", JStr "IntLiteral"); ("value", JStr z)]); ("type_info", ti)].
Definition bj_opt (ti : json) : json := gj_type "OptionalType" [("type_info", ti)].
Definition bj_md5 : json := ex_decl "NNet.SMD5" "StructType" [("fields", JArr [
  ex_const "NNet.EKind" "EHash";
  bj_field "m_dataDeprecated" "0" (bj_opt (gj_type "ArrayType" [("bounds", gj_upto "16"); ("element_type", gj_user "NNet.uint8")]));
  bj_field "m_data" "1" (gj_type "BlobType" [])])].
Definition bj_color : json := ex_decl "NNet.Game.SColor" "StructType" [("fields", JArr [
  bj_field "m_a" "0" (gj_user "NNet.uint8"); bj_field "m_r" "1" (gj_user "NNet.uint8")])].
Definition bj_player : json := ex_decl "NNet.Game.SPlayerDetails" "StructType" [("fields", JArr [
  bj_field "m_name" "0" (gj_user "NNet.CUserName"); bj_field "m_color" "3" (bj_opt (gj_user "NNet.Game.SColor"))])].
Definition bj_players : json := ex_decl "NNet.Game.CPlayerDetailsArray" "ArrayType" [("bounds", gj_upto "16"); ("element_type", gj_user "NNet.Game.SPlayerDetails")].
Definition bj_details : json := ex_decl "NNet.Game.SDetails" "StructType" [("fields", JArr [
  bj_field "m_playerList" "0" (bj_opt (gj_user "NNet.Game.CPlayerDetailsArray")); bj_field "m_blizzard" "1" (gj_type "BoolType" [])])].
Definition bj_unit : json := ex_decl "NNet.Replay.Tracker.SUnitBorn" "StructType" [("fields", JArr [
  JObj [("type", JStr "ConstDecl"); ("type_info", JObj [("fullname", JStr "NNet.Replay.Tracker.EEventId")]);
        ("value", JObj [("type", JStr "IdentifierExpr"); ("fullname", JStr "NNet.Replay.Tracker.EEventId.EUnitBorn")])];
  bj_field "m_id" "0" (gj_user "NNet.uint8")])].
Definition bj_events : json := ex_decl "NNet.Replay.Tracker.EEventId" "EnumType" [("fields", JArr [ex_variant "EUnitBorn" "1"; ex_variant "EQuiet" "2"])].
Definition bj_name : json := ex_decl "NNet.CUserName" "StringType" [("bounds", gj_upto "255")].
Definition bj_mods : list json := [gj_uint8; bj_name; bj_md5;
  ex_module "NNet.Game" [bj_color; bj_player; bj_players; bj_details]; ex_module "NNet.Replay" [ex_module "NNet.Replay.Tracker" [bj_events; bj_unit]]].
Definition bj_pascal (s : string) : string := if String.eqb s "SMD5" then "Smd5" else s.
Definition bj_show (v : json) : string := match v with JStr s => String quote (s ++ String quote "") | _ => "null" end.
Definition bj_plain_su : surroundings := mk_surroundings (fun s => s) (fun _ => None) bj_show bj_pascal
  (fun _ _ _ _ _ => None) (fun _ _ _ _ => "") (fun _ => "") (fun p => p) (fun _ => true) (fun _ => true) 0%nat.
Definition bj_su_of (ms : list json) : surroundings :=
  mk_surroundings (fun s => s) (fun s => if String.eqb s "definition" then Some (JObj [("modules", JArr [JObj [("decls", JArr ms)]])]) else None)
    bj_show bj_pascal
    (fun dec _ d _ _ => match dec with
                        | BitPacked => Some ("", "")
                        | ByteAligned => match yj_decl bj_plain_su (fun _ => None) (fun _ => None) d with Panic => None | _ => Some ("", "") end
                        end)
    (fun _ _ _ _ => "fn parse {") (fun _ => "}") (fun p => p) (fun _ => true) (fun _ => true) (20 * 400)%nat.
Lemma same_byte_reading su su' r t d : su_pascal su = su_pascal su' -> su_show su = su_show su' -> yj_decl su r t d = Panic -> yj_decl su' r t d = Panic.
Proof. destruct su, su'. cbn. intros -> ->. auto. Qed.
Lemma bj_stops ms : byte_stops_as_read (bj_su_of ms).
Proof.
  intros num d unit name _ _ H E. apply H. cbn [bj_su_of su_body].
  erewrite (same_byte_reading (bj_su_of ms) bj_plain_su (fun _ => None) (fun _ => None) d); [reflexivity|reflexivity|reflexivity|exact E].
Qed.
Example bj_table ms : names_as_in_table (bj_su_of ms).
Proof.
  intros n r H. cbn [spelled_out In] in H. repeat (destruct H as [H|H]; [injection H as <- <-; vm_compute; reflexivity|]). contradiction.
Qed.
Definition bj_su : surroundings := bj_su_of bj_mods.
Definition bj_made (ms : list json) : outcome unit * gen_files := generate (bj_su_of ms) "json/protocol87702.json" "out.rs" ex_gen_files.
Example bj_runs : match bj_made bj_mods with (Ok _, _) => true | _ => false end = true.
Proof. vm_compute. reflexivity. Qed.
Lemma bj_declared : declared_bytes bj_mods = [bj_md5; bj_color; bj_player; bj_players; bj_details; bj_events; bj_unit].
Proof. vm_compute. reflexivity. Qed.
Example bj_names : map (jg_name bj_su) (declared_bytes bj_mods) =
  ["Smd5"; "GameSColor"; "GameSPlayerDetails"; "GameCPlayerDetailsArray"; "GameSDetails"; "ReplayTrackerEEventId"; "ReplayTrackerSUnitBorn"].
Proof. vm_compute. reflexivity. Qed.

Definition y_uint8 : ytype := YInt 0 255.
Definition y_md5 : ytype := YStruct 1 [("m_dataDeprecated", Some 0, YOpt (YArray false (YUser "NNet.uint8" y_uint8))); ("m_data", Some 1, YBlob)].
Definition y_color : ytype := YStruct 0 [("m_a", Some 0, YUser "NNet.uint8" y_uint8); ("m_r", Some 1, YUser "NNet.uint8" y_uint8)].
Definition y_player : ytype := YStruct 0 [("m_name", Some 0, YUser "NNet.CUserName" YString); ("m_color", Some 3, YOpt (YUser "NNet.Game.SColor" y_color))].
Definition y_players : ytype := YArray false (YUser "NNet.Game.SPlayerDetails" y_player).
Definition y_details : ytype := YStruct 0 [("m_playerList", Some 0, YOpt (YUser "NNet.Game.CPlayerDetailsArray" y_players)); ("m_blizzard", Some 1, YBool)].
Definition y_unit : ytype := YStruct 1 [("m_id", Some 0, YUser "NNet.uint8" y_uint8)].
Definition y_events : ytype := YEvents [(1, "EUnitBorn", Some y_unit); (2, "EQuiet", None)].
Ltac bytes_by := rewrite bj_declared; cbn [In]; tauto.
Ltac walked_by := vm_compute; tauto.
Ltac not_own := let H := fresh in intros H; exfalso; cbn [own_names In] in H; repeat (destruct H as [H|H]; [discriminate H|]); exact H.
Lemma bj_is_uint8 : ydescribed_decl bj_su bj_mods gj_uint8 y_uint8.
Proof.
  apply yis_type; [discriminate|intros [A|A]; discriminate A|]. apply (yis_int _ _ _ "IntType"); [left; reflexivity|split; reflexivity|].
  split; [left|right]; split; reflexivity.
Qed.
Lemma bj_user_uint8 : ydescribed bj_su bj_mods (gj_user "NNet.uint8") (YUser "NNet.uint8" y_uint8).
Proof. apply (yis_name _ _ _ _ gj_uint8); try reflexivity; [walked_by|exact bj_is_uint8|not_own|discriminate]. Qed.
Lemma bj_is_md5 : ydescribed_decl bj_su bj_mods bj_md5 y_md5.
Proof.
  apply yis_type; [discriminate|intros [A|A]; discriminate A|]. eapply yis_fields; [split; reflexivity|reflexivity|].
  apply ya_constant; [reflexivity|reflexivity|left; discriminate|].
  apply yone_more_field; [reflexivity|reflexivity|split; reflexivity| |].
  - apply yis_option; [split; reflexivity|]. apply yis_array; [split; reflexivity|exact bj_user_uint8].
  - apply yone_more_field; [reflexivity|reflexivity|split; reflexivity|apply yis_blob; split; reflexivity|apply yno_field].
Qed.
Lemma bj_is_color : ydescribed_decl bj_su bj_mods bj_color y_color.
Proof.
  apply yis_type; [discriminate|intros [A|A]; discriminate A|]. eapply yis_fields; [split; reflexivity|reflexivity|].
  apply yone_more_field; [reflexivity|reflexivity|split; reflexivity|exact bj_user_uint8|].
  apply yone_more_field; [reflexivity|reflexivity|split; reflexivity|exact bj_user_uint8|apply yno_field].
Qed.
Lemma bj_is_player : ydescribed_decl bj_su bj_mods bj_player y_player.
Proof.
  apply yis_type; [discriminate|intros [A|A]; discriminate A|]. eapply yis_fields; [split; reflexivity|reflexivity|].
  apply yone_more_field; [reflexivity|reflexivity|split; reflexivity| |].
  - apply (yis_name _ _ _ _ bj_name); try reflexivity; [walked_by| |not_own|discriminate].
    apply yis_type; [discriminate|intros [A|A]; discriminate A|]. apply yis_string; split; reflexivity.
  - apply yone_more_field; [reflexivity|reflexivity|split; reflexivity| |apply yno_field].
    apply yis_option; [split; reflexivity|]. apply (yis_name _ _ _ _ bj_color); try reflexivity; [walked_by|exact bj_is_color|intros _; bytes_by|discriminate].
Qed.
Lemma bj_is_players : ydescribed_decl bj_su bj_mods bj_players y_players.
Proof. apply (yis_list _ _ _ false "NNet.Game.SPlayerDetails" bj_player); try reflexivity; [split; reflexivity|bytes_by|exact bj_is_player]. Qed.
Lemma bj_is_details : ydescribed_decl bj_su bj_mods bj_details y_details.
Proof.
  apply yis_type; [discriminate|intros [A|A]; discriminate A|]. eapply yis_fields; [split; reflexivity|reflexivity|].
  apply yone_more_field; [reflexivity|reflexivity|split; reflexivity| |].
  - apply yis_option; [split; reflexivity|]. apply (yis_name _ _ _ _ bj_players); try reflexivity; [walked_by|exact bj_is_players|intros _; bytes_by|].
    intros _. exists false, y_player. reflexivity.
  - apply yone_more_field; [reflexivity|reflexivity|split; reflexivity|apply yis_bool; split; reflexivity|apply yno_field].
Qed.
Lemma bj_is_unit : ydescribed_decl bj_su bj_mods bj_unit y_unit.
Proof.
  apply yis_type; [discriminate|intros [A|A]; discriminate A|]. eapply yis_fields; [split; reflexivity|reflexivity|].
  apply ya_constant; [reflexivity|reflexivity|left; discriminate|].
  apply yone_more_field; [reflexivity|reflexivity|split; reflexivity|exact bj_user_uint8|apply yno_field].
Qed.
Lemma bj_is_events : ydescribed_decl bj_su bj_mods bj_events y_events.
Proof.
  eapply yis_events; [split; reflexivity|reflexivity| |].
  - eapply (yid_of_struct _ _ _ _ _ _ _ "ReplayTrackerSUnitBorn" bj_unit); [reflexivity|split; reflexivity|vm_compute; reflexivity|bytes_by|vm_compute; reflexivity|exact bj_is_unit|].
    apply ybare_id; [reflexivity|split; reflexivity|vm_compute; reflexivity|apply yno_id].
  - eexists. split; [left; reflexivity|discriminate].
Qed.
Definition bj_types : list ytype := [y_md5; y_color; y_player; y_players; y_details; y_events; y_unit].
Definition bj_codes : list (option ycode) := Eval vm_compute in map (fun t => match ygen t with Ok k => Some k | _ => None end) bj_types.
Example bj_decoders : map (byte_module_code bj_su (struct_for bj_su bj_mods) (declared_bytes bj_mods) 9) (map (jg_name bj_su) (declared_bytes bj_mods)) = bj_codes /\
  forallb (fun k => match k with Some _ => true | None => false end) bj_codes = true /\
  map yplain bj_types = [true; true; true; true; true; false; true].
Proof. refine (conj _ (conj _ _)); vm_compute; reflexivity. Qed.

(** ** C140: a generated byte-aligned module holds the types it refers to *)

(** False: the elements of NNet.Game.CPlayerDetailsArray may be of any type, and
    only that of its fixed list are written; generation succeeds.  Likewise two
    declarations of one Rust name. *)
Definition bj_other : json := ex_decl "NNet.Game.SOther" "StructType" [("fields", JArr [bj_field "m_a" "0" (gj_user "NNet.uint8")])].
Definition bj_others : json := ex_decl "NNet.Game.CPlayerDetailsArray" "ArrayType" [("bounds", gj_upto "16"); ("element_type", gj_user "NNet.Game.SOther")].
Definition bj_open_mods : list json := [gj_uint8; ex_module "NNet.Game" [bj_other; bj_others]].
Definition bj_unit2 : json := ex_decl "NNet.Replay.Tracker.S.UnitBorn" "StructType" [("fields", JArr [bj_field "m_id" "0" (gj_user "NNet.uint8")])].
Definition bj_twice_mods : list json := [gj_uint8; ex_module "NNet.Replay" [ex_module "NNet.Replay.Tracker" [bj_unit; bj_unit2]]].
Definition bj_lacks (ms : list json) : Prop :=
  (exists fs', bj_made ms = (Ok tt, fs')) /\
  exists d, In d (declared_bytes ms) /\ forall n, byte_module_code (bj_su_of ms) (struct_for (bj_su_of ms) ms) (declared_bytes ms) n (jg_name (bj_su_of ms) d) = None.
Lemma bj_open_lacks : bj_lacks bj_open_mods /\ bj_lacks bj_twice_mods.
Proof.
  split; (split; [apply made_ok; vm_compute; reflexivity|]).
  - exists bj_others. split; [vm_compute; auto|]. intros [|[|n]]; reflexivity.
  - exists bj_unit. split; [vm_compute; auto|]. intros [|n]; reflexivity.
Qed.
Theorem C140_refers_refuted : bj_lacks bj_open_mods /\ bj_lacks bj_twice_mods.
Proof. exact bj_open_lacks. Qed.
Print Assumptions C140_refers_refuted.
(** The declaration that is missed is in the document, with a description. *)
Example bj_other_described : In bj_other (all_decls bj_open_mods) /\ exists t, ydescribed_decl (bj_su_of bj_open_mods) bj_open_mods bj_other t /\ yplain t = true.
Proof.
  split; [walked_by|]. exists (YStruct 0 [("m_a", Some 0, YUser "NNet.uint8" y_uint8)]). split; [|reflexivity].
  apply yis_type; [discriminate|intros [A|A]; discriminate A|]. eapply yis_fields; [split; reflexivity|reflexivity|].
  apply yone_more_field; [reflexivity|reflexivity|split; reflexivity| |apply yno_field].
  apply (yis_name _ _ _ _ gj_uint8); try reflexivity; [walked_by| |not_own|discriminate].
  apply yis_type; [discriminate|intros [A|A]; discriminate A|]. apply (yis_int _ _ _ "IntType"); [left; reflexivity|split; reflexivity|].
  split; [left|right]; split; reflexivity.
Qed.

(** When the names of the module are distinct and each of its declarations is
    described, every type has its decoder, unless the text of one is no Rust. *)
Lemma ydescribed_held : forall su source output fs fs',
  json_parser su -> byte_stops_as_read su -> names_as_in_table su ->
  generate su source output fs = (Ok tt, fs') ->
  exists text doc mods, fs (su_place su source) = Some text /\ su_parse su text = Some doc /\ modules_of doc = Ok mods /\
    (NoDup (map (jg_name su) (declared_bytes mods)) ->
     (forall d, In d (declared_bytes mods) -> exists t, ydescribed_decl su mods d t /\ forall e, ygen t <> Err e) ->
     exists N, forall n d, (N <= n)%nat -> In d (declared_bytes mods) ->
       exists k, byte_module_code su (struct_for su mods) (declared_bytes mods) n (jg_name su d) = Some k).
Proof.
  intros su source output fs fs' J S M G. destruct (generated_byte_module su source output fs fs' J S M G) as (text & doc & mods & H1 & H2 & H3 & H4).
  exists text, doc, mods. refine (conj H1 (conj H2 (conj H3 _))). intros ND D. specialize (H4 ND).
  assert (E : forall d, In d (declared_bytes mods) -> exists N, forall n, (N <= n)%nat ->
            exists k, byte_module_code su (struct_for su mods) (declared_bytes mods) n (jg_name su d) = Some k).
  { intros d I. destruct (D d I) as (t & Dt & Nt). specialize (H4 d t I Dt). destruct (ygen t) as [k|e|] eqn:Eg; [| |destruct H4].
    - destruct H4 as (N & H4). exists N. intros n Hn. exists k. auto.
    - destruct (Nt e eq_refl). }
  clear - E. generalize (byte_module_code su (struct_for su mods) (declared_bytes mods)) as mc, E. clear E. generalize (declared_bytes mods) as l.
  induction l as [|d l IH]; intros mc E; [exists 0%nat; intros n d _ []|].
  destruct (IH mc) as (N & H); [intros d' I; apply E; right; exact I|]. destruct (E d (or_introl eq_refl)) as (N' & H').
  exists (Nat.max N N'). intros n d' Hn [<-|I]; [apply H'; lia|apply H; [lia|exact I]].
Qed.
Theorem C140_refers_partial : forall su source output fs fs',
  json_parser su -> byte_stops_as_read su -> names_as_in_table su ->
  generate su source output fs = (Ok tt, fs') ->
  exists text doc mods, fs (su_place su source) = Some text /\ su_parse su text = Some doc /\ modules_of doc = Ok mods /\
    (NoDup (map (jg_name su) (declared_bytes mods)) ->
     (forall d, In d (declared_bytes mods) -> exists t, ydescribed_decl su mods d t /\ forall e, ygen t <> Err e) ->
     exists N, forall n d, (N <= n)%nat -> In d (declared_bytes mods) ->
       exists k, byte_module_code su (struct_for su mods) (declared_bytes mods) n (jg_name su d) = Some k).
Proof. exact ydescribed_held. Qed.
Print Assumptions C140_refers_partial.
Example bj_all_described : forall d, In d (declared_bytes bj_mods) -> exists t, ydescribed_decl bj_su bj_mods d t /\ forall e, ygen t <> Err e.
Proof.
  rewrite bj_declared. intros d H. cbn [In] in H. destruct H as [<-|[<-|[<-|[<-|[<-|[<-|[<-|[]]]]]]]]; eexists; split.
  1: exact bj_is_md5. 2: exact bj_is_color. 3: exact bj_is_player. 4: exact bj_is_players. 5: exact bj_is_details. 6: exact bj_is_events. 7: exact bj_is_unit.
  all: intros e; vm_compute; discriminate.
Qed.
Example bj_distinct : NoDup (map (jg_name bj_su) (declared_bytes bj_mods)).
Proof. rewrite bj_names. repeat constructor; cbn [In]; intuition discriminate. Qed.
