(** * Properties of the code generator, byte-aligned half (C120-C122)

    [ygen t] is the decoder [s2protocol generate] writes in the module
    [byte_aligned] for a declaration (ByteGen); [yenc] is Blizzard's versioned
    format, [yplain] the declarations meant in C120, [int_names] the ranges of
    C121, and [yreads] says that a decoder gets every value back
    (ByteGenSpec). *)
From Verif Require Import Base VlqSpec Vlq VlqProofs Types ByteTypes Versioned VersionedSpec VersionedEncode VlqExact Generator ByteGen ByteGenSpec ByteGenFacts.
#[local] Open Scope string_scope.
#[local] Open Scope Z_scope.
#[local] Open Scope list_scope.

(** ** C120 *)
Theorem C120_generated_partial : forall t, yplain t = true -> exists k, ygen t = Ok k /\ yreads k t.
Proof. exact byte_generated_reads. Qed.
Print Assumptions C120_generated_partial.

(** Event numbers, some of which carry nothing. *)
Theorem C120_events_partial : forall vs, nodupb (map (fun x => fst (fst x)) vs) = true ->
  (forall x t, In x vs -> snd x = Some t -> yplain t = true) ->
  exists k, ygen (YEvents vs) = Ok k /\ yreads k (YEvents vs).
Proof. exact byte_events_reads. Qed.
Print Assumptions C120_events_partial.

(** A struct of one constant. *)
Theorem C120_constant_partial : exists k, ygen (YStruct 1 []) = Ok k /\ yreads k (YStruct 1 []).
Proof. exact bare_reads. Qed.
Print Assumptions C120_constant_partial.
Example C120_constant_example : yenc (YStruct 1 []) (VStruct []) [STRUCT_TAG; 0].
Proof. change [STRUCT_TAG; 0] with (STRUCT_TAG :: vlq_encode 0 ++ concat (map (fun w => yw_tag w ++ yw_bytes w) [])). constructor; [apply vlq_rep_encode; unfold two63; cbn; lia|constructor|constructor|constructor]. Qed.

Definition one_field (t : ytype) : ytype := YStruct 0 [("m_x", Some 0, t)].
Definition written_one (t : ytype) (v : val) (bs : list Z) : list ywritten := [mkyw ("m_x", Some 0, t) (vlq_encode 0) v bs].
Definition written_bytes (bs : list Z) : list Z := STRUCT_TAG :: 2 :: 0 :: bs.

Lemma one_field_enc : forall t v bs, yenc t v bs -> yenc (one_field t) (VStruct [("m_x", v)]) (written_bytes bs).
Proof.
  intros t v bs H. unfold written_bytes. replace (2 :: 0 :: bs) with ([2] ++ concat (map (fun w => yw_tag w ++ yw_bytes w) (written_one t v bs))) by (cbn; rewrite app_nil_r; reflexivity).
  constructor.
  - change [2] with (vlq_encode 1). apply vlq_rep_encode. unfold two63. lia.
  - constructor; [|constructor]. cbn [written_one yw_fld yw_tag yw_val yw_bytes fst snd]. split; [left; reflexivity|]. split; [|exact H].
    exists 0. split; [reflexivity|]. apply vlq_rep_encode. unfold two63. lia.
  - cbn [map]. constructor; [intros []|constructor].
  - constructor; [|constructor]. cbn [fst snd]. split; [reflexivity|]. left. eexists. split; [left; reflexivity|]. split; reflexivity.
Qed.

(** The number [z], in its shortest form. *)
Lemma int_enc : forall lo hi z, - two63 < z < two63 -> lo <= z <= hi -> yenc (YInt lo hi) (VInt z) (INT_TAG :: vlq_encode z).
Proof.
  intros lo hi z Hz Hr. constructor; [exact Hr|]. destruct (vlq_rep_encode z Hz) as (H1 & H2 & H3 & _ & H4). repeat split; assumption.
Qed.

Lemma byte_misread : forall k t v bs, yenc t v bs -> yrun Wrapping k bs <> Ok ([], v) -> ~ yreads k t.
Proof. intros k t v bs He Hn H. apply Hn. specialize (H Wrapping v bs [] He). rewrite app_nil_r in H. exact H. Qed.

Definition difficulty : ytype := one_field (YUser "NNet.Game.TDifficulty" (YInt 0 (2 ^ 40))).
Definition hash64 : ytype := one_field (YUser "NNet.uint64" (YInt 0 (2 ^ 64 - 1))).
Definition replay_type : ytype := one_field (YUser "NNet.Replay.EReplayType" (YEnum [(0, "EMini"); (1, "EFull")])).
Definition maybe_target : ytype := YChoice [(0, "MNone", YNull); (1, "MUnit", YUser "NNet.uint32" (YInt 0 (2 ^ 32 - 1)))].
(** 2^63: ten bytes. *)
Definition top_bit : list Z := [128; 128; 128; 128; 128; 128; 128; 128; 128; 2].

(** False in full.  Numbers above the Rust type chosen by the name, and 2^63
    for any name, are lost; an enum with the name of a number is read as its
    number; the empty variants of a choice are unknown.  The generator stops at
    the declaration of a byte string, a bit array or a name for another type,
    at a field that is an integer without a name, has a name that is not in its
    table, is a bit array or has no tag beside another one; and it writes no
    Rust for a field with an array of dynamic size, and for an optional or a
    list as a variant of a choice. *)
Theorem C120_generated_refuted :
  (forall t, In t [difficulty; hash64; replay_type; maybe_target] -> exists k, ygen t = Ok k /\ ~ yreads k t) /\
  (forall t, In t [YBlob; YString; YAscii; YBitArray; YUser "NNet.uint8" (YInt 0 255); one_field (YInt 0 255); one_field YBitArray; one_field YNull;
    one_field YAscii; one_field (YUser "NNet.uint16" (YInt 0 65535)); one_field (YArray false (YInt 0 255));
    YStruct 0 [("m_x", Some 0, YBool); ("m_y", None, YBool)]] -> ygen t = Panic) /\
  (forall t, In t [one_field (YArray true (YUser "NNet.uint8" (YInt 0 255)));
    one_field (YArray false (YUser "NNet.Game.CModPaths" (YArray false (YUser "NNet.CFilePath" YString)))); YChoice [(0, "MMaybe", YOpt YBool)];
    YChoice [(0, "MPaths", YUser "NNet.Game.CModPaths" (YArray false (YUser "NNet.CFilePath" YString)))]] -> ygen t = Err no_compile).
Proof.
  split; [|split].
  - intros t H. cbn [In] in H. destruct H as [<-|[<-|[<-|[<-|[]]]]]; eexists; (split; [reflexivity|]).
    + refine (byte_misread _ _ (VStruct [("m_x", VInt (2 ^ 32))]) _ (one_field_enc _ _ _ (yenc_user _ _ _ _ (int_enc _ _ (2 ^ 32) _ _))) _);
        [unfold two63; lia|lia|vm_compute; discriminate].
    + refine (byte_misread _ _ (VStruct [("m_x", VInt (2 ^ 63))]) _ (one_field_enc _ _ (INT_TAG :: top_bit) (yenc_user _ _ _ _ (yenc_int _ _ (2 ^ 63) top_bit _ _))) _);
        [lia| |vm_compute; discriminate].
      unfold vlq_number. split; [repeat (constructor; [unfold byte_ok; lia|]); constructor|]. split; [|split; [cbn; lia|vm_compute; reflexivity]].
      cbn. lia.
    + refine (byte_misread _ _ (VStruct [("m_x", VEnum "EFull")]) _ (one_field_enc _ _ (INT_TAG :: vlq_encode 1) (yenc_user _ _ _ _ (yenc_enum _ 1 _ _ _ _))) _);
        [right; left; reflexivity|apply vlq_rep_encode; unfold two63; lia|vm_compute; discriminate].
    + refine (byte_misread _ _ (VChoice "MNone" VNull) _ (yenc_choice _ 0 _ _ _ (vlq_encode 0) [] _ _ yenc_null) _);
        [left; reflexivity|apply vlq_rep_encode; unfold two63; lia|vm_compute; discriminate].
  - intros t H. cbn [In] in H. repeat (destruct H as [<-|H]; [reflexivity|]). contradiction.
  - intros t H. cbn [In] in H. repeat (destruct H as [<-|H]; [reflexivity|]). contradiction.
Qed.
Print Assumptions C120_generated_refuted.

(** The declarations of the header of a replay, its version and its hashes;
    what is generated for them is what the crate ships. *)
Definition u8 : ytype := YUser "NNet.uint8" (YInt 0 (2 ^ 8 - 1)).
Definition u32 : ytype := YUser "NNet.uint32" (YInt 0 (2 ^ 32 - 1)).
Definition decl_SVersion : ytype := YStruct 0 [("m_flags", Some 0, u8); ("m_major", Some 1, u8); ("m_minor", Some 2, u8); ("m_revision", Some 3, u8);
  ("m_build", Some 4, u32); ("m_base_build", Some 5, u32)].
Definition decl_SMD5 : ytype := YStruct 1 [("m_data_deprecated", Some 0, YOpt (YArray false u8)); ("m_data", Some 1, YBlob)].
Definition decl_SHeader : ytype := YStruct 0 [("m_signature", Some 0, YUser "NNet.Replay.CSignature" YBlob);
  ("m_version", Some 1, YUser "NNet.SVersion" decl_SVersion); ("m_type", Some 2, YUser "NNet.Replay.EReplayType" (YInt 0 3));
  ("m_elapsed_game_loops", Some 3, u32); ("m_use_scaled_time", Some 4, YBool); ("m_ngdp_root_key", Some 5, YUser "NNet.SMD5" decl_SMD5);
  ("m_data_build_num", Some 6, u32); ("m_replay_compatibility_hash", Some 7, YUser "NNet.SMD5" decl_SMD5);
  ("m_ngdp_root_key_is_dev_data", Some 8, YBool)].
Definition decl_SColor : ytype := YStruct 0 [("m_a", Some 0, u8); ("m_r", Some 1, u8); ("m_g", Some 2, u8); ("m_b", Some 3, u8)].

Example C120_example : yplain decl_SHeader = true /\ ygen decl_SHeader = Ok (code_of ba_ReplaySHeader) /\
  yplain decl_SMD5 = true /\ ygen decl_SMD5 = Ok (code_of ba_Smd5) /\ ygen decl_SVersion = Ok (code_of ba_SVersion) /\
  ygen decl_SColor = Ok (code_of ba_GameSColor) /\
  (forall m, yrun m (code_of ba_GameSColor) [5; 8; 0; 9; 254; 1; 4; 9; 4; 2; 9; 2; 6; 9; 6; 77] =
    Ok ([77], VStruct [("m_a", VInt 127); ("m_r", VInt 1); ("m_g", VInt 2); ("m_b", VInt 3)])).
Proof. repeat split; vm_compute; reflexivity. Qed.

(** Two hashes, one without its old form. *)
Example C120_read_example : forall m, exists k, ygen (YArray false (YUser "NNet.SMD5" decl_SMD5)) = Ok k /\
  yplain (YArray false (YUser "NNet.SMD5" decl_SMD5)) = true /\
  yrun m k [0; 4; 5; 2; 2; 2; 4; 170; 187; 5; 4; 0; 4; 1; 0; 4; 9; 2; 9; 4; 2; 2; 0; 99] =
    Ok ([99], VList [VStruct [("m_data_deprecated", VOpt None); ("m_data", VBytes [170; 187])];
                     VStruct [("m_data_deprecated", VOpt (Some (VList [VInt 1; VInt 2]))); ("m_data", VBytes [])]]).
Proof. intros m. eexists. split; [reflexivity|]. split; [vm_compute; reflexivity|]. destruct m; vm_compute; reflexivity. Qed.

Definition decl_events : list (Z * string * option ytype) := [(0, "EPlayerStats", Some decl_SColor); (9, "EPing", None)].
Example C120_events_example : nodupb (map (fun x => fst (fst x)) decl_events) = true /\
  (forall x t, In x decl_events -> snd x = Some t -> yplain t = true) /\
  exists k, ygen (YEvents decl_events) = Ok k /\ forall m, yrun m k [9; 18; 7] = Ok ([7], VChoice "EPing" VNull).
Proof.
  split; [reflexivity|]. split.
  - intros x t [<-|[<-|[]]] Hx; cbn in Hx; [injection Hx as <-; reflexivity|discriminate].
  - eexists. split; [reflexivity|]. intros []; vm_compute; reflexivity.
Qed.

(** ** C121 *)
Theorem C121_ranges_partial : forall n a b tag lo hi, In (n, a, b) int_names -> - two63 < tag < two63 -> - two63 < lo -> lo <= hi -> hi < two63 ->
  exists k, ygen (YStruct 0 [("x", Some tag, YUser n (YInt lo hi))]) = Ok k /\
    (yreads k (YStruct 0 [("x", Some tag, YUser n (YInt lo hi))]) <-> a <= lo /\ hi <= b).
Proof. exact int_field_iff. Qed.
Print Assumptions C121_ranges_partial.

Theorem C121_ranges_refuted : exists n lo hi k, 0 <= lo <= hi /\ hi < two63 /\
  ygen (YStruct 0 [("x", Some 0, YUser n (YInt lo hi))]) = Ok k /\ ~ yreads k (YStruct 0 [("x", Some 0, YUser n (YInt lo hi))]).
Proof.
  destruct (int_field_iff "NNet.Game.TPlayerId" 0 (2 ^ 8 - 1) 0 0 511) as (k & Ek & [Hk _]); try (unfold two63; lia).
  - right. right. left. reflexivity.
  - exists "NNet.Game.TPlayerId", 0, 511, k. split; [lia|]. split; [unfold two63; lia|]. split; [exact Ek|].
    intros Hr. apply Hk in Hr. lia.
Qed.
Print Assumptions C121_ranges_refuted.

Example C121_example : In ("NNet.Game.TFixedBits", - 2 ^ 31, 2 ^ 31 - 1) int_names /\
  ygen (YStruct 0 [("x", Some 3, YUser "NNet.Game.TFixedBits" (YInt (- 2 ^ 19) (2 ^ 19)))]) = Ok (CStruct [mkfld "x" 3 3 InitNone FinReq (CInt II32)]) /\
  - 2 ^ 31 <= - 2 ^ 19 /\ 2 ^ 19 <= 2 ^ 31 - 1.
Proof. split; [do 13 right; do 1 right; left; reflexivity|]. split; [reflexivity|lia]. Qed.

(** ** C122 *)
Theorem C122_empty_variants_partial : forall vs, nodupb (map (fun x => fst (fst x)) vs) = true ->
  (forall z n t, In (z, n, t) vs -> - two63 < z < two63 /\ (t = YNull \/ plain_one yplain t = true)) ->
  exists k, ygen (YChoice vs) = Ok k /\ (yreads k (YChoice vs) <-> forall z n, ~ In (z, n, YNull) vs).
Proof. exact choice_null_iff. Qed.
Print Assumptions C122_empty_variants_partial.

Theorem C122_empty_variants_refuted : exists vs k, nodupb (map (fun x => fst (fst x)) vs) = true /\
  (forall z n t, In (z, n, t) vs -> - two63 < z < two63 /\ (t = YNull \/ plain_one yplain t = true)) /\
  ygen (YChoice vs) = Ok k /\ ~ yreads k (YChoice vs).
Proof.
  pose (vs := [(0, "MNone", YNull); (1, "MUnit", u32)]).
  assert (H1 : forall z n t, In (z, n, t) vs -> - two63 < z < two63 /\ (t = YNull \/ plain_one yplain t = true)).
  { intros z n t [E|[E|[]]]; injection E as <- <- <-; (split; [unfold two63; lia|]); [left|right]; reflexivity. }
  destruct (choice_null_iff vs eq_refl H1) as (k & Ek & [Hk _]). exists vs, k. split; [reflexivity|]. split; [exact H1|]. split; [exact Ek|].
  intros Hr. apply (Hk Hr 0 "MNone"). left. reflexivity.
Qed.
Print Assumptions C122_empty_variants_refuted.

Example C122_example : exists k, ygen maybe_target = Ok k /\
  (forall m, yrun m k [3; 2; 9; 14] = Ok ([], VChoice "MUnit" (VInt 7))) /\
  (forall m, yrun m k [3; 0] = Err (EUnknownTag 0)) /\
  ygen (YChoice [(4, "MColor", YUser "NNet.Game.SColor" decl_SColor); (1, "MUnit", u32)]) =
    Ok (CChoice CHOICE_TAG [(4, "MColor", code_of ba_GameSColor); (1, "MUnit", CInt IU32)]).
Proof. eexists. split; [reflexivity|]. split; [intros []; vm_compute; reflexivity|]. split; [intros []; vm_compute; reflexivity|]. reflexivity. Qed.
