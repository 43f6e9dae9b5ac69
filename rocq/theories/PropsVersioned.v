(** * Properties C09-C13, C58, C59: the byte-aligned decoders *)
From Verif Require Import Base VlqSpec Vlq VlqProofs Types Versioned VersionedSpec VlqExact VersionedProofs VersionedExact
  VersionedEncode VersionedPrim ByteTypes ByteFacts.
#[local] Open Scope string_scope.
#[local] Open Scope Z_scope.
#[local] Open Scope list_scope.

(** C09.  Tags: 2 blob, 1 bit array, 9 integer, 6 boolean, 7 fourcc. *)
Theorem C09_wrong_tag : forall m l,
  (hd_error l <> Some 2 -> tagged_blob m l = Err ENom) /\
  (hd_error l <> Some 1 -> tagged_bitarray m l = Err ENom) /\
  (hd_error l <> Some 9 -> tagged_vlq_int m l = Err ENom) /\
  (hd_error l <> Some 6 -> tagged_bool l = Err ENom) /\
  (hd_error l <> Some 7 -> tagged_fourcc l = Err ENom).
Proof. exact tagged_wrong. Qed.
Print Assumptions C09_wrong_tag.

Theorem C09_blob : forall m n g s, vlq_rep false n g -> Z.of_nat (length s) < two63 ->
  tagged_blob m (2 :: g ++ s) =
  if (0 <=? n) && (n <=? Z.of_nat (length s)) then Ok (skipn (Z.to_nat n) s, firstn (Z.to_nat n) s) else Err ENom.
Proof. exact tagged_blob_spec. Qed.
Print Assumptions C09_blob.

Theorem C09_bitarray : forall m n g s, vlq_rep false n g -> Z.of_nat (length s) < 2 ^ 60 ->
  tagged_bitarray m (1 :: g ++ s) =
  if (0 <=? n) && ((n + 7) / 8 <=? Z.of_nat (length s))
  then Ok (skipn (Z.to_nat ((n + 7) / 8)) s, firstn (Z.to_nat ((n + 7) / 8)) s) else Err ENom.
Proof. exact tagged_bitarray_spec. Qed.
Print Assumptions C09_bitarray.

Theorem C09_int : forall m n g s, vlq_rep false n g -> tagged_vlq_int m (9 :: g ++ s) = Ok (s, n).
Proof. exact tagged_vlq_int_spec. Qed.
Print Assumptions C09_int.

Theorem C09_bool : forall s, tagged_bool (6 :: s) =
  match s with [] => Err ENom | x :: r => Ok (r, negb (x =? 0)) end.
Proof. exact tagged_bool_spec. Qed.
Print Assumptions C09_bool.

Theorem C09_fourcc : forall s, tagged_fourcc (7 :: s) =
  match s with
  | a :: b :: c :: d :: r => Ok (r, a * 2 ^ 24 + b * 2 ^ 16 + c * 2 ^ 8 + d)
  | _ => Err ENom
  end.
Proof. exact tagged_fourcc_spec. Qed.
Print Assumptions C09_fourcc.

Example C09_example : vlq_rep false 3 [6] /\ vlq_rep false (-1) [3] /\
  tagged_blob Checked ([2; 6] ++ [10; 11; 12; 13]) = Ok ([13], [10; 11; 12]) /\
  tagged_blob Checked [2; 3; 10; 11] = Err ENom /\ tagged_bitarray Checked [1; 18; 1; 2; 3] = Ok ([3], [1; 2]).
Proof.
  repeat split; try (vm_compute; reflexivity); try (cbn; lia); try (repeat constructor; discriminate).
Qed.

(** C10. *)
Theorem C10_progress : forall m t input rest v, bytes_ok input ->
  vparse m t input = Ok (rest, v) -> proper_suffix_of rest input.
Proof. exact vparse_psuffix. Qed.
Print Assumptions C10_progress.

Example C10_example : bytes_ok [5; 2; 0; 2; 4; 65; 66; 9] /\
  vparse Checked ba_GameSThumbnail [5; 2; 0; 2; 4; 65; 66; 9] = Ok ([9], VStruct [("m_file", VBytes [65; 66])]).
Proof. split; [repeat constructor; discriminate|vm_compute; reflexivity]. Qed.

(** C11.  [venc true t v bs]: [bs] is an encoding of [v] (VersionedSpec). *)
Theorem C11_round_trip : forall m name t v bs rest, In (name, t) ba_all ->
  venc true t v bs -> vparse m t (bs ++ rest) = Ok (rest, v).
Proof. exact (fun m name t v bs rest Hin H => vparse_complete true m t v bs rest (ba_wf name t Hin) H). Qed.
Print Assumptions C11_round_trip.

(** ... for any descriptor whose tags are distinct. *)
Theorem C11_round_trip_any : forall m t v bs rest, wf_vty t = true ->
  venc true t v bs -> vparse m t (bs ++ rest) = Ok (rest, v).
Proof. exact (vparse_complete true). Qed.
Print Assumptions C11_round_trip_any.

(** Encodings exist: the reference encoder produces them. *)
Theorem C11_encoder : forall m t v bs rest, wf_vty t = true -> vencode t v = Some bs ->
  venc true t v bs /\ vparse m t (bs ++ rest) = Ok (rest, v).
Proof. exact (fun m t v bs rest Hwf H => conj (vencode_venc t Hwf v bs H) (vencode_round_trip m t v bs rest Hwf H)). Qed.
Print Assumptions C11_encoder.

(** No encoding is ambiguous, and none is a proper prefix of another. *)
Theorem C11_unambiguous : forall name t v1 v2 bs1 bs2 r1 r2, In (name, t) ba_all ->
  venc true t v1 bs1 -> venc true t v2 bs2 -> bs1 ++ r1 = bs2 ++ r2 -> v1 = v2 /\ r1 = r2.
Proof. exact ba_unambiguous. Qed.
Print Assumptions C11_unambiguous.

Theorem C11_types : length ba_all = 25%nat /\ forallb (fun x => wf_vty (snd x)) ba_all = true.
Proof. exact (conj ba_count ba_wf_b). Qed.
Print Assumptions C11_types.

Definition example_color : val := VStruct [("m_a", VInt 255); ("m_r", VInt 1); ("m_g", VInt 2); ("m_b", VInt 3)].
(** Fields in the order b, a, g, r. *)
Example C11_example : venc true ba_GameSColor example_color [5; 8; 6; 9; 6; 0; 9; 254; 3; 4; 9; 4; 2; 9; 2].
Proof. exact example_color_venc. Qed.

(** C12. *)
Theorem C12_unknown_tag : forall s m fs ws g count z gz rest, wf_vty (TStruct fs) = true ->
  vlq_rep s count g -> Z.of_nat (length ws) < count -> written_ok s fs ws ->
  vlq_rep s z gz -> ~ In z (map f_tag fs) ->
  vparse m (TStruct fs) (5 :: g ++ wbytes ws ++ gz ++ rest) = Err (EUnknownTag z).
Proof. exact struct_unknown_tag. Qed.
Print Assumptions C12_unknown_tag.

(** A field is missing: the error names one of the missing fields. *)
Theorem C12_missing_field : forall s m fs ws g f rest, wf_vty (TStruct fs) = true ->
  vlq_rep s (Z.of_nat (length ws)) g -> written_ok s fs ws ->
  In f fs -> absent_value f = None -> (forall w, In w ws -> f_tag (w_fld w) <> f_tag f) ->
  exists f', In f' fs /\ absent_value f' = None /\ (forall w, In w ws -> f_tag (w_fld w) <> f_tag f') /\
  vparse m (TStruct fs) (5 :: g ++ wbytes ws ++ rest) = Err (EMissingField (f_name f')).
Proof. exact struct_missing. Qed.
Print Assumptions C12_missing_field.

(** A repeated field is rejected unless it is optional and was [None] so far. *)
Theorem C12_duplicate_partial : forall s m fs ws w g count gz rest, wf_vty (TStruct fs) = true ->
  vlq_rep s count g -> Z.of_nat (length ws) < count -> written_ok s fs ws ->
  In w ws -> (f_init (w_fld w) = InitNone \/ w_val w <> VOpt None) ->
  vlq_rep s (f_tag (w_fld w)) gz ->
  vparse m (TStruct fs) (5 :: g ++ wbytes ws ++ gz ++ rest)
  = Err (EDuplicateTag (f_name (w_fld w)) (f_dup (w_fld w))).
Proof. exact struct_duplicate. Qed.
Print Assumptions C12_duplicate_partial.

(** A wrapping build never panics, a checked one not without nine
    continuation bytes in a row. *)
Theorem C12_no_panic_partial : forall t, wf_vty t = true -> forall l, bytes_ok l -> vparse Wrapping t l <> Panic.
Proof. exact vparse_wrapping_np. Qed.
Print Assumptions C12_no_panic_partial.

Theorem C12_no_panic_checked_partial : forall m t, wf_vty t = true -> forall l, bytes_ok l -> no_run 9 l ->
  vparse m t l <> Panic.
Proof. exact vparse_no_run_np. Qed.
Print Assumptions C12_no_panic_checked_partial.

(** False in full: a repeated optional field is accepted, and a padded count
    panics in a checked build. *)
Theorem C12_malformed_refuted :
  (exists l, forall m, vparse m ba_ReplayTrackerSPlayerSetupEvent l
     = Ok ([], VStruct [("m_player_id", VInt 1); ("m_type", VInt 2); ("m_user_id", VOpt (Some (VInt 5))); ("m_slot_id", VOpt None)])
     /\ l = [5; 8] ++ [0; 9; 2] ++ [2; 9; 4] ++ [4; 4; 0] ++ [4; 4; 1; 9; 10]) /\
  (exists l, bytes_ok l /\ vparse Checked ba_SVersion l = Panic).
Proof. exact malformed_witness. Qed.
Print Assumptions C12_malformed_refuted.

Example C12_example : vparse Checked ba_GameSThumbnail [5; 4; 0; 2; 0; 14; 1] = Err (EUnknownTag 7)
  /\ vparse Checked ba_GameSThumbnail [5; 4; 0; 2; 0; 0; 1] = Err (EDuplicateTag "m_file" 0)
  /\ vparse Checked ba_GameSThumbnail [5; 0] = Err (EMissingField "m_file").
Proof. repeat split; vm_compute; reflexivity. Qed.

(** C13. *)
Theorem C13_duplicate_names_tag_partial : forall n fs, In (n, TStruct fs) ba_all ->
  n <> "ReplayTrackerSUnitBornEvent" -> n <> "ReplayTrackerSUnitDiedEvent" -> n <> "ReplayTrackerSUnitOwnerChangeEvent" ->
  forall f, In f fs -> f_dup f = f_tag f.
Proof. exact dup_own_tag_list. Qed.
Print Assumptions C13_duplicate_names_tag_partial.

(** ... with [C12_duplicate_partial], the reported tag is the repeated one. *)
Theorem C13_duplicate_error_partial : forall n s m fs ws w g count gz rest, In (n, TStruct fs) ba_all ->
  n <> "ReplayTrackerSUnitBornEvent" -> n <> "ReplayTrackerSUnitDiedEvent" -> n <> "ReplayTrackerSUnitOwnerChangeEvent" ->
  vlq_rep s count g -> Z.of_nat (length ws) < count -> written_ok s fs ws ->
  In w ws -> (f_init (w_fld w) = InitNone \/ w_val w <> VOpt None) ->
  vlq_rep s (f_tag (w_fld w)) gz ->
  vparse m (TStruct fs) (5 :: g ++ wbytes ws ++ gz ++ rest)
  = Err (EDuplicateTag (f_name (w_fld w)) (f_tag (w_fld w))).
Proof. exact dup_error_list. Qed.
Print Assumptions C13_duplicate_error_partial.

(** False of UnitBorn: field 7 repeated is reported as tag 8. *)
Theorem C13_duplicate_names_tag_refuted : exists l, forall m,
  vparse m ba_ReplayTrackerSUnitBornEvent l = Err (EDuplicateTag "m_creator_unit_tag_index" 8) /\
  In (mkfld "m_creator_unit_tag_index" 7 8 InitSomeNone FinReq (TOpt (TInt IU32)))
     (match ba_ReplayTrackerSUnitBornEvent with TStruct fs => fs | _ => [] end).
Proof. exact dup_born_witness. Qed.
Print Assumptions C13_duplicate_names_tag_refuted.

Example C13_example : In ("GameSColor", ba_GameSColor) ba_all /\
  vparse Checked ba_GameSColor [5; 8; 6; 9; 6; 6; 9; 6] = Err (EDuplicateTag "m_b" 3).
Proof. split; [vm_compute; tauto|vm_compute; reflexivity]. Qed.

(** C58. *)
Theorem C58_builds_agree : forall name t l, In (name, t) ba_all ->
  vparse Checked t l <> Panic -> vparse Wrapping t l = vparse Checked t l.
Proof. exact (fun name t l Hin => vparse_agree t (ba_wf name t Hin) l). Qed.
Print Assumptions C58_builds_agree.

Example C58_example : vparse Checked ba_GameSThumbnail [5; 2; 0; 2; 4; 65; 66; 9] <> Panic.
Proof. vm_compute. discriminate. Qed.

(** C59.  The lax format is the strict one plus: integers modulo 2^64, and
    optional fields repeated after a [None] (VersionedSpec). *)
Theorem C59_accepts_only_encodings : forall name t l r v, In (name, t) ba_all -> input_ok l ->
  (vparse Checked t l = Ok (r, v) <-> exists bs, l = bs ++ r /\ venc false t v bs).
Proof. exact (fun name t l r v Hin => vparse_exact t (ba_wf name t Hin) l r v). Qed.
Print Assumptions C59_accepts_only_encodings.

Example C59_example : input_ok [5; 2; 0; 2; 4; 65; 66; 9].
Proof. split; [repeat constructor; discriminate|cbn; reflexivity]. Qed.
