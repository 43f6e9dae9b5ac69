(** * Properties of the bit-packed decoders (C04-C08, C14, C15, C60-C62)

    A position is (remaining bytes, bits of the first one already used);
    [stream] is the bits from there on, [advance c n] the position n bits
    further, [be_value] the reference bit reader (BitSpec); [benc] is the
    format of whole values (BitFormat). *)
From Verif Require Import Base BitSpec BitPacked BitProofs Types BitInterp BitFormat Versioned VersionedSpec VersionedExact
  BitTotal BitEncode BitTypes ByteTypes BitFacts.
#[local] Open Scope string_scope.
#[local] Open Scope Z_scope.
#[local] Open Scope list_scope.

(** C04. *)
Theorem C04_bits_value : forall c n, cursor_ok c -> (n <= 64)%nat -> (n <= length (stream c))%nat ->
  take_n_bits_into_i64 c n = Ok (advance c n, as_i64 (be_value (snd c) (firstn n (stream c)))).
Proof. exact take_n_value. Qed.
Print Assumptions C04_bits_value.

Theorem C04_bits_unsigned : forall c n c' z, cursor_ok c -> (n < 64)%nat -> take_n_bits_into_i64 c n = Ok (c', z) ->
  z = be_value (snd c) (firstn n (stream c)) /\ 0 <= z < 2 ^ Z.of_nat n.
Proof. exact take_n_unsigned. Qed.
Print Assumptions C04_bits_unsigned.

Theorem C04_bits_round_trip : forall c n v rest, cursor_ok c -> (n <= 64)%nat -> 0 <= v < 2 ^ Z.of_nat n ->
  stream c = be_bits (snd c) n v ++ rest -> take_n_bits_into_i64 c n = Ok (advance c n, as_i64 v).
Proof. exact take_n_round_trip. Qed.
Print Assumptions C04_bits_round_trip.

Example C04_example : cursor_ok ([165; 60; 255], 3%nat) /\ (14 <= length (stream ([165; 60; 255]%Z, 3)))%nat /\
  take_n_bits_into_i64 ([165; 60; 255], 3%nat) 14 = Ok (([255], 1%nat), 20 * 512 + 60 * 2 + 1).
Proof. split; [split; [apply byte_list_ok; reflexivity|split; [cbn; lia|discriminate]]|split; [cbn; lia|vm_compute; reflexivity]]. Qed.

(** C05. *)
Theorem C05_advances : forall c n, (n <= length (stream c))%nat ->
  stream (advance c n) = skipn n (stream c) /\ suffix_of (fst (advance c n)) (fst c).
Proof. exact advance_bits. Qed.
Print Assumptions C05_advances.

Theorem C05_fails_iff : forall c n, cursor_ok c ->
  ((forall r, take_n_bits_into_i64 c n <> Ok r) <-> (length (stream c) < n \/ 64 < n)%nat).
Proof. exact take_n_fails. Qed.
Print Assumptions C05_fails_iff.

Theorem C05_array : forall c n, cursor_ok c -> 0 < n ->
  take_bit_array c n = if Z.of_nat (length (stream c)) <? n then Err ENom
    else Ok (advance c (Z.to_nat n), be_bytes (snd c) (firstn (Z.to_nat n) (stream c))).
Proof. exact take_bit_array_spec. Qed.
Print Assumptions C05_array.

Theorem C05_bool : forall c, cursor_ok c ->
  parse_bool c = match stream c with [] => Err ENom | b :: _ => Ok (advance c 1, b) end.
Proof. exact parse_bool_spec. Qed.
Print Assumptions C05_bool.

(** The position stays a legal one. *)
Theorem C05_cursor_ok : forall c n, cursor_ok c -> (n <= length (stream c))%nat -> cursor_ok (advance c n).
Proof. exact advance_ok. Qed.
Print Assumptions C05_cursor_ok.

Example C05_example : cursor_ok ([7], 6%nat) /\ take_n_bits_into_i64 ([7], 6%nat) 3 = Err ENom /\
  parse_bool ([64], 6%nat) = Ok (([64], 7%nat), true).
Proof. split; [split; [apply byte_list_ok; reflexivity|split; [cbn; lia|discriminate]]|split; vm_compute; reflexivity]. Qed.

(** C06. *)
Theorem C06_packed_int_partial : forall m c o n, cursor_ok c -> (n < 64)%nat -> - two63 <= o -> o + 2 ^ Z.of_nat n <= two63 ->
  (n <= length (stream c))%nat ->
  parse_packed_int m c o n = Ok (advance c n, o + be_value (snd c) (firstn n (stream c)))
  /\ o <= o + be_value (snd c) (firstn n (stream c)) < o + 2 ^ Z.of_nat n.
Proof. exact packed_int_value. Qed.
Print Assumptions C06_packed_int_partial.

(** The 64-bit field biased by -2^63 works in a wrapping build ... *)
Theorem C06_packed_64_wrapping_partial : forall c, cursor_ok c -> (64 <= length (stream c))%nat ->
  parse_packed_int Wrapping c (- two63) 64 = Ok (advance c 64, be_value (snd c) (firstn 64 (stream c)) - two63).
Proof. exact packed_64_wrapping. Qed.
Print Assumptions C06_packed_64_wrapping_partial.

(** ... but panics in a checked one, e.g. on the value 0. *)
Theorem C06_packed_64_refuted : exists v bits c, benc blizzard bp_Int64 (snd c) v bits /\ cursor_ok c /\ stream c = bits /\
  v = VInt 0 /\ bparse Checked bp_Int64 c = Panic /\ exists c', bparse Wrapping bp_Int64 c = Ok (c', v).
Proof. exact int64_witness. Qed.
Print Assumptions C06_packed_64_refuted.

Example C06_example : cursor_ok ([200; 1], 2%nat) /\ (8 < 64)%nat /\ - two63 <= -128 /\ -128 + 2 ^ Z.of_nat 8 <= two63 /\
  parse_packed_int Checked ([200; 1], 2%nat) (-128) 8 = Ok (([1], 2%nat), -128 + (50 * 4 + 1)).
Proof. split; [split; [apply byte_list_ok; reflexivity|split; [cbn; lia|discriminate]]|unfold two63; repeat split; try lia; vm_compute; reflexivity]. Qed.

(** C07. *)
Theorem C07_bit_array_partial : forall c n, cursor_ok c -> 0 < n -> n <= Z.of_nat (length (stream c)) ->
  exists l, take_bit_array c n = Ok (advance c (Z.to_nat n), l) /\
    l = be_bytes (snd c) (firstn (Z.to_nat n) (stream c)) /\ Z.of_nat (length l) = (n + 7) / 8 /\ bytes_ok l.
Proof. exact take_array_value. Qed.
Print Assumptions C07_bit_array_partial.

(** Zero bits give one byte, not none. *)
Theorem C07_bit_array_refuted : forall c, cursor_ok c -> take_bit_array c 0 = Ok (c, [0]).
Proof. exact take_bit_array_0. Qed.
Print Assumptions C07_bit_array_refuted.

Theorem C07_unaligned_byte : forall c, cursor_ok c ->
  take_unaligned_byte c = if Nat.ltb (length (stream c)) 8 then Err ENom
    else Ok (advance c 8, be_value (snd c) (firstn 8 (stream c))).
Proof. exact take_unaligned_byte_spec. Qed.
Print Assumptions C07_unaligned_byte.

Theorem C07_fourcc : forall c, cursor_ok c ->
  (length (stream c) < 32)%nat /\ take_fourcc c = Err ENom \/
  exists b0 b1 b2 b3, take_fourcc c = Ok (advance c 32, [b0; b1; b2; b3]) /\
    b0 = be_value (snd c) (firstn 8 (stream c)) /\ b1 = be_value (snd c) (firstn 8 (skipn 8 (stream c))) /\
    b2 = be_value (snd c) (firstn 8 (skipn 16 (stream c))) /\ b3 = be_value (snd c) (firstn 8 (skipn 24 (stream c))).
Proof. exact take_fourcc_bytes. Qed.
Print Assumptions C07_fourcc.

Example C07_example : cursor_ok ([1; 2; 3], 0%nat) /\ take_bit_array ([1; 2; 3], 0%nat) 20 = Ok (([3], 4%nat), [1; 2; 3]).
Proof. split; [split; [apply byte_list_ok; reflexivity|split; [cbn; lia|discriminate]]|vm_compute; reflexivity]. Qed.

(** C08. *)
Theorem C08_byte_align : forall c, cursor_ok c ->
  exists c' k, byte_align c = Ok c' /\ c' = advance c k /\ (k < 8)%nat /\ snd c' = 0%nat /\ (snd c = 0%nat -> c' = c) /\ byte_align c' = Ok c'.
Proof. exact byte_align_facts. Qed.
Print Assumptions C08_byte_align.

Example C08_example : cursor_ok ([9], 5%nat) /\ byte_align ([9], 5%nat) = Ok ([], 0%nat).
Proof. split; [split; [apply byte_list_ok; reflexivity|split; [cbn; lia|discriminate]]|vm_compute; reflexivity]. Qed.

(** C14.  [quirk_free]: no blob of the value is empty, no [BOptReread] field
    is present and, in a checked build, no [Int64] is non-negative. *)
Theorem C14_round_trip_partial : forall m name t c v bits rest, In (name, t) bit_types -> quirk_free m t v = true ->
  cursor_ok c -> benc blizzard t (snd c) v bits -> stream c = bits ++ rest ->
  bparse m t c = Ok (advance c (length bits), v).
Proof. exact (fun m name t c v bits rest Hin => blizzard_round_trip m t c v bits rest (bit_wf name t Hin)). Qed.
Print Assumptions C14_round_trip_partial.

Theorem C14_encoder_partial : forall m name t c v bits rest, In (name, t) bit_types -> quirk_free m t v = true -> cursor_ok c ->
  bencode t (snd c) v = Some bits -> stream c = bits ++ rest -> bparse m t c = Ok (advance c (length bits), v).
Proof. exact (fun m name t c v bits rest Hin => bencode_round_trip m t c v bits rest (bit_wf name t Hin)). Qed.
Print Assumptions C14_encoder_partial.

(** False in full: an empty file path reads as one zero byte. *)
Theorem C14_round_trip_refuted : exists name t v bits c rest m, In (name, t) bit_types /\ benc blizzard t (snd c) v bits /\
  cursor_ok c /\ stream c = bits ++ rest /\ bparse m t c <> Ok (advance c (length bits), v).
Proof. exact round_trip_refuted. Qed.
Print Assumptions C14_round_trip_refuted.

Theorem C14_empty_blob_refuted : exists bits c, benc blizzard bp_CFilePath (snd c) (VBytes []) bits /\ cursor_ok c /\
  stream c = bits /\ forall m, exists c', bparse m bp_CFilePath c = Ok (c', VBytes [0]).
Proof. exact empty_blob_witness. Qed.
Print Assumptions C14_empty_blob_refuted.

Definition example_sync : val :=
  VStruct [("m_control_group_id", VInt 10);
    ("m_selection_sync_data", VStruct [("m_count", VInt 1); ("m_subgroup_count", VInt 1); ("m_active_subgroup_index", VInt 0);
      ("m_unit_tags_checksum", VInt 4000000000); ("m_subgroup_indices_checksum", VInt 1); ("m_subgroups_checksum", VInt 2)])].
Example C14_example :
  In ("GameSSelectionSyncCheckEvent", bp_GameSSelectionSyncCheckEvent) bit_types /\
  quirk_free Checked bp_GameSSelectionSyncCheckEvent example_sync = true /\
  exists bits, bencode bp_GameSSelectionSyncCheckEvent 5 example_sync = Some bits /\ length bits = 127%nat.
Proof. split; [exact (nth_error_In bit_types 119 eq_refl)|split; [vm_compute; reflexivity|eexists; split; [vm_compute; reflexivity|reflexivity]]]. Qed.

(** C15.  An optional field other than the two below is a presence bit
    followed by the value. *)
Theorem C15_optional_partial : forall m t c, cursor_ok c ->
  bparse m (BOpt t) c = match stream c with
    | [] => Err ENom
    | false :: _ => Ok (advance c 1, VOpt None)
    | true :: _ => do (c', v) <- bparse m t (advance c 1); Ok (c', VOpt (Some v))
    end.
Proof. exact opt_spec. Qed.
Print Assumptions C15_optional_partial.

(** The types with an optional field of the other kind ([GameEEventId], of
    both protocols, because [GameSCommandManagerStateEvent] is one of its variants). *)
Theorem C15_reread_types_partial : map fst (filter (fun x => has_reread (snd x)) bit_types)
  = ["Smd5"; "GameSCommandManagerStateEvent"; "GameEEventId"; "GameEEventId"].
Proof. exact reread_types. Qed.
Print Assumptions C15_reread_types_partial.

Theorem C15_optional_refuted :
  (exists v bits c rest, benc blizzard bp_GameSCommandManagerStateEvent (snd c) v bits /\ cursor_ok c /\
     stream c = bits ++ rest /\ exists c' v', bparse Wrapping bp_GameSCommandManagerStateEvent c = Ok (c', v') /\
     v = VStruct [("m_state", VEnum "EFireOnce"); ("m_sequence", VOpt (Some (VInt 7)))] /\
     v' = VStruct [("m_state", VEnum "EFireOnce"); ("m_sequence", VOpt (Some (VInt 67108867)))]) /\
  (exists v bits c rest, benc blizzard bp_Smd5 (snd c) v bits /\ cursor_ok c /\
     stream c = bits ++ rest /\ bparse Wrapping bp_Smd5 c = Err ENom).
Proof. exact reread_witness. Qed.
Print Assumptions C15_optional_refuted.

Example C15_example : bparse Checked (BOpt (BInt 0 5)) ([235], 0%nat) = Ok (([235], 6%nat), VOpt (Some (VInt 21))).
Proof. vm_compute. reflexivity. Qed.

(** C60. *)
Theorem C60_no_panic_wrapping_partial : forall name t c, In (name, t) bit_types -> cursor_ok c -> bparse Wrapping t c <> Panic.
Proof. exact (fun name t c Hin => bparse_np Wrapping t (bit_wf name t Hin) (fun H => False_ind _ (eq_ind Wrapping (fun b => match b with Checked => False | Wrapping => True end) I Checked H)) c). Qed.
Print Assumptions C60_no_panic_wrapping_partial.

Theorem C60_no_panic_checked_partial : forall name t c, In (name, t) bit_types -> name <> "Int64" -> name <> "GameSDetails" ->
  cursor_ok c -> bparse Checked t c <> Panic.
Proof. exact (fun name t c Hin H1 H2 => bparse_np Checked t (bit_wf name t Hin) (fun _ => bit_no_overflow name t Hin H1 H2) c). Qed.
Print Assumptions C60_no_panic_checked_partial.

Theorem C60_no_panic_refuted : exists c, cursor_ok c /\ bparse Checked bp_Int64 c = Panic.
Proof. exact bit_panic_witness. Qed.
Print Assumptions C60_no_panic_refuted.

Example C60_example : In ("GameEEventId", bp_GameEEventId) bit_types /\ cursor_ok ([255; 255], 1%nat).
Proof. split; [exact (nth_error_In bit_types 226 eq_refl)|split; [apply byte_list_ok; reflexivity|split; [cbn; lia|discriminate]]]. Qed.

(** C61.  [crate m]: Blizzard's format with the deviations of BitFormat. *)
Theorem C61_accepts_exactly : forall m name t c c' v, In (name, t) bit_types -> cursor_ok c ->
  (bparse m t c = Ok (c', v) <->
   exists bits rest, stream c = bits ++ rest /\ c' = advance c (length bits) /\ benc (crate m) t (snd c) v bits).
Proof. exact (fun m name t c c' v Hin => bparse_exact m t (bit_wf name t Hin) c c' v). Qed.
Print Assumptions C61_accepts_exactly.

Theorem C61_unambiguous : forall m name t off v1 v2 l1 l2 s1 s2, In (name, t) bit_types -> (off < 8)%nat ->
  benc (crate m) t off v1 l1 -> benc (crate m) t off v2 l2 -> l1 ++ s1 = l2 ++ s2 -> v1 = v2 /\ l1 = l2 /\ s1 = s2.
Proof. exact (fun m name t off v1 v2 l1 l2 s1 s2 Hin => bit_prefix_free m t off v1 v2 l1 l2 s1 s2 (bit_wf name t Hin)). Qed.
Print Assumptions C61_unambiguous.

Example C61_example : benc (crate Checked) (BOpt BBool) 7 (VOpt (Some (VBool false))) [true; false].
Proof. repeat constructor. Qed.

(** C62. *)
Theorem C62_truncated_bits : forall m name t c v bits more, In (name, t) bit_types -> cursor_ok c ->
  benc (crate m) t (snd c) v bits -> bits = stream c ++ more -> more <> [] -> forall r, bparse m t c <> Ok r.
Proof. exact (fun m name t c v bits more Hin => bit_truncated m t c v bits more (bit_wf name t Hin)). Qed.
Print Assumptions C62_truncated_bits.

Theorem C62_truncated_bytes : forall name t v bs l more, In (name, t) ba_all -> input_ok l ->
  venc false t v bs -> bs = l ++ more -> more <> [] -> forall r, vparse Checked t l <> Ok r.
Proof. exact byte_truncated. Qed.
Print Assumptions C62_truncated_bytes.

Example C62_example : bparse Checked bp_CFilePath ([0; 3; 65; 66], 0%nat) = Err ENom /\
  vparse Checked ba_GameSThumbnail [5; 2; 0; 2; 4; 65] = Err ENom.
Proof. split; vm_compute; reflexivity. Qed.
