(** * How much memory decoded data can take (C123)

    [parts] counts what a decoded value holds (SizeSpec), [given] the events
    among the answers of an iterator (SizeStreams).  [ba_all] and [bit_types]
    are all decoders of the crate, of both protocols. *)
From Verif Require Import State StateExample Merge MergeSize.
From Verif Require Import Base Types Versioned ByteTypes BitTypes BitSpec BitPacked BitInterp BitFacts Stream Iterators Dispatch SizeSpec SizeFacts SizeStreams SectorEncode.
#[local] Open Scope string_scope.
#[local] Open Scope nat_scope.
#[local] Open Scope list_scope.

(** C123.  At most five parts for each byte read ... *)
Theorem C123_bytes : forall m name t l r v, In (name, t) ba_all -> bytes_ok l -> vparse m t l = Ok (r, v) -> parts v + 5 * length r <= 5 * length l.
Proof. exact byte_parts. Qed.
Print Assumptions C123_bytes.

(** ... and three for each bit, besides 64 for the whole. *)
Theorem C123_bits : forall m name t c c' v, In (name, t) bit_types -> cursor_ok c -> bparse m t c = Ok (c', v) ->
  exists n, c' = advance c n /\ n <= length (stream c) /\ parts v <= 64 + 3 * n.
Proof. exact bit_parts. Qed.
Print Assumptions C123_bits.

(** An event takes two bytes or more: all at once ... *)
Theorem C123_events : forall m p sector, bytes_ok sector ->
  (forall evs, read_tracker_events m p sector = Ok evs -> 2 * length evs <= length sector) /\
  (forall evs, read_game_events m p sector = Ok evs -> 2 * length evs <= length sector) /\
  (forall evs, read_message_events m p sector = Ok evs -> 2 * length evs <= length sector).
Proof.
  exact (fun m p sector Hb => conj (fun evs => tracker_batch_count m p sector evs Hb)
    (conj (fun evs => game_batch_count m p sector evs Hb) (fun evs => message_batch_count m p sector evs Hb))).
Qed.
Print Assumptions C123_events.

(** ... or one by one, however often the iterator is asked. *)
Theorem C123_calls : forall m p names n sector, bytes_ok sector ->
  (forall rs, tracker_calls m p n (tracker_start sector) = Ok rs -> 2 * given rs <= length sector) /\
  (forall rs, game_calls m p names n (game_start sector) = Ok rs -> 2 * given rs <= length sector).
Proof.
  exact (fun m p names n sector Hb => conj (fun rs => tracker_calls_count m p n sector rs Hb) (fun rs => game_calls_count m p names n sector rs Hb)).
Qed.
Print Assumptions C123_calls.

(** ... and through the merged iterator, with any filters and any users. *)
Theorem C123_merged : forall mc p st t g f n rs it, bytes_ok t -> bytes_ok g -> merge_calls mc p n (merge_start st t g f) = Ok (rs, it) ->
  2 * given rs <= length t + length g.
Proof. exact merged_count. Qed.
Print Assumptions C123_merged.

(** Five parts of seven bytes: an MD5 sum of two bytes, without deprecated
    data. *)
Example C123_example : exists v, vparse Checked ba_Smd5 [5; 2; 2; 2; 4; 170; 187; 9]%Z = Ok ([9]%Z, v) /\ In ("Smd5", ba_Smd5) ba_all /\ parts v = 5.
Proof.
  eexists. split; [vm_compute; reflexivity|]. split; [|vm_compute; reflexivity].
  apply (nth_error_In ba_all 3). vm_compute. reflexivity.
Qed.
(** Three parts, a struct of an optional race that is there, of nine bits. *)
Example C123_bits_example : exists c v, bparse Checked bp_TRacePreference ([129; 0]%Z, 0) = Ok (c, v) /\ In ("TRacePreference", bp_TRacePreference) bit_types /\
  cursor_ok ([129; 0]%Z, 0) /\ c = advance ([129; 0]%Z, 0) 9 /\ parts v = 3.
Proof.
  eexists _, _. split; [vm_compute; reflexivity|]. split; [apply (nth_error_In bit_types 3); vm_compute; reflexivity|].
  split; [split; [apply byte_list_ok; vm_compute; reflexivity|split; [cbn; lia|now cbn]]|]. split; vm_compute; reflexivity.
Qed.
(** Two finished units, of fourteen bytes each. *)
Definition sz_done (i r : Z) : val := VChoice "EUnitDone" (VStruct [("m_unit_tag_index", VInt i); ("m_unit_tag_recycle", VInt r)]).
Definition sz_sector : list Z := Eval vm_compute in match encode_tracker [(3%Z, sz_done 1 0); (4%Z, sz_done 2 1)] with Some bs => bs | None => [] end.
Example C123_events_example : exists evs rs, bytes_ok sz_sector /\ read_tracker_events Checked P87702 sz_sector = Ok evs /\ length evs = 2 /\ tracker_calls Checked P87702 5 (tracker_start sz_sector) = Ok rs /\ given rs = 2 /\ length sz_sector = 28.
Proof.
  eexists _, _. split; [apply byte_list_ok; vm_compute; reflexivity|]. split; [vm_compute; reflexivity|]. split; [vm_compute; reflexivity|].
  split; [vm_compute; reflexivity|]. split; [vm_compute; reflexivity|]. vm_compute. reflexivity.
Qed.
(** The same, merged with no game events. *)
Example C123_merged_example : match merge_calls ex_mc P87702 5 (merge_start ex_start sz_sector [] None) with
  | Ok (rs, _) => given rs = 2 | _ => False end.
Proof. vm_compute. reflexivity. Qed.
