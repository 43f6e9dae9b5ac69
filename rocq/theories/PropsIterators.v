From Coq Require Import Sorted.
(** * C16, C19-C22, C67-C69: reading event sectors *)
From Verif Require Import Base Types Utf8 BitSpec BitPacked BitProofs BitInterp BitFormat BitEncode BitFacts BitTotal Versioned VersionedSpec VersionedEncode ByteTypes BitTypes Dispatch Events Convert ConvertSpec
  ConvertFacts ConvertTracker Stream StreamFacts Iterators StreamSpec SectorEncode IteratorFacts IteratorStreams StreamLoops.
#[local] Open Scope string_scope.
#[local] Open Scope Z_scope.
#[local] Open Scope list_scope.

(** C16.  One tracker event takes at least two bytes off the input ... *)
Theorem C16_tracker_progress : forall m p input rest delta v, bytes_ok input -> parse_event_pair m p input = Ok (rest, (delta, v)) ->
  suffix_of rest input /\ (length rest + 2 <= length input)%nat.
Proof. exact (fun m p input rest delta v Hb E => match pair_step m p input rest delta v Hb E with conj _ (conj Hs (conj Hl _)) => conj Hs Hl end). Qed.
Print Assumptions C16_tracker_progress.
(** ... and so does one game or message event, which also starts and ends on a
    byte boundary. *)
Theorem C16_user_event_progress : forall m p t c c' delta u v, t = game_type p \/ t = message_type p ->
  cursor_ok c -> snd c = 0%nat -> parse_event_triplet m t c = Ok (c', (delta, (u, v))) ->
  cursor_ok c' /\ snd c' = 0%nat /\ suffix_of (fst c') (fst c) /\ (length (fst c') + 2 <= length (fst c))%nat.
Proof. exact user_progress. Qed.
Print Assumptions C16_user_event_progress.
(** Every call of the game iterator returns, for every sector and both kinds of
    builds, and its position never moves back ... *)
Theorem C16_game_next_returns : forall m p names c l, cursor_ok c -> snd c = 0%nat ->
  exists r s, game_next m p names (c, l) = Ok (r, s) /\ cursor_ok (fst s) /\ snd (fst s) = 0%nat /\
    (cursor_size (fst s) <= cursor_size c)%nat /\ (r <> None -> (cursor_size (fst s) < cursor_size c)%nat).
Proof. exact (fun m p names c l Hc Ha => game_next_returns m p names c l (conj Hc Ha)). Qed.
Print Assumptions C16_game_next_returns.
(** ... and every call of the tracker iterator, when overflow does not panic or
    no nine bytes in a row have the continuation bit ([no_run], VersionedSpec.v). *)
Theorem C16_tracker_next_returns : forall m p l loop, bytes_ok l -> m = Wrapping \/ no_run 9 l ->
  exists r s, tracker_next m p (l, loop) = Ok (r, s) /\ bytes_ok (fst s) /\ (length (fst s) <= length l)%nat /\ (r <> None -> (length (fst s) < length l)%nat).
Proof. exact tracker_next_returns. Qed.
Print Assumptions C16_tracker_next_returns.
Definition v_done (i r : Z) : val := VChoice "EUnitDone" (VStruct [("m_unit_tag_index", VInt i); ("m_unit_tag_recycle", VInt r)]).
Definition v_type (i r : Z) (n : list Z) : val := VChoice "EUnitTypeChange" (VStruct [("m_unit_tag_index", VInt i); ("m_unit_tag_recycle", VInt r); ("m_unit_type_name", VBytes n)]).
Example C16_example : exists bs, encode_tracker [(300, v_done 5 1)] = Some bs /\ bytes_ok bs /\ parse_event_pair Checked P87702 (bs ++ [3; 0]) = Ok ([3; 0], (300, v_done 5 1)).
Proof. eexists. split; [vm_compute; reflexivity|]. split; [apply byte_list_ok; vm_compute; reflexivity|]. vm_compute; reflexivity. Qed.

(** C19.  A sector of tracker events ([tracker_sector], StreamSpec.v) whose
    names are UTF-8 ([well_named]; upgrade names need not be) is delivered event
    by event, each at its loop ([at_loops]), then [None] for ever; each event is
    the conversion of its value, which C65 and C66 describe. *)
Theorem C19_tracker_iterator : forall m p evs bs, bytes_ok bs -> tracker_sector evs bs -> Forall (fun ev => well_named (snd ev)) evs ->
  exists es, Forall2 (fun ev e => fst ev = fst e /\ tracker_from (snd ev) = Ok (snd e)) (at_loops 0 evs) es /\
    forall n, tracker_calls m p n (tracker_start bs) = Ok (firstn n (map Some es ++ repeat None n)).
Proof. exact tracker_delivers. Qed.
Print Assumptions C19_tracker_iterator.

Example C19_example : exists bs, encode_tracker [(3, v_done 1 0); (0, v_type 1 0 [65; 66]); (70000, v_done 2 1)] = Some bs /\
  tracker_sector [(3, v_done 1 0); (0, v_type 1 0 [65; 66]); (70000, v_done 2 1)] bs /\ bytes_ok bs /\
  Forall (fun ev => well_named (snd ev)) [(3, v_done 1 0); (0, v_type 1 0 [65; 66]); (70000, v_done 2 1)] /\
  tracker_calls Checked P87702 5 (tracker_start bs) =
    Ok [Some (3, TUnitDone (mk_unit_done 1 0)); Some (3, TUnitTypeChange (mk_unit_type 1 0 "AB")); Some (70003, TUnitDone (mk_unit_done 2 1)); None; None].
Proof.
  eexists. split; [vm_compute; reflexivity|]. split; [apply encode_tracker_sector; vm_compute; reflexivity|]. split; [apply byte_list_ok; vm_compute; reflexivity|].
  split; [|vm_compute; reflexivity]. apply Forall_cons; [right; apply all_utf8_nil; reflexivity|]. apply Forall_cons; [right; unfold all_utf8; change (texts _) with [[65; 66]]; constructor; [eexists; reflexivity|constructor]|].
  apply Forall_cons; [right; apply all_utf8_nil; reflexivity|constructor].
Qed.

(** C20, false: of three events the second has a name that is not UTF-8; the
    second call answers [None] and the third delivers the third event. *)
Theorem C20_conversion_error_refuted : exists sector evs m p, bytes_ok sector /\ tracker_sector evs sector /\
  exists e1 e3, tracker_calls m p 4 (tracker_start sector) = Ok [Some e1; None; Some e3; None].
Proof.
  exists (match encode_tracker [(3, v_done 1 0); (0, v_type 1 0 [255]); (4, v_done 2 1)] with Some b => b | None => [] end), [(3, v_done 1 0); (0, v_type 1 0 [255]); (4, v_done 2 1)], Checked, P87702.
  split; [apply byte_list_ok; vm_compute; reflexivity|]. split; [apply encode_tracker_sector; vm_compute; reflexivity|].
  eexists. eexists. vm_compute. reflexivity.
Qed.
Print Assumptions C20_conversion_error_refuted.
(** What does hold of every sector, however malformed: it is cut into events,
    up to its end or to bytes that do not parse; each call answers the next event
    whose names convert, or [None] for one whose name does not, and after the
    last one every call answers [None]. *)
Theorem C20_every_sector_partial : forall m p sector, bytes_ok sector -> m = Wrapping \/ no_run 9 sector -> exists evs rest,
  holds bytes_end (parse_event_pair m p) sector evs rest /\
  (rest = [] \/ exists e, parse_event_pair m p rest = Err e) /\
  exists answers, Forall2 (fun ev a => (exists e, tracker_from (snd ev) = Ok e /\ a = Some (fst ev, e)) \/ (tracker_from (snd ev) = Err EUtf8 /\ a = None)) (at_loops 0 evs) answers /\
    forall n, tracker_calls m p n (tracker_start sector) = Ok (firstn n (answers ++ repeat None n)).
Proof. exact tracker_answers. Qed.
Print Assumptions C20_every_sector_partial.
Lemma few_continued : forall (n : nat) (l : list Z), (length (filter (fun b => (128 <=? b)%Z) l) < n)%nat -> no_run n l.
Proof.
  intros n l H p q s -> Hq. rewrite !filter_app, !app_length in H.
  assert (E : filter (fun b => 128 <=? b) q = q).
  { clear H. induction Hq as [|b q Hb Hq IH]; [reflexivity|]. cbn [filter]. destruct (Z.leb_spec 128 b); [now rewrite IH|lia]. }
  rewrite E in H. lia.
Qed.
(** A build with overflow checks, and a sector whose second name cannot be read. *)
Example C20_every_sector_example : exists sector, no_run 9 sector /\ bytes_ok sector /\ exists e1 e3, tracker_calls Checked P87702 4 (tracker_start sector) = Ok [Some e1; None; Some e3; None].
Proof.
  exists (match encode_tracker [(3, v_done 1 0); (0, v_type 1 0 [255]); (4, v_done 2 1)] with Some b => b | None => [] end).
  split; [apply few_continued; vm_compute; lia|]. split; [apply byte_list_ok; vm_compute; reflexivity|]. eexists. eexists. vm_compute. reflexivity.
Qed.

(** C21, false of the empty sector: the batch reader fails, the iterator ends. *)
Theorem C21_agree_refuted : exists sector evs, tracker_sector evs sector /\ forall m p,
  read_tracker_events m p sector = Err ENom /\ forall n, tracker_calls m p n (tracker_start sector) = Ok (repeat None n).
Proof.
  exists [], []. split; [constructor|]. intros m p. split; [destruct m, p; vm_compute; reflexivity|]. intros n.
  destruct (tracker_delivers m p [] [] (Forall_nil _) ts_nil (Forall_nil _)) as (es & F & E). inversion F; subst. rewrite (E n). cbn [map app].
  rewrite firstn_repeat by lia. reflexivity.
Qed.
Print Assumptions C21_agree_refuted.
(** Of every other sector both give the same events in the same order (whatever
    the names), the batch reader with the loops since the previous event. *)
Theorem C21_agree_partial : forall m p evs sector, bytes_ok sector -> tracker_sector evs sector -> evs <> [] -> Forall (fun ev => well_named (snd ev)) evs ->
  exists batch items, read_tracker_events m p sector = Ok batch /\
    (forall n, tracker_calls m p n (tracker_start sector) = Ok (firstn n (map Some items ++ repeat None n))) /\
    map snd batch = map snd items /\ map fst batch = map fst evs /\ map fst items = map fst (at_loops 0 evs).
Proof. exact tracker_agree. Qed.
Print Assumptions C21_agree_partial.
Example C21_example : exists bs, encode_tracker [(3, v_done 1 0); (4, v_done 2 1)] = Some bs /\
  read_tracker_events Checked P87702 bs = Ok [(3, TUnitDone (mk_unit_done 1 0)); (4, TUnitDone (mk_unit_done 2 1))].
Proof. eexists. split; [vm_compute; reflexivity|]. vm_compute; reflexivity. Qed.

(** C22.  [user_sector], StreamSpec.v: delta, user and event, padded to a byte.
    [names] is the lookup of the user's name. *)
Theorem C22_game_iterator : forall m p names evs data, bytes_ok data -> user_sector (crate m) (game_type p) evs (stream (data, 0%nat)) ->
  exists items, Forall2 (fun ev it => fst it = fst ev /\ gi_user (snd it) = fst (snd ev) /\ gi_name (snd it) = names (fst (snd ev)) /\
        game_from (snd (snd ev)) = Ok (gi_event (snd it)))
      (filter (fun ev => existsb (String.eqb (variant (snd (snd ev)))) supported_game_events) (at_loops 0 evs)) items /\
    forall n, game_calls m p names n (game_start data) = Ok (firstn n (map Some items ++ repeat None n)).
Proof. exact game_delivers. Qed.
Print Assumptions C22_game_iterator.
(** The same for Blizzard's format, for events free of the deviations of C14. *)
Theorem C22_game_iterator_blizzard : forall m p names evs data, bytes_ok data -> user_sector blizzard (game_type p) evs (stream (data, 0%nat)) ->
  Forall (fun ev => quirk_free m (game_type p) (snd (snd ev)) = true) evs ->
  exists items, Forall2 (delivered_as names) (filter supported_game (at_loops 0 evs)) items /\
    forall n, game_calls m p names n (game_start data) = Ok (firstn n (map Some items ++ repeat None n)).
Proof. exact (fun m p names evs data Hd Hu Hq => game_delivers m p names evs data Hd (quirk_free_sector m _ _ _ Hu Hq)). Qed.
Print Assumptions C22_game_iterator_blizzard.
(** Every sector: the events up to the end or up to bits that do not parse. *)
Theorem C22_every_sector : forall m p names data, bytes_ok data -> exists evs rest items,
  holds cursor_end (parse_event_triplet m (game_type p)) (data, 0%nat) evs rest /\
  (cursor_end rest = true \/ exists e, parse_event_triplet m (game_type p) rest = Err e) /\
  Forall2 (delivered_as names) (filter supported_game (at_loops 0 evs)) items /\
  forall n, game_calls m p names n (game_start data) = Ok (firstn n (map Some items ++ repeat None n)).
Proof. exact game_describe. Qed.
Print Assumptions C22_every_sector.
Definition g_delta : game_event := GSelectionDelta (mk_selection 10 0 SMNone [mk_subgroup 42 5 1 1] [786433]).
Definition g_events : list (Z * (Z * val)) :=
  [(3, (1, game_value g_delta)); (4, (2, VChoice "EUserFinishedLoadingSync" (VStruct []))); (0, (7, game_value (GUnitClick 262145)))].
Example C22_example : exists bits, encode_user (game_type P87702) g_events = Some bits /\
  user_sector blizzard (game_type P87702) g_events (stream (pack_bits bits, 0%nat)) /\ bytes_ok (pack_bits bits) /\
  forallb (fun ev => quirk_free Checked (game_type P87702) (snd (snd ev))) g_events = true /\
  game_calls Checked P87702 (fun u => if u =? 7 then Some "Serral" else None) 4 (game_start (pack_bits bits)) =
    Ok [Some (3, mk_game_item 1 None g_delta); Some (7, mk_game_item 7 (Some "Serral") (GUnitClick 262145)); None; None].
Proof.
  eexists. split; [vm_compute; reflexivity|]. split; [apply encode_user_sector; [vm_compute; reflexivity|vm_compute; reflexivity]|].
  split; [apply byte_list_ok; vm_compute; reflexivity|]. split; vm_compute; reflexivity.
Qed.

(** C67.  For every sector below 2^32 bytes every loop reached is below 2^63,
    whatever the bytes: [event_loop] never overflows. *)
Theorem C67_tracker_loops_fit : forall m p sector evs rest, bytes_ok sector -> Z.of_nat (length sector) < two32 ->
  holds bytes_end (parse_event_pair m p) sector evs rest -> Forall (fun ev => 0 <= fst ev < two63) (at_loops 0 evs).
Proof. exact tracker_loops_fit. Qed.
Print Assumptions C67_tracker_loops_fit.
Theorem C67_game_loops_fit : forall m p sector evs rest, bytes_ok sector -> Z.of_nat (length sector) < two32 ->
  holds cursor_end (parse_event_triplet m (game_type p)) (sector, 0%nat) evs rest -> Forall (fun ev => 0 <= fst ev < two63) (at_loops 0 evs).
Proof. exact game_loops_fit. Qed.
Print Assumptions C67_game_loops_fit.
(** And the loops the iterators show never go back. *)
Theorem C67_tracker_loops_shown : forall m p sector n outs, bytes_ok sector -> Z.of_nat (length sector) < two32 ->
  tracker_calls m p n (tracker_start sector) = Ok outs -> Sorted Z.le (shown_loops outs) /\ Forall (fun z => 0 <= z < two63) (shown_loops outs).
Proof. exact tracker_loops_shown. Qed.
Print Assumptions C67_tracker_loops_shown.
Theorem C67_game_loops_shown : forall m p names sector n outs, bytes_ok sector -> Z.of_nat (length sector) < two32 ->
  game_calls m p names n (game_start sector) = Ok outs -> Sorted Z.le (shown_loops outs) /\ Forall (fun z => 0 <= z < two63) (shown_loops outs).
Proof. exact game_loops_shown. Qed.
Print Assumptions C67_game_loops_shown.
Example C67_example : exists bs, encode_tracker [(4294967295, v_done 1 0); (4294967295, v_done 2 1)] = Some bs /\
  tracker_calls Checked P87702 2 (tracker_start bs) = Ok [Some (4294967295, TUnitDone (mk_unit_done 1 0)); Some (8589934590, TUnitDone (mk_unit_done 2 1))].
Proof. eexists. split; [vm_compute; reflexivity|]. vm_compute; reflexivity. Qed.

(** C68, false: the batch reader of game events gives each event the loops since
    the previous event of the file, also when that one was dropped; the sum of
    the deltas is then not the loop of the event. *)
Theorem C68_batch_deltas_refuted : exists data evs m p, bytes_ok data /\ user_sector blizzard (game_type p) evs (stream (data, 0%nat)) /\
  read_game_events m p data = Ok [(3, (1, g_delta)); (0, (7, GUnitClick 262145))] /\
  exists i1 i2, game_calls m p (fun _ => None) 2 (game_start data) = Ok [Some (3, i1); Some (7, i2)].
Proof.
  exists (pack_bits (match encode_user (game_type P87702) g_events with Some b => b | None => [] end)), g_events, Checked, P87702.
  split; [apply byte_list_ok; vm_compute; reflexivity|]. split; [apply encode_user_sector; [vm_compute; reflexivity|vm_compute; reflexivity]|].
  split; [vm_compute; reflexivity|]. eexists. eexists. vm_compute. reflexivity.
Qed.
Print Assumptions C68_batch_deltas_refuted.
(** When every event of the file is supported the deltas are all there. *)
Theorem C68_batch_game_partial : forall m p names evs data, bytes_ok data -> user_sector (crate m) (game_type p) evs (stream (data, 0%nat)) -> evs <> [] ->
  Forall (fun ev => supported_game ev = true) evs ->
  exists batch items, read_game_events m p data = Ok batch /\ (forall n, game_calls m p names n (game_start data) = Ok (firstn n (map Some items ++ repeat None n))) /\
    map fst items = map fst (at_loops 0 batch) /\ map snd batch = map (fun it => (gi_user (snd it), gi_event (snd it))) items.
Proof. exact game_agree. Qed.
Print Assumptions C68_batch_game_partial.
(** In general the batch reader returns the supported events in order, each with
    its own delta and user. *)
Theorem C68_batch_any_partial : forall m p evs data, bytes_ok data -> user_sector (crate m) (game_type p) evs (stream (data, 0%nat)) -> evs <> [] ->
  exists batch, read_game_events m p data = Ok batch /\
   Forall2 (fun ev e => fst e = fst ev /\ fst (snd e) = fst (snd ev) /\ game_from (snd (snd ev)) = Ok (snd (snd e))) (filter supported_game evs) batch.
Proof. exact game_batch. Qed.
Print Assumptions C68_batch_any_partial.

(** C69.  The chat messages of a sector of message events, in order, each with
    its own delta and user, recipient and text ([chat_value] is the wire value);
    a message that is not UTF-8 and every other message event is left out. *)
Theorem C69_messages : forall m p evs data, bytes_ok data -> user_sector (crate m) (message_type p) evs (stream (data, 0%nat)) -> evs <> [] ->
  exists batch, read_message_events m p data = Ok batch /\
    Forall2 (fun ev e => fst e = fst ev /\ fst (snd e) = fst (snd ev) /\ chat_value (snd (snd e)) = snd (snd ev)) (filter (fun ev => readable_chat (snd (snd ev))) evs) batch.
Proof. exact messages_read. Qed.
Print Assumptions C69_messages.
Definition m_events : list (Z * (Z * val)) :=
  [(3, (1, chat_value (mk_chat "EAll" "gl hf"))); (4, (2, VChoice "ELoadingProgress" (VStruct [("m_progress", VInt 50)]))); (0, (7, VChoice "EChat" (VStruct [("m_recipient", VEnum "EAllies"); ("m_string", VBytes [255])])));
   (9, (2, chat_value (mk_chat "EAllies" "gg")))].
Example C69_example : exists bits, encode_user (message_type P75689) m_events = Some bits /\
  forallb (fun ev => quirk_free Checked (message_type P75689) (snd (snd ev))) m_events = true /\ bytes_ok (pack_bits bits) /\
  read_message_events Checked P75689 (pack_bits bits) = Ok [(3, (1, mk_chat "EAll" "gl hf")); (9, (2, mk_chat "EAllies" "gg"))].
Proof. eexists. split; [vm_compute; reflexivity|]. split; [vm_compute; reflexivity|]. split; [apply byte_list_ok; vm_compute; reflexivity|]. vm_compute; reflexivity. Qed.
