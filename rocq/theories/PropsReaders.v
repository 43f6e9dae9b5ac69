(** * C114: the events of an archive

    [header_of], [signature_text]: ArchiveSpec; the sectors: StreamSpec;
    [quirk_free]: C14.  [game_layout b] (ReaderFacts) is the layout of the game
    events of build [b]: that of 75689 up to 75689, of 87702 above. *)
From Verif Require Import Base Types BitSpec BitFormat BitTotal BitEncode BitFacts BitTypes ByteTypes Dispatch Events ConvertSpec Convert ConvertFacts Iterators StreamSpec SectorEncode IteratorStreams DetailsData Archive ArchiveSpec ReaderFacts PropsConvert PropsIterators PropsRows PropsArchive.
#[local] Open Scope string_scope.
#[local] Open Scope Z_scope.
#[local] Open Scope list_scope.

Theorem C114_tracker : forall m a b s evs, archive_bytes a -> header_of m a signature_text b -> ar_sector a "replay.tracker.events" = Ok s ->
  tracker_sector evs s -> evs <> [] -> Forall (fun ev => well_named (snd ev)) evs ->
  exists batch, file_tracker_events m a = Ok batch /\ Forall2 (fun ev e => fst e = fst ev /\ tracker_from (snd ev) = Ok (snd e)) evs batch.
Proof. exact tracker_file. Qed.
Print Assumptions C114_tracker.
Theorem C114_game : forall m a b s evs, archive_bytes a -> header_of m a signature_text b -> ar_sector a "replay.game.events" = Ok s ->
  user_sector blizzard (game_layout b) evs (stream (s, 0%nat)) -> Forall (fun ev => quirk_free m (game_layout b) (snd (snd ev)) = true) evs -> evs <> [] ->
  exists batch, file_game_events m a = Ok batch /\
   Forall2 (fun ev e => fst e = fst ev /\ fst (snd e) = fst (snd ev) /\ game_from (snd (snd ev)) = Ok (snd (snd e))) (filter supported_game evs) batch.
Proof. exact game_file. Qed.
Print Assumptions C114_game.
Theorem C114_messages : forall m a b s evs, archive_bytes a -> header_of m a signature_text b -> ar_sector a "replay.message.events" = Ok s ->
  user_sector blizzard bp_GameEMessageId evs (stream (s, 0%nat)) -> Forall (fun ev => quirk_free m bp_GameEMessageId (snd (snd ev)) = true) evs -> evs <> [] ->
  exists batch, file_message_events m a = Ok batch /\
    Forall2 (fun ev e => fst e = fst ev /\ fst (snd e) = fst (snd ev) /\ chat_value (snd (snd e)) = snd (snd ev)) (filter (fun ev => readable_chat (snd (snd ev))) evs) batch.
Proof. exact message_file. Qed.
Print Assumptions C114_messages.
(** The iterators of a replay, and so the tables exported of it and what [get]
    shows, use the layouts of that build too. *)
Theorem C114_iterators : forall m name fs a d b, archive_bytes a -> header_of m a signature_text b -> file_init m name fs a = Ok d ->
  xi_version d = b /\ iterator_proto d = (if b <=? 75689 then P75689 else P87702) /\ tracker_type (iterator_proto d) = ba_ReplayTrackerEEventId /\ game_type (iterator_proto d) = game_layout b.
Proof. exact iterator_layout. Qed.
Print Assumptions C114_iterators.
(** Without its sector each reader fails with the error of the extraction. *)
Theorem C114_missing : forall m a b, archive_bytes a -> header_of m a signature_text b ->
  (forall e, ar_sector a "replay.tracker.events" = Err e -> file_tracker_events m a = Err e) /\
  (forall e, ar_sector a "replay.game.events" = Err e -> file_game_events m a = Err e) /\
  (forall e, ar_sector a "replay.message.events" = Err e -> file_message_events m a = Err e) /\
  (forall e, ar_sector a "replay.details" = Err e -> forall fs, file_details m fs a = Err e) /\
  (forall e, ar_sector a "replay.initData" = Err e -> forall n fs, file_init m n fs a = Err e).
Proof. exact missing_sector. Qed.
Print Assumptions C114_missing.
(** The file opened is the path, its components joined by slashes. *)
Theorem C87_path : forall p, path_string p = String.concat "/" p.
Proof. exact path_string_joined. Qed.
Print Assumptions C87_path.

(** An archive of build 75689 and one of 87702 with three sectors. *)
Definition ev_t : list Z := Eval vm_compute in match encode_tracker [(3, v_done 1 0); (4, v_done 2 1)] with Some l => l | None => [] end.
Definition ev_g (p : proto) : list Z := match encode_user (game_type p) g_events with Some l => pack_bits l | None => [] end.
Definition ev_m : list Z := Eval vm_compute in match encode_user bp_GameEMessageId m_events with Some l => pack_bits l | None => [] end.
Definition ev_archive (header : list Z) (p : proto) : archive :=
  mk_archive (Some header) (fun n => if String.eqb n "replay.message.events" then Ok ev_m
    else if String.eqb n "replay.tracker.events" then Ok ev_t else if String.eqb n "replay.game.events" then Ok (ev_g p) else Err (EOther "mpq")) "00ff".
Example C114_example : forall m,
  header_of m (ev_archive old_header P75689) signature_text 75689 /\
  file_tracker_events m (ev_archive old_header P75689) = Ok [(3, TUnitDone (mk_unit_done 1 0)); (4, TUnitDone (mk_unit_done 2 1))] /\
  file_game_events m (ev_archive old_header P75689) = Ok [(3, (1, g_delta)); (0, (7, GUnitClick 262145))] /\
  file_game_events m (ev_archive good_header P87702) = Ok [(3, (1, g_delta)); (0, (7, GUnitClick 262145))] /\
  file_message_events m (ev_archive old_header P75689) = Ok [(3, (1, mk_chat "EAll" "gl hf")); (9, (2, mk_chat "EAllies" "gg"))] /\
  (exists e, file_details m 0 (ev_archive old_header P75689) = Err e) /\
  user_sector blizzard (game_layout 75689) g_events (stream (ev_g P75689, 0%nat)) /\
  forallb (fun ev => quirk_free m (game_layout 75689) (snd (snd ev))) g_events = true.
Proof.
  assert (He : exists bits, encode_user (game_type P75689) g_events = Some bits /\ ev_g P75689 = pack_bits bits /\ stream (pack_bits bits, 0%nat) = bits).
  { eexists. split; [vm_compute; reflexivity|]. split; vm_compute; reflexivity. }
  destruct He as (bits & E1 & E2 & E3). change (game_layout 75689) with (game_type P75689).
  intros m. split.
  - destruct m; (eexists; eexists; eexists; split; [reflexivity|]; split; [vm_compute; reflexivity|]; split; [eexists; eexists; split; [reflexivity|]; split; [left; reflexivity|]; reflexivity|];
      eexists; eexists; split; [reflexivity|]; split; [right; left; reflexivity|]; eexists; eexists; split; [reflexivity|]; split; [do 5 right; left; reflexivity|]; reflexivity).
  - split; [destruct m; vm_compute; reflexivity|]. split; [destruct m; vm_compute; reflexivity|]. split; [destruct m; vm_compute; reflexivity|]. split; [destruct m; vm_compute; reflexivity|].
    split; [eexists; destruct m; vm_compute; reflexivity|]. split; [|destruct m; vm_compute; reflexivity].
    rewrite E2, E3. apply encode_user_sector; [vm_compute; reflexivity|exact E1].
Qed.
Example C114_iterators_example : exists d, file_init Checked "r.SC2Replay" 3 (an_archive (Some old_header) a_details r_t r_g) = Ok d /\ xi_version d = 75689 /\ iterator_proto d = P75689.
Proof.
  assert (B : match file_init Checked "r.SC2Replay" 3 (an_archive (Some old_header) a_details r_t r_g) with Ok d => xi_version d = 75689 /\ iterator_proto d = P75689 | _ => False end) by (vm_compute; split; reflexivity).
  destruct (file_init Checked "r.SC2Replay" 3 (an_archive (Some old_header) a_details r_t r_g)) as [d|e|]; [|contradiction..]. exists d. split; [reflexivity|exact B].
Qed.
