(** * The event readers of an archive: proofs *)
From Verif Require Import Base Types BitSpec BitFormat BitTotal BitTypes ByteTypes Dispatch DispatchFacts Events ConvertSpec Convert Iterators StreamSpec StreamFacts IteratorFacts IteratorStreams DetailsData Archive ArchiveSpec ArchiveFacts.
#[local] Open Scope string_scope.
#[local] Open Scope Z_scope.
#[local] Open Scope list_scope.

Lemma path_string_joined : forall p, path_string p = String.concat "/" p.
Proof. induction p as [|x p IH]; [reflexivity|]. destruct p as [|y p]; [reflexivity|]. cbn [path_string String.concat] in *. rewrite IH. reflexivity. Qed.

(** The layout of the game events of a build. *)
Definition game_layout (b : Z) : bty := if b <=? 75689 then bp75_GameEEventId else bp_GameEEventId.
Lemma game_layout_eq : forall b, 0 <= b < two32 -> game_type (dispatch_game b) = game_layout b.
Proof. intros b Hb. destruct (dispatch_all b Hb) as (_ & -> & _). unfold game_layout. destruct (b <=? 75689); reflexivity. Qed.

Lemma tracker_file : forall m a b s evs, archive_bytes a -> header_of m a signature_text b -> ar_sector a "replay.tracker.events" = Ok s ->
  tracker_sector evs s -> evs <> [] -> Forall (fun ev => well_named (snd ev)) evs ->
  exists batch, file_tracker_events m a = Ok batch /\ Forall2 (fun ev e => fst e = fst ev /\ tracker_from (snd ev) = Ok (snd e)) evs batch.
Proof.
  intros m a b s evs Ha Hh Es Ht Hn Hw. unfold file_tracker_events. rewrite (proj2 (checked_header_ok m a b Ha) Hh). cbn [obind]. rewrite Es. cbn [obind].
  assert (Hs : bytes_ok s) by (eapply (proj2 Ha); exact Es).
  destruct (tracker_agree m (dispatch_tracker b) evs s Hs Ht Hn Hw) as (batch & items & E & D & E1 & E2 & E3). exists batch. split; [exact E|].
  destruct (tracker_delivers m (dispatch_tracker b) evs s Hs Ht Hw) as (es & F & D').
  assert (items = es).
  { assert (Hl : forall n, firstn n (map Some items ++ repeat None n) = firstn n (map Some es ++ repeat None n)) by (intros n; specialize (D n); specialize (D' n); congruence).
    specialize (Hl (length items + length es)%nat).
    assert (G : forall (l1 l2 : list (Z * tracker_event)) n, (length l1 <= n)%nat -> (length l2 <= n)%nat ->
      firstn n (map Some l1 ++ repeat None n) = firstn n (map Some l2 ++ repeat None n) -> l1 = l2).
    { induction l1 as [|x l1 IH]; intros [|y l2] [|n] L1 L2 Q; cbn in *; try lia; try discriminate; [reflexivity|reflexivity|].
      injection Q as -> Q. f_equal. assert (Q' : firstn n (map Some l1 ++ repeat None n) = firstn n (map Some l2 ++ repeat None n)); [|apply (IH l2 n); [lia|lia|exact Q']].
      assert (R : forall (l : list (Z * tracker_event)), (length l <= n)%nat -> firstn n (map Some l ++ None :: repeat None n) = firstn n (map Some l ++ repeat None n)).
      { intros l Hl'. rewrite !firstn_app. f_equal. rewrite map_length. destruct (n - length l)%nat eqn:En; [reflexivity|].
        change (None :: repeat None n) with (@repeat (option (Z * tracker_event)) None (Datatypes.S n)).
        rewrite !(firstn_repeat) by lia. reflexivity. }
      rewrite !R in Q by lia. exact Q. }
    apply (G items es _) in Hl; [exact Hl|lia|lia]. }
  subst items. clear D D' E E3. revert batch es F E1 E2. generalize 0 as l. clear Hn Ht Hw Es.
  induction evs as [|[d v] evs IH]; intros l batch es F E1 E2; cbn [at_loops] in F; inversion F as [|? e ? es' Re F']; subst; destruct batch as [|[d' x] batch]; try discriminate; [constructor|].
  cbn [map fst snd] in *. injection E1 as -> E1. injection E2 as -> E2. constructor; [split; [reflexivity|exact (proj2 Re)]|]. eapply IH; eauto.
Qed.

Lemma game_file : forall m a b s evs, archive_bytes a -> header_of m a signature_text b -> ar_sector a "replay.game.events" = Ok s ->
  user_sector blizzard (game_layout b) evs (stream (s, 0%nat)) -> Forall (fun ev => quirk_free m (game_layout b) (snd (snd ev)) = true) evs -> evs <> [] ->
  exists batch, file_game_events m a = Ok batch /\
   Forall2 (fun ev e => fst e = fst ev /\ fst (snd e) = fst (snd ev) /\ game_from (snd (snd ev)) = Ok (snd (snd e))) (filter supported_game evs) batch.
Proof.
  intros m a b s evs Ha Hh Es Ht Hq Hn. unfold file_game_events. rewrite (proj2 (checked_header_ok m a b Ha) Hh). cbn [obind]. rewrite Es. cbn [obind].
  assert (Hs : bytes_ok s) by (eapply (proj2 Ha); exact Es). rewrite <- (game_layout_eq b (header_build_u32 m a b Ha Hh)) in *.
  apply game_batch; auto. apply quirk_free_sector; auto.
Qed.

Lemma message_file : forall m a b s evs, archive_bytes a -> header_of m a signature_text b -> ar_sector a "replay.message.events" = Ok s ->
  user_sector blizzard bp_GameEMessageId evs (stream (s, 0%nat)) -> Forall (fun ev => quirk_free m bp_GameEMessageId (snd (snd ev)) = true) evs -> evs <> [] ->
  exists batch, file_message_events m a = Ok batch /\
    Forall2 (fun ev e => fst e = fst ev /\ fst (snd e) = fst (snd ev) /\ chat_value (snd (snd e)) = snd (snd ev)) (filter (fun ev => readable_chat (snd (snd ev))) evs) batch.
Proof.
  intros m a b s evs Ha Hh Es Ht Hq Hn. unfold file_message_events. rewrite (proj2 (checked_header_ok m a b Ha) Hh). cbn [obind]. rewrite Es. cbn [obind].
  assert (Hs : bytes_ok s) by (eapply (proj2 Ha); exact Es). apply messages_read; auto.
  replace (message_type (dispatch_message b)) with bp_GameEMessageId by (destruct (dispatch_message b); reflexivity). apply quirk_free_sector; auto.
Qed.

(** Without the sector a reader fails the way the extraction does. *)
Lemma missing_sector : forall m a b, archive_bytes a -> header_of m a signature_text b ->
  (forall e, ar_sector a "replay.tracker.events" = Err e -> file_tracker_events m a = Err e) /\
  (forall e, ar_sector a "replay.game.events" = Err e -> file_game_events m a = Err e) /\
  (forall e, ar_sector a "replay.message.events" = Err e -> file_message_events m a = Err e) /\
  (forall e, ar_sector a "replay.details" = Err e -> forall fs, file_details m fs a = Err e) /\
  (forall e, ar_sector a "replay.initData" = Err e -> forall n fs, file_init m n fs a = Err e).
Proof.
  intros m a b Ha Hh. apply (checked_header_ok m a b Ha) in Hh.
  repeat split; intros e E; intros; unfold file_tracker_events, file_game_events, file_message_events, file_details, file_init; rewrite Hh; cbn [obind]; rewrite E; reflexivity.
Qed.
Lemma iterator_layout : forall m name fs a d b, archive_bytes a -> header_of m a signature_text b -> file_init m name fs a = Ok d ->
  xi_version d = b /\ iterator_proto d = (if b <=? 75689 then P75689 else P87702) /\ tracker_type (iterator_proto d) = ba_ReplayTrackerEEventId /\ game_type (iterator_proto d) = game_layout b.
Proof.
  intros m name fs a d b Ha Hh E. pose proof (header_build_u32 m a b Ha Hh) as Hb. apply (proj2 (checked_header_ok m a b Ha)) in Hh. unfold file_init in E. rewrite Hh in E. cbn [obind] in E.
  apply obind_ok in E as (s & _ & E). apply obind_ok in E as (x & _ & E). assert (d = set_version b x) as -> by congruence.
  assert (V : iterator_proto (set_version b x) = (if b <=? 75689 then P75689 else P87702)) by (destruct (dispatch_all b Hb) as (_ & _ & _ & _ & _ & K & _); exact K).
  split; [reflexivity|]. split; [exact V|]. rewrite V. unfold game_layout. destruct (b <=? 75689); split; reflexivity.
Qed.
