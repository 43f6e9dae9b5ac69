From Verif Require Import Base Vlq VlqProofs VlqExact Types BitSpec BitPacked BitProofs BitInterp BitFormat BitExact BitTotal BitFacts Versioned VersionedSpec VersionedProofs ByteTypes ByteFacts VersionedExact BitTypes Dispatch DispatchFacts Utf8 Tags TagFacts Events Convert ConvertSpec Typed ConvertFacts ConvertTracker Stream StreamFacts Iterators IteratorFacts StreamSpec.
#[local] Open Scope string_scope.
#[local] Open Scope Z_scope.
#[local] Open Scope list_scope.

Lemma at_loops_cumulate : forall X evs l, @at_loops X l evs = cumulate l evs.
Proof. induction evs as [|[d x] evs IH]; intros l; cbn [at_loops cumulate]; [reflexivity|now rewrite IH]. Qed.

(** ** Tracker *)
Lemma pair_complete : forall m p d s v b1 b2 rest, venc true ba_SVarUint32 (VChoice s (VInt d)) b1 -> venc true ba_ReplayTrackerEEventId v b2 ->
  parse_event_pair m p (b1 ++ b2 ++ rest) = Ok (rest, (d, v)).
Proof.
  intros m p d s v b1 b2 rest H1 H2. unfold parse_event_pair. rewrite (vparse_complete true m ba_SVarUint32 _ _ _ eq_refl H1). cbn [obind].
  rewrite tracker_type_eq, (vparse_complete true m ba_ReplayTrackerEEventId _ _ _ eq_refl H2). reflexivity.
Qed.
Lemma pair_good : forall m p c c' d x, bytes_ok c -> parse_event_pair m p c = Ok (c', (d, x)) -> bytes_ok c' /\ (length c' < length c)%nat.
Proof. intros m p c c' d x Hc E. destruct (pair_step _ _ _ _ _ _ Hc E) as (H1 & _ & H2 & _). split; [exact H1|lia]. Qed.
Lemma sector_holds : forall m p evs bs, tracker_sector evs bs -> holds bytes_end (parse_event_pair m p) bs evs [].
Proof.
  intros m p evs bs Hs. induction Hs as [|d s v evs b1 b2 bs H1 H2 Hs IH]; [constructor|].
  econstructor; [|apply (pair_complete m p d s v b1 b2 bs H1 H2)|exact IH].
  destruct b1; [|reflexivity]. pose proof (vparse_complete true m ba_SVarUint32 _ _ [] eq_refl H1) as E. discriminate E.
Qed.
Lemma well_named_converts : forall v, vtyped ba_ReplayTrackerEEventId v = true -> well_named v -> exists e, tracker_from v = Ok e.
Proof.
  intros v Ht Hw. pose proof (tracker_from_typed v Ht) as Hr. unfold tracker_result in Hr.
  destruct (String.eqb_spec (variant v) "EPlayerStats") as [_|_]; [destruct Hr as (p & ss & st & _ & E & _); eauto|].
  destruct (String.eqb_spec (variant v) "EUpgrade") as [_|Hn]; [destruct Hr as (e & E & _); eauto|].
  destruct Hr as [(e & E & _)|[_ Hu]]; [eauto|]. destruct Hw; contradiction.
Qed.
Lemma ill_named : forall v, vtyped ba_ReplayTrackerEEventId v = true -> (exists e, tracker_from v = Ok e) \/ tracker_from v = Err EUtf8.
Proof.
  intros v Ht. pose proof (tracker_from_typed v Ht) as Hr. unfold tracker_result in Hr.
  destruct (String.eqb_spec (variant v) "EPlayerStats") as [_|_]; [destruct Hr as (p & ss & st & _ & E & _); eauto|].
  destruct (String.eqb_spec (variant v) "EUpgrade") as [_|Hn]; [destruct Hr as (e & E & _); eauto|].
  destruct Hr as [(e & E & _)|[E _]]; eauto.
Qed.
Lemma holds_typed : forall m p c evs r, holds bytes_end (parse_event_pair m p) c evs r -> bytes_ok c ->
  Forall (fun ev => 0 <= fst ev < two32 /\ vtyped ba_ReplayTrackerEEventId (snd ev) = true) evs /\ (length r + 2 * length evs <= length c)%nat.
Proof.
  intros m p c evs r Hh. induction Hh as [c|c c' r d x evs He Hp Hh IH]; intros Hc; [split; [constructor|cbn [length]; lia]|].
  destruct (pair_step _ _ _ _ _ _ Hc Hp) as (H1 & _ & H2 & H3 & H4). destruct (IH H1) as [I1 I2]. split; [constructor; [split; assumption|exact I1]|]. cbn [length]. lia.
Qed.
Lemma tracker_calls_outputs : forall m p c evs r, holds bytes_end (parse_event_pair m p) c evs r -> bytes_ok c -> stops bytes_end (parse_event_pair m p) r ->
  forall n, tracker_calls m p n (tracker_start c) = Ok (firstn n (outputs tracker_from (at_loops 0 evs) ++ repeat None n)).
Proof.
  intros m p c evs r Hh Hc Hs n. rewrite at_loops_cumulate. unfold tracker_calls, tracker_start.
  apply (calls_outputs bytes_end (@length Z) (parse_event_pair m p) tracker_from bytes_ok) with (r := r); auto.
  - intros. eapply pair_good; eassumption.
  - apply pair_nu.
  - apply tracker_from_np.
Qed.
Lemma Forall2_converted : forall X E (conv : X -> outcome E) evs es,
  Forall2 (fun ev e => fst ev = fst e /\ conv (snd ev) = Ok (snd e)) evs es -> converted conv evs = es /\ outputs conv evs = map Some es.
Proof.
  intros X E conv evs es Hf. induction Hf as [|[d x] [d' e] evs es [Hd Hx] _ [IH1 IH2]]; [split; reflexivity|]. cbn [fst snd] in *. subst d'.
  unfold converted, outputs in *. cbn [flat_map fst snd map]. rewrite Hx, IH1, IH2. split; reflexivity.
Qed.
(** C19. *)
Definition delivers {E} (results : nat -> outcome (list (option E))) (es : list E) : Prop :=
  forall n, results n = Ok (firstn n (map Some es ++ repeat None n)).
Lemma tracker_delivers : forall m p evs bs, bytes_ok bs -> tracker_sector evs bs -> Forall (fun ev => well_named (snd ev)) evs ->
  exists es, Forall2 (fun ev e => fst ev = fst e /\ tracker_from (snd ev) = Ok (snd e)) (at_loops 0 evs) es /\
    delivers (fun n => tracker_calls m p n (tracker_start bs)) es.
Proof.
  intros m p evs bs Hb Hs Hw. pose proof (sector_holds m p _ _ Hs) as Hh. destruct (holds_typed _ _ _ _ _ Hh Hb) as [Ht _].
  assert (He : exists es, Forall2 (fun ev e => fst ev = fst e /\ tracker_from (snd ev) = Ok (snd e)) (at_loops 0 evs) es).
  { clear Hh Hs Hb. generalize 0 as l. induction evs as [|[d v] evs IH]; intros l; cbn [at_loops]; [exists []; constructor|].
    inversion Hw as [|? ? W1 W2]; inversion Ht as [|? ? T1 T2]; subst. destruct (IH W2 T2 (l + d)) as [es He]. destruct T1 as [_ T1].
    destruct (well_named_converts _ T1 W1) as [e E]. exists ((l + d, e) :: es). constructor; [split; [reflexivity|exact E]|exact He]. }
  destruct He as [es He]. exists es. split; [exact He|]. intros n.
  rewrite (tracker_calls_outputs m p bs evs [] Hh Hb (or_introl eq_refl)), (proj2 (Forall2_converted _ _ _ _ _ He)). reflexivity.
Qed.
(** Every sector, well-formed or not. *)
Definition readable (m : build) (l : list Z) : Prop := bytes_ok l /\ (m = Wrapping \/ no_run 9 l).
Lemma readable_suffix : forall m a l, suffix_of a l -> readable m l -> readable m a.
Proof.
  intros m a l Hs [Hl Hm]. split; [eapply suffix_bytes_ok; eassumption|]. destruct Hm as [->|Hm]; [now left|right; eapply no_run_suffix; eassumption].
Qed.
Lemma vparse_readable_np : forall m t, wf_vty t = true -> forall l, readable m l -> vparse m t l <> Panic.
Proof. intros m t Hw l [Hl [->|Hn]]; [now apply vparse_wrapping_np|now apply vparse_no_run_np]. Qed.
Lemma pair_np : forall m p l, readable m l -> parse_event_pair m p l <> Panic.
Proof.
  intros m p l Hr E. pose proof Hr as [Hl _]. unfold parse_event_pair in E. destruct (vparse m ba_SVarUint32 l) as [[t d]| |] eqn:E1; cbn [obind] in E; try discriminate.
  - pose proof (readable_suffix m t l (psuffix_suffix _ _ _ (vparse_psuffix _ _ _ _ _ Hl E1)) Hr) as Ht.
    destruct (vparse_typed m ba_SVarUint32 eq_refl _ _ _ Hl E1) as [H1 T1]. rewrite tracker_type_eq in E.
    destruct (vparse m ba_ReplayTrackerEEventId t) as [[t2 v]| |] eqn:E2; cbn [obind] in E; try discriminate.
    + destruct (vt_choice _ _ _ T1) as (z & s & ty & w & -> & _). destruct w; discriminate.
    + exact (vparse_readable_np m ba_ReplayTrackerEEventId eq_refl _ Ht E2).
  - exact (vparse_readable_np m ba_SVarUint32 eq_refl _ Hr E1).
Qed.
Lemma pair_readable : forall m p c c' d x, readable m c -> parse_event_pair m p c = Ok (c', (d, x)) -> readable m c' /\ (length c' < length c)%nat.
Proof.
  intros m p c c' d x Hc E. destruct (pair_step _ _ _ _ _ _ (proj1 Hc) E) as (_ & H1 & H2 & _). split; [exact (readable_suffix _ _ _ H1 Hc)|lia].
Qed.
Lemma tracker_describe : forall m p l, readable m l -> exists evs r, holds bytes_end (parse_event_pair m p) l evs r /\
  stops bytes_end (parse_event_pair m p) r /\
  forall n, tracker_calls m p n (tracker_start l) = Ok (firstn n (outputs tracker_from (at_loops 0 evs) ++ repeat None n)).
Proof.
  intros m p l Hl. destruct (holds_total bytes_end (@length Z) (parse_event_pair m p) (readable m)) with (c := l) as (evs & r & H1 & H2); auto.
  - intros. eapply pair_readable; eassumption.
  - intros. now apply pair_np.
  - exists evs, r. split; [exact H1|]. split; [exact H2|]. eapply tracker_calls_outputs; [eassumption|apply Hl|assumption].
Qed.
(** Batch. *)
Lemma batch_sector : forall m p evs bs, bytes_ok bs -> tracker_sector evs bs -> evs <> [] ->
  read_tracker_events m p bs = Ok (converted tracker_from evs).
Proof.
  intros m p evs bs Hb Hs Hn. unfold read_tracker_events. pose proof (sector_holds m p _ _ Hs) as Hh.
  apply (batch_converted bytes_end (@length Z) (parse_event_pair m p) tracker_from bytes_ok) with (r := []); auto.
  - intros. eapply pair_good; eassumption.
  - inversion Hh; subst; [contradiction|assumption].
  - apply tracker_from_np.
Qed.
Lemma converted_snd : forall X E (conv : X -> outcome E) evs l, map snd (converted conv (at_loops l evs)) = map snd (converted conv evs).
Proof.
  intros X E conv. induction evs as [|[d x] evs IH]; intros l; [reflexivity|]. unfold converted in *. cbn [at_loops flat_map fst snd].
  rewrite !map_app, IH. f_equal. destruct (conv x); reflexivity.
Qed.

(** ** Game and message events *)
Lemma after_after : forall l1 l2, after (after 0 l1) l2 = after 0 (l1 ++ l2).
Proof. intros. unfold after. rewrite app_length. cbn [Nat.add]. rewrite Nat.add_mod_idemp_l by lia. reflexivity. Qed.
Lemma triplet_complete : forall m t c d s u v l1 l2 l3 pad rest, wf_bty t = true -> aligned c ->
  stream c = l1 ++ l2 ++ l3 ++ pad ++ rest ->
  benc (crate m) bp_SVarUint32 0 (VChoice s (VInt d)) l1 ->
  benc (crate m) bp_ReplaySGameUserId (after 0 l1) (VStruct [("m_user_id", VInt u)]) l2 ->
  benc (crate m) t (after 0 (l1 ++ l2)) v l3 -> is_pad (after 0 (l1 ++ l2 ++ l3)) pad ->
  exists c', parse_event_triplet m t c = Ok (c', (d, (u, v))) /\ aligned c' /\ stream c' = rest.
Proof.
  intros m t c d s u v l1 l2 l3 pad rest Hwf [Hc Ha] Es B1 B2 B3 Hp.
  assert (P1 : pre l1 (stream c)) by (now exists (l2 ++ l3 ++ pad ++ rest)).
  destruct (pre_cursor c l1 Hc P1) as [H1 A1]. rewrite Ha in A1.
  assert (S1 : stream (advance c (length l1)) = l2 ++ l3 ++ pad ++ rest). { rewrite stream_advance, Es, skipn_app, skipn_all, Nat.sub_diag. reflexivity. }
  set (c1 := advance c (length l1)) in *.
  assert (P2 : pre l2 (stream c1)) by (now exists (l3 ++ pad ++ rest)).
  destruct (pre_cursor c1 l2 H1 P2) as [H2 A2]. rewrite A1, after_after in A2.
  assert (S2 : stream (advance c1 (length l2)) = l3 ++ pad ++ rest). { rewrite stream_advance, S1, skipn_app, skipn_all, Nat.sub_diag. reflexivity. }
  set (c2 := advance c1 (length l2)) in *.
  assert (P3 : pre l3 (stream c2)) by (now exists (pad ++ rest)).
  destruct (pre_cursor c2 l3 H2 P3) as [H3 A3]. rewrite A2, after_after in A3. rewrite <- app_assoc in A3.
  assert (S3 : stream (advance c2 (length l3)) = pad ++ rest). { rewrite stream_advance, S2, skipn_app, skipn_all, Nat.sub_diag. reflexivity. }
  set (c3 := advance c2 (length l3)) in *.
  assert (E4 : byte_align c3 = Ok (advance c3 (length pad))). { rewrite byte_align_spec by assumption. rewrite A3. unfold is_pad in Hp. rewrite <- Hp. reflexivity. }
  assert (P4 : pre pad (stream c3)) by (now exists rest).
  destruct (pre_cursor c3 pad H3 P4) as [H4 A4].
  exists (advance c3 (length pad)). split; [|split].
  - unfold parse_event_triplet. rewrite (bparse_complete m bp_SVarUint32 eq_refl c _ l1 Hc P1) by (rewrite Ha; exact B1). cbn [obind]. fold c1.
    rewrite (bparse_complete m bp_ReplaySGameUserId eq_refl c1 _ l2 H1 P2) by (rewrite A1; exact B2). cbn [obind]. fold c2.
    rewrite (bparse_complete m t Hwf c2 _ l3 H2 P3) by (rewrite A2; exact B3). cbn [obind var_value]. fold c3.
    rewrite E4. reflexivity.
  - split; [exact H4|]. destruct (byte_align_facts c3 H3) as (c' & k & Eb & _ & _ & Hz & _). rewrite E4 in Eb. injection Eb as <-. exact Hz.
  - rewrite stream_advance, S3, skipn_app, skipn_all, Nat.sub_diag. reflexivity.
Qed.
Lemma cursor_end_stream : forall c, aligned c -> (cursor_end c = true <-> stream c = []).
Proof.
  intros [bs o] [_ Ha]. cbn in Ha. subst o. unfold cursor_end. cbn [fst]. destruct bs as [|b bs]; cbn [bytes_end].
  - split; reflexivity.
  - split; [discriminate|]. intros E. apply (f_equal (@length bool)) in E. rewrite stream_length in E. cbn [fst snd length] in E. lia.
Qed.
Lemma sector_holds_bits : forall m t evs bits, wf_bty t = true -> user_sector (crate m) t evs bits -> forall c, aligned c -> stream c = bits ->
  exists r, holds cursor_end (parse_event_triplet m t) c evs r /\ cursor_end r = true.
Proof.
  intros m t evs bits Hwf Hu. induction Hu as [|d s u v evs l1 l2 l3 pad bits B1 B2 B3 Hp Hu IH]; intros c Hc Es.
  - exists c. split; [constructor|]. now apply cursor_end_stream.
  - destruct (triplet_complete m t c d s u v l1 l2 l3 pad bits Hwf Hc Es B1 B2 B3 Hp) as (c' & Ep & Hc' & Es').
    destruct (IH c' Hc' Es') as (r & Hh & Hr). exists r. split; [|exact Hr]. econstructor; [|exact Ep|exact Hh].
    destruct (cursor_end c) eqn:Ee; [|reflexivity]. apply cursor_end_stream in Ee; [|exact Hc]. rewrite Ee in Es.
    destruct l1; [|discriminate]. apply min_bits_le in B1. cbn in B1. lia.
Qed.
Lemma triplet_good : forall m t, wf_bty t = true -> no_overflow t = true -> (2 <= min_bits t)%nat ->
  forall c c' d x, aligned c -> parse_event_triplet m t c = Ok (c', (d, x)) -> aligned c' /\ (cursor_size c' < cursor_size c)%nat.
Proof. intros m t H1 H2 H3 c c' d [u v] Hc E. destruct (triplet_step m t c c' d u v H1 H2 H3 Hc E) as (A & _ & B & _). split; [exact A|]. unfold cursor_size. lia. Qed.
Lemma triplet_np : forall m t, wf_bty t = true -> no_overflow t = true -> forall c, aligned c -> parse_event_triplet m t c <> Panic.
Proof.
  intros m t Hwf Hno c [Hc Ha] E. unfold parse_event_triplet in E.
  destruct (bparse m bp_SVarUint32 c) as [[c1 dv]| |] eqn:E1; cbn [obind] in E; try discriminate; [|exact (bparse_np m bp_SVarUint32 eq_refl (fun _ => eq_refl) c Hc E1)].
  destruct (bparse_len _ bp_SVarUint32 _ _ _ eq_refl Hc E1) as (H1 & _).
  destruct (bparse m bp_ReplaySGameUserId c1) as [[c2 uv]| |] eqn:E2; cbn [obind] in E; try discriminate; [|exact (bparse_np m bp_ReplaySGameUserId eq_refl (fun _ => eq_refl) c1 H1 E2)].
  destruct (bparse_len _ bp_ReplaySGameUserId _ _ _ eq_refl H1 E2) as (H2 & _).
  destruct (bparse m t c2) as [[c3 ev]| |] eqn:E3; cbn [obind] in E; try discriminate; [|exact (bparse_np m t Hwf (fun _ => Hno) c2 H2 E3)].
  destruct (bparse_len _ t _ _ _ Hwf H2 E3) as (H3 & _).
  destruct (var_value dv) as [d| |] eqn:E4; cbn [obind] in E; try discriminate.
  - rewrite byte_align_spec in E by assumption. cbn [obind] in E. destruct (get to_int "m_user_id" uv) eqn:E5; cbn [obind] in E; try discriminate.
    exact (np_get _ to_int "m_user_id" uv np_int E5).
  - destruct dv; try discriminate. destruct dv; discriminate.
Qed.
Lemma game_wf : forall p, wf_bty (game_type p) = true.
Proof. intros []; vm_compute; reflexivity. Qed.
Lemma game_no : forall p, no_overflow (game_type p) = true.
Proof. intros []; vm_compute; reflexivity. Qed.
Lemma game_min : forall p, (2 <= min_bits (game_type p))%nat.
Proof. intros []; apply Nat.leb_le; vm_compute; reflexivity. Qed.
Lemma msg_wf : forall p, wf_bty (message_type p) = true.
Proof. intros []; vm_compute; reflexivity. Qed.
Lemma msg_no : forall p, no_overflow (message_type p) = true.
Proof. intros []; vm_compute; reflexivity. Qed.
Lemma msg_min : forall p, (2 <= min_bits (message_type p))%nat.
Proof. intros []; apply Nat.leb_le; vm_compute; reflexivity. Qed.
Lemma start_aligned : forall l, bytes_ok l -> aligned (l, 0%nat).
Proof. intros l Hl. split; [|reflexivity]. split; [exact Hl|]. split; cbn [snd]; [lia|congruence]. Qed.

Lemma game_convert_np : forall names x, game_convert names x <> Panic.
Proof. intros names [u v]. unfold game_convert. cbn [fst snd]. apply np_bind; [apply game_from_np|discriminate]. Qed.
Lemma plain_convert_np : forall x, plain_convert x <> Panic.
Proof. intros [u v]. unfold plain_convert. cbn [fst snd]. apply np_bind; [apply game_from_np|discriminate]. Qed.
Lemma message_convert_np : forall x, message_convert x <> Panic.
Proof. intros [u v]. unfold message_convert. cbn [fst snd]. apply np_bind; [apply message_from_np|discriminate]. Qed.

Lemma game_calls_outputs : forall m p names c evs r, holds cursor_end (parse_event_triplet m (game_type p)) c evs r -> aligned c ->
  stops cursor_end (parse_event_triplet m (game_type p)) r ->
  forall n, game_calls m p names n (c, 0) = Ok (firstn n (outputs (game_convert names) (at_loops 0 evs) ++ repeat None n)).
Proof.
  intros m p names c evs r Hh Hc Hs n. rewrite at_loops_cumulate. unfold game_calls.
  apply (calls_outputs cursor_end cursor_size (parse_event_triplet m (game_type p)) (game_convert names) aligned) with (r := r); auto.
  - apply triplet_good; [apply game_wf|apply game_no|apply game_min].
  - apply triplet_nu.
  - apply game_convert_np.
Qed.
Lemma holds_typed_bits : forall m t, wf_bty t = true -> no_overflow t = true -> (2 <= min_bits t)%nat -> forall c evs r, holds cursor_end (parse_event_triplet m t) c evs r -> aligned c ->
  Forall (fun ev => 0 <= fst ev < two32 /\ 0 <= fst (snd ev) < 32 /\ btyped t (snd (snd ev)) = true) evs /\ (cursor_size r + 2 * length evs <= cursor_size c)%nat.
Proof.
  intros m t H1 H2 H3 c evs r Hh. induction Hh as [c|c c' r d [u v] evs He Hp Hh IH]; intros Hc; [split; [constructor|cbn [length]; lia]|].
  destruct (triplet_step m t c c' d u v H1 H2 H3 Hc Hp) as (A & _ & B & D & U & T). destruct (IH A) as [I1 I2].
  split; [constructor; [cbn [fst snd]; auto|exact I1]|]. cbn [length]. unfold cursor_size in *. lia.
Qed.

(** C22. *)
Definition supported_game (x : Z * (Z * val)) : bool := existsb (String.eqb (variant (snd (snd x)))) supported_game_events.
Definition delivered_as (names : Z -> option string) (ev : Z * (Z * val)) (it : Z * game_item) : Prop :=
  fst it = fst ev /\ gi_user (snd it) = fst (snd ev) /\ gi_name (snd it) = names (fst (snd ev)) /\ game_from (snd (snd ev)) = Ok (gi_event (snd it)).
Lemma at_loops_typed : forall X (P : X -> Prop) evs l, Forall (fun ev => P (snd ev)) evs -> Forall (fun ev => P (snd ev)) (at_loops l evs).
Proof. intros X P evs. induction evs as [|[d x] evs IH]; intros l Hf; cbn [at_loops]; [constructor|]. inversion Hf; subst. constructor; [assumption|now apply IH]. Qed.
Lemma game_outputs : forall p names evs, Forall (fun ev => btyped (game_type p) (snd (snd ev)) = true) evs ->
  exists es, Forall2 (delivered_as names) (filter supported_game evs) es /\ outputs (game_convert names) evs = map Some es.
Proof.
  intros p names evs Hf. induction Hf as [|[l [u v]] evs Ht _ (es & IH1 & IH2)]; [exists []; split; [constructor|reflexivity]|].
  cbn [filter]. unfold outputs in *. cbn [flat_map fst snd] in *. unfold supported_game at 1. cbn [snd]. unfold game_convert at 1. cbn [fst snd].
  pose proof (game_from_typed p v Ht) as Hr. unfold game_result in Hr. destruct (existsb _ _).
  - destruct Hr as (e & E & _). rewrite E. cbn [obind]. exists ((l, mk_game_item u (names u) e) :: es). split; [constructor; [|exact IH1]|].
    + repeat split; assumption.
    + cbn [map]. rewrite <- IH2. reflexivity.
  - rewrite Hr. exists es. split; [exact IH1|exact IH2].
Qed.
Lemma game_delivers : forall m p names evs data, bytes_ok data -> user_sector (crate m) (game_type p) evs (stream (data, 0%nat)) ->
  exists es, Forall2 (delivered_as names) (filter supported_game (at_loops 0 evs)) es /\
    delivers (fun n => game_calls m p names n (game_start data)) es.
Proof.
  intros m p names evs data Hd Hu. pose proof (start_aligned data Hd) as Ha.
  destruct (sector_holds_bits m (game_type p) evs _ (game_wf p) Hu _ Ha eq_refl) as (r & Hh & Hr).
  destruct (holds_typed_bits m _ (game_wf p) (game_no p) (game_min p) _ _ _ Hh Ha) as [Ht _].
  destruct (game_outputs p names (at_loops 0 evs)) as (es & E1 & E2).
  { apply (at_loops_typed _ (fun x => btyped (game_type p) (snd x) = true)). eapply Forall_impl; [|exact Ht]. intros [d [u v]] (_ & _ & T). exact T. }
  exists es. split; [exact E1|]. intros n. unfold game_start. rewrite (game_calls_outputs m p names _ evs r Hh Ha (or_introl Hr)), E2. reflexivity.
Qed.
(** Every sector. *)
Lemma game_describe : forall m p names data, bytes_ok data -> exists evs r es, holds cursor_end (parse_event_triplet m (game_type p)) (data, 0%nat) evs r /\
  stops cursor_end (parse_event_triplet m (game_type p)) r /\ Forall2 (delivered_as names) (filter supported_game (at_loops 0 evs)) es /\
  delivers (fun n => game_calls m p names n (game_start data)) es.
Proof.
  intros m p names data Hd. pose proof (start_aligned data Hd) as Ha.
  destruct (holds_total cursor_end cursor_size (parse_event_triplet m (game_type p)) aligned) with (c := (data, 0%nat)) as (evs & r & H1 & H2); auto.
  - apply triplet_good; [apply game_wf|apply game_no|apply game_min].
  - intros. apply triplet_np; [apply game_wf|apply game_no|assumption].
  - destruct (holds_typed_bits m _ (game_wf p) (game_no p) (game_min p) _ _ _ H1 Ha) as [Ht _].
    destruct (game_outputs p names (at_loops 0 evs)) as (es & E1 & E2).
    { apply (at_loops_typed _ (fun x => btyped (game_type p) (snd x) = true)). eapply Forall_impl; [|exact Ht]. intros [d [u v]] (_ & _ & T). exact T. }
    exists evs, r, es. split; [exact H1|]. split; [exact H2|]. split; [exact E1|]. intros n.
    unfold game_start. rewrite (game_calls_outputs m p names _ evs r H1 Ha H2), E2. reflexivity.
Qed.
(** Types made of integers without bias have no deviations. *)
Fixpoint plain_ints (t : bty) : bool :=
  match t with
  | BInt o n => o =? 0
  | BChoice _ l => forallb (fun x => plain_ints (snd x)) l
  | BStruct fs => forallb (fun x => plain_ints (snd x)) fs
  | _ => false
  end.
Lemma quirk0 : forall m t, plain_ints t = true -> forall v, quirk_free m t v = true.
Proof.
  intros m. induction t using bty_ind'; intros Hp w; cbn [plain_ints] in Hp; try discriminate.
  - apply Z.eqb_eq in Hp as ->. destruct w; try reflexivity. cbn [quirk_free]. destruct m; [|reflexivity]. apply in_i64_true. rewrite Z.add_0_l. unfold as_i64, two63, two64. dlia.
  - destruct w; try reflexivity. cbn [quirk_free]. rewrite forallb_forall in *. rewrite Forall_forall in H. intros x Hx. rewrite (H x Hx (Hp x Hx)). apply orb_true_r.
  - destruct w as [| | | | | | | |vs]; try reflexivity. change (quirk_free_fields m l vs = true). revert vs. induction H as [|[s t] l Ht _ IH]; intros [|[s' v'] vs]; cbn [quirk_free_fields]; try reflexivity.
    cbn [forallb snd] in Hp. apply andb_true_iff in Hp as [P1 P2]. cbn [snd] in Ht. rewrite (Ht P1). cbn [andb]. exact (IH P2 vs).
Qed.
Lemma quirk_free_sector : forall m t evs bits, user_sector blizzard t evs bits -> Forall (fun ev => quirk_free m t (snd (snd ev)) = true) evs -> user_sector (crate m) t evs bits.
Proof.
  intros m t evs bits Hu. induction Hu as [|d s u v evs l1 l2 l3 pad bits B1 B2 B3 Hp Hu IH]; intros Hq; [constructor|].
  inversion Hq as [|? ? Q1 Q2]; subst. econstructor; [eapply blizzard_crate; [exact B1|]|eapply blizzard_crate; [exact B2|]|eapply blizzard_crate; [exact B3|exact Q1]|exact Hp|exact (IH Q2)].
  - apply (quirk0 m bp_SVarUint32 eq_refl). 
  - apply (quirk0 m bp_ReplaySGameUserId eq_refl).
Qed.

(** ** Batch readers of game and message events *)
Lemma user_batch : forall (E : Type) m t (conv : Z * val -> outcome E) evs data, wf_bty t = true -> no_overflow t = true -> (2 <= min_bits t)%nat -> (forall x, conv x <> Panic) ->
  bytes_ok data -> user_sector (crate m) t evs (stream (data, 0%nat)) -> evs <> [] ->
  read_batch cursor_end cursor_size (parse_event_triplet m t) conv (data, 0%nat) = Ok (converted conv evs).
Proof.
  intros E m t conv evs data H1 H2 H3 Hnp Hd Hu Hn. pose proof (start_aligned data Hd) as Ha.
  destruct (sector_holds_bits m t evs _ H1 Hu _ Ha eq_refl) as (r & Hh & Hr).
  apply (batch_converted cursor_end cursor_size (parse_event_triplet m t) conv aligned) with (r := r); auto.
  - now apply triplet_good.
  - inversion Hh; subst; [contradiction|assumption].
Qed.

(** ** Loops fit an i64 *)
Lemma at_loops_bound : forall X (evs : list (Z * X)) l, Forall (fun ev => 0 <= fst ev < two32) evs ->
  Forall (fun ev => l <= fst ev <= l + Z.of_nat (length evs) * (two32 - 1)) (at_loops l evs).
Proof.
  intros X evs. induction evs as [|[d x] evs IH]; intros l Hf; cbn [at_loops]; [constructor|]. inversion Hf as [|? ? Hd Hf']; subst. cbn [fst] in Hd.
  rewrite Nat2Z.inj_succ || (cbn [length]; rewrite Nat2Z.inj_succ). constructor.
  - cbn [fst]. unfold two32 in *. nia.
  - eapply Forall_impl; [|exact (IH (l + d) Hf')]. intros [z y] Hz. cbn [fst] in *. unfold two32 in *. nia.
Qed.
Lemma loops_fit : forall X (evs : list (Z * X)) n, Forall (fun ev => 0 <= fst ev < two32) evs -> (2 * length evs <= n)%nat -> Z.of_nat n < two32 ->
  Forall (fun ev => 0 <= fst ev < two63) (at_loops 0 evs).
Proof.
  intros X evs n Hf Hn Hb. eapply Forall_impl; [|exact (at_loops_bound X evs 0 Hf)]. intros [z x] Hz. cbn [fst] in *.
  unfold two32, two63 in *. assert (Z.of_nat (length evs) <= 2147483647) by lia. nia.
Qed.

(** ** Chat messages *)
Definition chat_value (c : chat_message) : val :=
  VChoice "EChat" (VStruct [("m_recipient", VEnum (ch_recipient c)); ("m_string", v_str (ch_text c))]).
Definition message_result (v : val) : Prop :=
  if String.eqb (variant v) "EChat" then
    (exists c, message_from v = Ok c /\ chat_value c = v) \/
    (exists r l, v = VChoice "EChat" (VStruct [("m_recipient", VEnum r); ("m_string", VBytes l)]) /\ from_utf8 l = Err EUtf8 /\ message_from v = Err EUtf8)
  else message_from v = Err EUnsupported.
Lemma message_from_typed : forall p v, btyped (message_type p) v = true -> message_result v.
Proof.
  intros p v Hv. assert (E : message_type p = bp_GameEMessageId) by (destruct p; reflexivity). rewrite E in Hv. clear E.
  destruct (bt_choice _ _ _ Hv) as (z & s & t & w & -> & Hin & Hw). clear Hv. unfold message_result. cbn [variant].
  cbn [In] in Hin. destruct Hin as [E|[E|[E|[E|[E|[]]]]]]; injection E as <- <- <-; try reflexivity.
  change (String.eqb "EChat" "EChat") with true. cbv iota. binv.
  assert (Hm : message_from (VChoice "EChat" (VStruct [("m_recipient", VEnum s); ("m_string", VBytes l)])) = do x <- from_utf8 l; Ok (mk_chat s x)) by reflexivity.
  rewrite Hm. destruct (from_utf8_cases l) as [(x & Ex)|Ex]; rewrite Ex; cbn [obind].
  - left. eexists. split; [reflexivity|]. unfold chat_value. cbn [ch_recipient ch_text]. unfold v_str. rewrite (from_utf8_bytes l x) by assumption. reflexivity.
  - right. exists s, l. auto.
Qed.

(** ** Statements used in PropsIterators.v *)
Lemma next_np : forall (C X E : Type) at_end size (parse : C -> outcome (C * (Z * X))) (convert : X -> outcome E) (good : C -> Prop),
  (forall c c' d x, good c -> parse c = Ok (c', (d, x)) -> good c' /\ (size c' < size c)%nat) -> (forall c, parse c <> Err EUnsupported) ->
  (forall c, good c -> parse c <> Panic) -> (forall x, convert x <> Panic) -> forall n c l, (size c <= n)%nat -> good c -> get_next_event at_end size parse convert (c, l) <> Panic.
Proof.
  intros C X E at_end size parse convert good Hg Hu Hp Hc. induction n as [|n IH]; intros c l Hn Hgc Hr; rewrite (next_unfold at_end size parse convert good Hg Hu) in Hr by assumption;
  destruct (at_end c); try discriminate; destruct (parse c) as [[c' [d x]]|e'|] eqn:Ep; try discriminate; try (exact (Hp c Hgc Ep)); destruct (Hg _ _ _ _ Hgc Ep) as [Hg' Hs]; [lia|].
  destruct (convert x) as [e'|[]|] eqn:Ex; try discriminate; [|exact (Hc x Ex)]. eapply IH; [|exact Hg'|exact Hr]. lia.
Qed.
Lemma tracker_next_returns : forall m p l loop, bytes_ok l -> m = Wrapping \/ no_run 9 l ->
  exists r s, tracker_next m p (l, loop) = Ok (r, s) /\ bytes_ok (fst s) /\ (length (fst s) <= length l)%nat /\ (r <> None -> (length (fst s) < length l)%nat).
Proof.
  intros m p l loop Hb Hm. assert (Hl : readable m l) by (split; assumption). unfold tracker_next.
  assert (Hg : forall c c' d x, readable m c -> parse_event_pair m p c = Ok (c', (d, x)) -> readable m c' /\ (length c' < length c)%nat) by (intros; eapply pair_readable; eassumption).
  destruct (get_next_event _ _ _ _ _) as [[r s]|e|] eqn:E.
  - exists r, s. split; [reflexivity|]. destruct (next_progress bytes_end (@length Z) _ tracker_from (readable m) Hg (pair_nu m p) _ _ _ _ Hl E) as ([A _] & B). split; [exact A|exact B].
  - destruct (next_returns bytes_end (@length Z) _ tracker_from (readable m) Hg (pair_nu m p) l loop Hl e E).
  - destruct (next_np _ _ _ bytes_end (@length Z) _ tracker_from (readable m) Hg (pair_nu m p) (pair_np m p) tracker_from_np (length l) l loop ltac:(lia) Hl E).
Qed.
Lemma game_next_returns : forall m p names c l, aligned c ->
  exists r s, game_next m p names (c, l) = Ok (r, s) /\ cursor_ok (fst s) /\ snd (fst s) = 0%nat /\
    (cursor_size (fst s) <= cursor_size c)%nat /\ (r <> None -> (cursor_size (fst s) < cursor_size c)%nat).
Proof.
  intros m p names c l Hc. unfold game_next. pose proof (triplet_good m _ (game_wf p) (game_no p) (game_min p)) as Hg.
  destruct (get_next_event _ _ _ _ _) as [[r s]|e|] eqn:E.
  - exists r, s. split; [reflexivity|]. destruct (next_progress cursor_end cursor_size _ (game_convert names) aligned Hg (triplet_nu m _) _ _ _ _ Hc E) as ([A B] & D). auto.
  - destruct (next_returns cursor_end cursor_size _ (game_convert names) aligned Hg (triplet_nu m _) c l Hc e E).
  - destruct (next_np _ _ _ cursor_end cursor_size _ (game_convert names) aligned Hg (triplet_nu m _) (triplet_np m _ (game_wf p) (game_no p)) (game_convert_np names) (cursor_size c) c l ltac:(lia) Hc E).
Qed.
Lemma tracker_answers : forall m p sector, bytes_ok sector -> m = Wrapping \/ no_run 9 sector -> exists evs rest,
  holds bytes_end (parse_event_pair m p) sector evs rest /\
  (rest = [] \/ exists e, parse_event_pair m p rest = Err e) /\
  exists answers, Forall2 (fun ev a => (exists e, tracker_from (snd ev) = Ok e /\ a = Some (fst ev, e)) \/ (tracker_from (snd ev) = Err EUtf8 /\ a = None)) (at_loops 0 evs) answers /\
    forall n, tracker_calls m p n (tracker_start sector) = Ok (firstn n (answers ++ repeat None n)).
Proof.
  intros m p sector Hb Hm. destruct (tracker_describe m p sector (conj Hb Hm)) as (evs & r & H1 & H2 & H3). exists evs, r. split; [exact H1|]. split.
  { destruct H2 as [H2|H2]; [left|right; exact H2]. destruct r; [reflexivity|discriminate]. }
  exists (outputs tracker_from (at_loops 0 evs)). split; [|exact H3].
  destruct (holds_typed _ _ _ _ _ H1 Hb) as [Ht _].
  assert (Ht' : Forall (fun ev => vtyped ba_ReplayTrackerEEventId (snd ev) = true) (at_loops 0 evs)).
  { apply (at_loops_typed _ (fun v => vtyped ba_ReplayTrackerEEventId v = true)). eapply Forall_impl; [|exact Ht]. intros ev [_ T]. exact T. }
  clear -Ht'. induction Ht' as [|[l v] tl Hv _ IH]; [constructor|]. unfold outputs in *. cbn [flat_map fst snd] in *.
  destruct (ill_named v Hv) as [[e E]|E]; rewrite E; cbn [app]; constructor; try assumption; cbn [fst snd]; [left; eauto|right; auto].
Qed.
Lemma Forall2_maps : forall A B C (R : A -> B -> Prop) (f : A -> C) (g : B -> C) l l', (forall a b, R a b -> f a = g b) -> Forall2 R l l' -> map f l = map g l'.
Proof. intros A B C R f g l l' Hr Hf. induction Hf; cbn [map]; [reflexivity|]. f_equal; auto. Qed.
Lemma tracker_agree : forall m p evs sector, bytes_ok sector -> tracker_sector evs sector -> evs <> [] -> Forall (fun ev => well_named (snd ev)) evs ->
  exists batch items, read_tracker_events m p sector = Ok batch /\
    (forall n, tracker_calls m p n (tracker_start sector) = Ok (firstn n (map Some items ++ repeat None n))) /\
    map snd batch = map snd items /\ map fst batch = map fst evs /\ map fst items = map fst (at_loops 0 evs).
Proof.
  intros m p evs sector Hb Hs Hn Hw. destruct (tracker_delivers m p evs sector Hb Hs Hw) as (es & F & D).
  exists (converted tracker_from evs), es. split; [now apply batch_sector|]. split; [exact D|].
  destruct (Forall2_converted _ _ _ _ _ F) as [Ec _]. split; [rewrite <- Ec; symmetry; apply converted_snd|].
  split; [|symmetry; eapply Forall2_maps; [|exact F]; intros a b [H _]; exact H].
  destruct (holds_typed _ _ _ _ _ (sector_holds m p _ _ Hs) Hb) as [Ht _]. clear -Ht Hw.
  induction evs as [|[d v] evs IH]; [reflexivity|]. inversion Hw as [|? ? W1 W2]; inversion Ht as [|? ? T1 T2]; subst. unfold converted in *. cbn [flat_map fst snd] in *.
  destruct T1 as [_ T1]. destruct (well_named_converts v T1 W1) as [e ->]. cbn [app map fst]. f_equal. exact (IH W2 T2).
Qed.
Lemma tracker_loops_fit : forall m p sector evs rest, bytes_ok sector -> Z.of_nat (length sector) < two32 ->
  holds bytes_end (parse_event_pair m p) sector evs rest -> Forall (fun ev => 0 <= fst ev < two63) (at_loops 0 evs).
Proof.
  intros m p sector evs rest Hb Hl Hh. destruct (holds_typed _ _ _ _ _ Hh Hb) as [Ht Hn]. apply loops_fit with (n := length sector); [|lia|exact Hl].
  eapply Forall_impl; [|exact Ht]. intros ev [D _]. exact D.
Qed.
Lemma game_loops_fit : forall m p sector evs rest, bytes_ok sector -> Z.of_nat (length sector) < two32 ->
  holds cursor_end (parse_event_triplet m (game_type p)) (sector, 0%nat) evs rest -> Forall (fun ev => 0 <= fst ev < two63) (at_loops 0 evs).
Proof.
  intros m p sector evs rest Hb Hl Hh. destruct (holds_typed_bits _ _ (game_wf p) (game_no p) (game_min p) _ _ _ Hh (start_aligned _ Hb)) as [Ht Hn].
  apply loops_fit with (n := length sector); [|unfold cursor_size in Hn; cbn [fst] in Hn; lia|exact Hl].
  eapply Forall_impl; [|exact Ht]. intros ev [D _]. exact D.
Qed.
Lemma game_plain : forall p evs, Forall (fun ev => btyped (game_type p) (snd (snd ev)) = true) evs ->
  Forall2 (fun ev e => fst e = fst ev /\ fst (snd e) = fst (snd ev) /\ game_from (snd (snd ev)) = Ok (snd (snd e))) (filter supported_game evs) (converted plain_convert evs).
Proof.
  intros p evs Hf. induction Hf as [|[l [u v]] evs Ht _ IH]; [constructor|].
  cbn [filter]. unfold converted in *. cbn [flat_map fst snd] in *. unfold supported_game at 1. cbn [snd]. unfold plain_convert at 1. cbn [fst snd].
  pose proof (game_from_typed p v Ht) as Hr. unfold game_result in Hr. destruct (existsb _ _).
  - destruct Hr as (e & E & _). rewrite E. cbn [obind app]. constructor; [|exact IH]. cbn [fst snd]. auto.
  - rewrite Hr. exact IH.
Qed.
Lemma user_sector_typed : forall m t evs data, wf_bty t = true -> no_overflow t = true -> (2 <= min_bits t)%nat -> bytes_ok data -> user_sector (crate m) t evs (stream (data, 0%nat)) ->
  Forall (fun ev => btyped t (snd (snd ev)) = true) evs.
Proof.
  intros m t evs data H1 H2 H3 Hd Hu. pose proof (start_aligned data Hd) as Ha. destruct (sector_holds_bits m t evs _ H1 Hu _ Ha eq_refl) as (r & Hh & _).
  destruct (holds_typed_bits m t H1 H2 H3 _ _ _ Hh Ha) as [Ht _]. eapply Forall_impl; [|exact Ht]. intros ev (_ & _ & T). exact T.
Qed.
Lemma game_batch : forall m p evs data, bytes_ok data -> user_sector (crate m) (game_type p) evs (stream (data, 0%nat)) -> evs <> [] ->
  exists batch, read_game_events m p data = Ok batch /\
   Forall2 (fun ev e => fst e = fst ev /\ fst (snd e) = fst (snd ev) /\ game_from (snd (snd ev)) = Ok (snd (snd e))) (filter supported_game evs) batch.
Proof.
  intros m p evs data Hd Hu Hn. exists (converted plain_convert evs). split.
  - apply user_batch; auto using game_wf, game_no, game_min, plain_convert_np.
  - apply (game_plain p). eapply user_sector_typed; eauto using game_wf, game_no, game_min.
Qed.
Lemma filter_all : forall A (f : A -> bool) l, Forall (fun x => f x = true) l -> filter f l = l.
Proof. intros A f l Hf. induction Hf as [|x l Hx _ IH]; [reflexivity|]. cbn [filter]. rewrite Hx, IH. reflexivity. Qed.
Lemma at_loops_fst : forall X Y (a : list (Z * X)) (b : list (Z * Y)) l, map fst a = map fst b -> map fst (at_loops l a) = map fst (at_loops l b).
Proof.
  intros X Y a. induction a as [|[d x] a IH]; intros [|[d' y] b] l E; try discriminate; [reflexivity|]. cbn [map fst] in E. injection E as <- E.
  cbn [at_loops map fst]. f_equal. now apply IH.
Qed.
Lemma game_agree : forall m p names evs data, bytes_ok data -> user_sector (crate m) (game_type p) evs (stream (data, 0%nat)) -> evs <> [] ->
  Forall (fun ev => supported_game ev = true) evs ->
  exists batch items, read_game_events m p data = Ok batch /\ (forall n, game_calls m p names n (game_start data) = Ok (firstn n (map Some items ++ repeat None n))) /\
    map fst items = map fst (at_loops 0 batch) /\ map snd batch = map (fun it => (gi_user (snd it), gi_event (snd it))) items.
Proof.
  intros m p names evs data Hd Hu Hn Hs. destruct (game_batch m p evs data Hd Hu Hn) as (batch & Eb & Fb). destruct (game_delivers m p names evs data Hd Hu) as (items & Fi & D).
  exists batch, items. split; [exact Eb|]. split; [exact D|]. rewrite (filter_all _ _ evs Hs) in Fb.
  rewrite (filter_all _ _ (at_loops 0 evs)) in Fi.
  2: { apply (at_loops_typed _ (fun x => existsb (String.eqb (variant (snd x))) supported_game_events = true)). exact Hs. }
  assert (E1 : map fst evs = map fst batch) by (eapply Forall2_maps; [|exact Fb]; intros a b [H _]; symmetry; exact H).
  split.
  - transitivity (map fst (at_loops 0 evs)); [symmetry; eapply Forall2_maps; [|exact Fi]; intros a b [H _]; symmetry; exact H|]. now apply at_loops_fst.
  - clear -Fb Fi. revert batch items Fb Fi. generalize 0 as l. induction evs as [|[d [u v]] evs IH]; intros l batch items Fb Fi; inversion Fb as [|? [d1 [u1 g1]] ? batch' R1 F1]; subst; inversion Fi as [|? [d2 it] ? items' R2 F2]; subst; [reflexivity|].
    cbn [map fst snd]. destruct R1 as (_ & A1 & A2). destruct R2 as (_ & B1 & _ & B2). cbn [fst snd] in *. subst. f_equal; [|exact (IH _ _ _ F1 F2)].
    congruence.
Qed.
(** A chat message in UTF-8. *)
Definition readable_chat (v : val) : bool :=
  match v with VChoice s (VStruct [(_, VEnum _); (_, VBytes l)]) => (String.eqb s "EChat" && utf8_ok l)%bool | _ => false end.
Lemma messages_read : forall m p evs data, bytes_ok data -> user_sector (crate m) (message_type p) evs (stream (data, 0%nat)) -> evs <> [] ->
  exists batch, read_message_events m p data = Ok batch /\
    Forall2 (fun ev e => fst e = fst ev /\ fst (snd e) = fst (snd ev) /\ chat_value (snd (snd e)) = snd (snd ev)) (filter (fun ev => readable_chat (snd (snd ev))) evs) batch.
Proof.
  intros m p evs data Hd Hu Hn. exists (converted message_convert evs). split.
  - apply user_batch; auto using msg_wf, msg_no, msg_min, message_convert_np.
  - pose proof (user_sector_typed m _ evs data (msg_wf p) (msg_no p) (msg_min p) Hd Hu) as Ht. clear -Ht.
    induction Ht as [|[l [u v]] evs Ht _ IH]; [constructor|]. cbn [filter fst snd] in *. unfold converted in *. cbn [flat_map fst snd] in *. unfold message_convert at 1. cbn [fst snd].
    pose proof (message_from_typed p v Ht) as Hr. unfold message_result in Hr. destruct (String.eqb_spec (variant v) "EChat") as [Ev|Ev].
    + destruct Hr as [(c & E & <-)|(r & b & -> & Eu & E)]; rewrite E; cbn [obind app].
      * change (readable_chat (chat_value c)) with (utf8_ok (bytes_of_str (ch_text c))). destruct (utf8_ok (bytes_of_str (ch_text c))) eqn:U.
        -- constructor; [cbn [fst snd]; auto|exact IH].
        -- exfalso. assert (Hm : message_from (chat_value c) = do x <- from_utf8 (bytes_of_str (ch_text c)); Ok (mk_chat (ch_recipient c) x)) by reflexivity.
           rewrite Hm in E. unfold from_utf8 in E. rewrite U in E. discriminate.
      * cbn [readable_chat]. unfold from_utf8 in Eu. destruct (utf8_ok b) eqn:U; [discriminate|]. rewrite andb_false_r. exact IH.
    + rewrite Hr. cbn [obind app]. replace (readable_chat v) with false; [exact IH|]. symmetry.
      destruct v as [| | | | | | |s w|]; try reflexivity. cbn [variant] in Ev. destruct w as [| | | | | | | |[|[a x] [|[b y] [|]]]]; try reflexivity; destruct x; try reflexivity; destruct y; try reflexivity.
      cbn [readable_chat]. destruct (String.eqb_spec s "EChat"); [contradiction|reflexivity].
Qed.
Lemma user_progress : forall m p t c c' delta u v, t = game_type p \/ t = message_type p ->
  cursor_ok c -> snd c = 0%nat -> parse_event_triplet m t c = Ok (c', (delta, (u, v))) ->
  cursor_ok c' /\ snd c' = 0%nat /\ suffix_of (fst c') (fst c) /\ (length (fst c') + 2 <= length (fst c))%nat.
Proof.
  intros m p t c c' delta u v Ht Hc Ha E.
  assert (Hr : aligned c' /\ suffix_of (fst c') (fst c) /\ (length (fst c') + 2 <= length (fst c))%nat /\ 0 <= delta < two32 /\ 0 <= u < 32 /\ btyped t v = true)
    by (destruct Ht; subst t; [eapply triplet_step; eauto using game_wf, game_no, game_min; split; assumption|eapply triplet_step; eauto using msg_wf, msg_no, msg_min; split; assumption]).
  destruct Hr as ([A B] & S & L & _). auto.
Qed.
