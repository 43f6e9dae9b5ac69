(** C145, continued: the viewer never stops unless an event of the replay stops it *)
From Coq Require Import Ascii.
From Verif Require Import Base Types Versioned VersionedSpec Dispatch Events Tags Maps Lobby Balance
  Convert ConvertSpec Stream StreamFacts Iterators StreamSpec IteratorFacts IteratorStreams State StateSpec StateFacts StateSteps StateProofs Merge MergeSpec MergeFacts MergeStreams MergeProofs Viewer ViewerSpec ViewerFacts RowSpec Stops ExportStops.
#[local] Open Scope Z_scope.
#[local] Open Scope list_scope.

(** No event the iterator still holds stops the program. *)
Definition quiet (mc : machine) (p : proto) (names : Z -> option string) (K : Z -> Prop) (it : merged) : Prop :=
  good it /\ wf (mg_state it) /\ (forall u, users_of (mg_state it) u <-> K u) /\
  exists l, scheduled mc p names it l /\ ~ Exists (stops (mc_build mc) K) (present l).
Section Quiet.
  Variable mc : machine.
  Variable p : proto.
  Variable names : Z -> option string.
  Variable K : Z -> Prop.
  Lemma quiet_next : forall it, quiet mc p names K it -> exists r it', merge_next mc p it = Ok (r, it') /\ quiet mc p names K it'.
  Proof.
    intros it (Hg & Hw & Hk & l & Hs & Hn). destruct (filtered_runs mc p names K l it Hg Hw Hs Hk Hn) as (r & it' & l' & E & Hg' & Hw' & Hs' & Hk' & Hn').
    exists r, it'. split; [exact E|]. split; [exact Hg'|]. split; [exact Hw'|]. split; [exact Hk'|]. exists l'. auto.
  Qed.
  Lemma quiet_skip : forall n i it, (left_over it + pending i <= n)%nat -> quiet mc p names K it -> exists r it', skip_zero mc p n i it = Ok (r, it') /\ quiet mc p names K it'.
  Proof.
    induction n as [|n IH]; intros i it Hn Hq; (destruct i as [x|]; cbn [pending skip_zero] in *; [|eauto]); [lia|].
    destruct (item_loop x =? 0); [|eauto]. destruct (quiet_next it Hq) as (r & it' & E & Hq'). rewrite E. cbn [obind].
    pose proof (next_left mc p _ _ _ (proj1 Hq) E). apply IH; [lia|exact Hq'].
  Qed.
  Lemma quiet_app : forall it players size, quiet mc p names K it -> exists a, new_app mc p it players size = Ok a /\ quiet mc p names K (ap_iter a).
  Proof.
    intros it players size Hq. unfold new_app. destruct (quiet_next it Hq) as (r & it' & E & Hq'). rewrite E. cbn [obind].
    pose proof (next_left mc p _ _ _ (proj1 Hq) E). destruct (quiet_skip (left_over it) r it' ltac:(lia) Hq') as (r2 & it2 & E2 & Hq2). rewrite E2. cbn [obind]. eexists. split; [reflexivity|exact Hq2].
  Qed.
  Lemma quiet_key : forall k kind a, quiet mc p names K (ap_iter a) -> exists a', handle_key_press mc p k kind a = Ok a' /\ quiet mc p names K (ap_iter a').
  Proof.
    intros k kind a Hq.
    assert (Hf : exists a', forward mc p a = Ok a' /\ quiet mc p names K (ap_iter a')).
    { unfold forward. destruct (quiet_next _ Hq) as (r & it' & -> & Hq'). cbn [obind]. eexists. split; [reflexivity|exact Hq']. }
    assert (Hs : forall a', ap_iter a' = ap_iter a -> exists b, Ok a' = Ok b /\ quiet mc p names K (ap_iter b)).
    { intros a' E. exists a'. split; [reflexivity|]. rewrite E. exact Hq. }
    unfold handle_key_press. destruct kind; try (apply Hs; reflexivity).
    repeat match goal with |- context [match ?x with _ => _ end] => destruct x end; first [exact Hf|apply Hs; reflexivity].
  Qed.
  Lemma quiet_turn : forall t a, quiet mc p names K (ap_iter a) -> exists a', take_turn mc p t a = Ok a' /\ quiet mc p names K (ap_iter a').
  Proof.
    intros [i tick] a Hq. unfold take_turn. cbn [fst snd].
    assert (Hm : exists a', (match i with
      | Some (IKey k kind) => handle_key_press mc p k kind a
      | Some (IMouse m) => Ok (handle_mouse_event m a)
      | _ => Ok a end) = Ok a' /\ quiet mc p names K (ap_iter a')).
    { destruct i as [[]|]; try (eexists; split; [reflexivity|]); try exact Hq; [now apply quiet_key|]. destruct m; exact Hq. }
    destruct Hm as (a' & -> & Hq'). cbn [obind]. eexists. split; [reflexivity|]. destruct tick; exact Hq'.
  Qed.
  Lemma quiet_view : forall ts a, quiet mc p names K (ap_iter a) -> exists frames z, view mc p ts a = Ok (frames, z).
  Proof.
    induction ts as [|t ts IH]; intros a Hq; cbn [view]; destruct (ap_exit a); eauto.
    destruct (quiet_turn t a Hq) as (a' & -> & Hq'). cbn [obind]. destruct (IH a' Hq') as (fs & z & ->). cbn [obind]. eauto.
  Qed.
End Quiet.
Lemma viewer_quiet : forall mc p init d b st t g, starts init d b st -> bytes_ok t -> bytes_ok g -> mc_build mc = Wrapping \/ no_run 9 t -> exists ta gs,
  (forall n, tracker_calls (mc_build mc) p n (tracker_start t) = Ok (firstn n (ta ++ repeat None n))) /\
  (forall n, game_calls (mc_build mc) p (player_names st) n (game_start g) = Ok (firstn n (map Some gs ++ repeat None n))) /\
  (~ Exists (stops (mc_build mc) (users_of st)) (map tracker_item (present ta) ++ map game_item_event gs) ->
   forall f players size ts, exists a frames z, new_app mc p (merge_start st t g f) players size = Ok a /\ view mc p ts a = Ok (frames, z)).
Proof.
  intros mc p init d b st t g Hst Ht Hg Hb. destruct (tracker_answers (mc_build mc) p t Ht Hb) as (evs & rest & _ & _ & ta & _ & Dt).
  destruct (game_describe (mc_build mc) p (player_names st) g Hg) as (gevs & r & gs & _ & _ & _ & Dg). exists ta, gs. refine (conj Dt (conj Dg _)).
  intros Hn f players size ts.
  assert (Hq : quiet mc p (player_names st) (users_of st) (merge_start st t g f)).
  { split; [now apply start_good|]. split; [apply (starts_wf _ _ _ _ Hst)|]. split; [reflexivity|]. exists (schedule ta gs). split; [now apply start_scheduled|].
    rewrite (interleaving_exists _ _ _ _ _ (schedule_interleaving ta gs)). rewrite Exists_app in Hn. exact Hn. }
  destruct (quiet_app _ _ _ _ _ players size Hq) as (a & Ea & Hqa). destruct (quiet_view _ _ _ _ ts a Hqa) as (fs & z & Ev). exists a, fs, z. auto.
Qed.
Lemma viewer_readable : forall mc p init d b st tevs t gevs g f players size ts, starts init d b st -> sectors_of mc p tevs t gevs g -> ~ stopped_by mc st tevs gevs ->
  exists a frames z, new_app mc p (merge_start st t g f) players size = Ok a /\ view mc p ts a = Ok (frames, z).
Proof.
  intros mc p init d b st tevs t gevs g f players size ts Hst Hs Hn.
  destruct (sectors_scheduled mc p tevs t gevs g st f Hs) as (es & gs & evs & F1 & F2 & I & R & S).
  assert (Hq : quiet mc p (player_names st) (users_of st) (merge_start st t g f)).
  { split; [apply start_good; apply Hs|]. split; [apply (starts_wf _ _ _ _ Hst)|]. split; [reflexivity|]. exists (map Some evs). split; [exact S|].
    rewrite present_map, (interleaving_exists _ _ _ _ _ I). intros X. apply Hn. exists es, gs. split; [exact F1|]. split; [exact F2|]. apply Exists_app. exact X. }
  destruct (quiet_app _ _ _ _ _ players size Hq) as (a & Ea & Hqa). destruct (quiet_view _ _ _ _ ts a Hqa) as (fs & z & Ev). exists a, fs, z. auto.
Qed.
