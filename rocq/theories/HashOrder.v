(** * The order of the users in memory

    The users of a replay are kept in a hash map, which iterates in an order that
    changes from run to run.  Here two runs over the same events are compared. *)
From Verif Require Import Base F32 Tags Events Maps Balance Lobby Convert State StateFacts StateSpec StateSteps StateProofs StateMore.
From Coq Require Import Permutation.
#[local] Open Scope Z_scope.
#[local] Open Scope list_scope.

(** The player setups of a history. *)
Definition setups_of (evs : list sc2_event) : list player_setup_event :=
  flat_map (fun e => match e with ETracker _ (TPlayerSetup x) => [x] | _ => [] end) evs.
(** No player id is announced for two users. *)
Definition one_user_each (l : list player_setup_event) : Prop :=
  forall x y u v, In x l -> In y l -> se_player_id x = se_player_id y -> se_user_id x = Some u -> se_user_id y = Some v -> u = v.

(** [own] gives the user of each player id. *)
Definition owned (own : Z -> Z) (x : player_setup_event) : Prop := forall u, se_user_id x = Some u -> own (se_player_id x) = u.
Definition owner_of (l : list player_setup_event) (p : Z) : Z :=
  match find (fun x => (se_player_id x =? p) && match se_user_id x with Some _ => true | None => false end) l with
  | Some x => match se_user_id x with Some u => u | None => 0 end
  | None => 0
  end.
Lemma owner_owned : forall l, one_user_each l -> Forall (owned (owner_of l)) l.
Proof.
  intros l Hl. apply Forall_forall. intros x Hx u Hu. unfold owner_of.
  destruct (find _ l) as [y|] eqn:E.
  - apply find_some in E as [Hy Ey]. apply andb_true_iff in Ey as [Ep Eu]. apply Z.eqb_eq in Ep. destruct (se_user_id y) as [v|] eqn:Ev; [|discriminate].
    exact (Hl y x v u Hy Hx Ep Ev Hu).
  - exfalso. apply (find_none _ _ E) in Hx. rewrite Z.eqb_refl, Hu in Hx. discriminate.
Qed.

(** ** Two states that differ in the order of the users only *)
Record alike (own : Z -> Z) (st st' : state) : Prop := {
  al_units : st_units st' = st_units st; al_balance : st_balance st' = st_balance st;
  al_users : Permutation (st_users st) (st_users st'); al_wf : wf st;
  al_own : forall u us p, In (u, us) (st_users st) -> ld_setup_player (us_lobby us) = Some p -> own p = u }.

Lemma perm_mget : forall A (l l' : list (Z * A)), NoDup (map fst l) -> Permutation l l' -> forall k, mget k l' = mget k l.
Proof.
  intros A l l' Hd Hp k. assert (Hd' : NoDup (map fst l')) by (eapply Permutation_NoDup; [apply Permutation_map, Hp|exact Hd]).
  destruct (mget k l) as [a|] eqn:E.
  - apply In_mget; [exact Hd'|]. eapply Permutation_in; [exact Hp|apply mget_In, E].
  - destruct (mget k l') as [a|] eqn:E'; [|reflexivity]. apply mget_In in E'. apply (Permutation_in _ (Permutation_sym Hp)) in E'.
    apply In_mget in E'; [congruence|exact Hd].
Qed.
Lemma mset_In_iff : forall A l k (a : A) x, NoDup (map fst l) -> (In x (mset k a l) <-> x = (k, a) \/ (In x l /\ fst x <> k)).
Proof.
  intros A l k a [j b] Hd. pose proof (mset_NoDup A l k a Hd) as Hd'. cbn [fst]. split.
  - intros Hi. apply In_mget in Hi; [|exact Hd']. rewrite mget_mset in Hi. destruct (Z.eqb_spec k j) as [<-|Hn]; [left; congruence|].
    right. split; [apply mget_In, Hi|congruence].
  - intros [E|[Hi Hn]]; apply mget_In; rewrite mget_mset.
    + injection E as -> ->. rewrite Z.eqb_refl. reflexivity.
    + apply In_mget in Hi; [|exact Hd]. destruct (Z.eqb_spec k j); [congruence|exact Hi].
Qed.
Lemma keys_NoDup : forall A (l : list (Z * A)), NoDup (map fst l) -> NoDup l.
Proof. intros A l. apply NoDup_map_inv. Qed.
Lemma perm_mset : forall A (l l' : list (Z * A)) k a, NoDup (map fst l) -> Permutation l l' -> Permutation (mset k a l) (mset k a l').
Proof.
  intros A l l' k a Hd Hp. assert (Hd' : NoDup (map fst l')) by (eapply Permutation_NoDup; [apply Permutation_map, Hp|exact Hd]).
  apply NoDup_Permutation; [apply keys_NoDup, mset_NoDup, Hd|apply keys_NoDup, mset_NoDup, Hd'|].
  intros x. rewrite (mset_In_iff A l k a x Hd), (mset_In_iff A l' k a x Hd'). split; intros [E|[Hi Hn]]; auto; right; split; auto.
  - eapply Permutation_in; eauto.
  - eapply Permutation_in; [apply Permutation_sym, Hp|exact Hi].
Qed.

(** Related answers. *)
Definition agree {A B} (R : A -> A -> Prop) (x y : outcome (A * B)) : Prop :=
  match x, y with
  | Ok (s, b), Ok (s', b') => R s s' /\ b' = b
  | Err e, Err e' => e' = e
  | Panic, Panic => True
  | _, _ => False
  end.
Lemma agree_bind : forall A B A' B' (R : A -> A -> Prop) (R' : A' -> A' -> Prop) (x y : outcome (A * B)) (f g : A * B -> outcome (A' * B')),
  agree R x y -> (forall s s' b, R s s' -> agree R' (f (s, b)) (g (s', b))) -> agree R' (obind x f) (obind y g).
Proof.
  intros A B A' B' R R' [[s b]|e|] [[s' b']|e'|] f g Ha Hf; cbn in Ha; try contradiction; cbn [obind]; try exact Ha.
  destruct Ha as [Hr ->]. apply Hf, Hr.
Qed.

Section Alike.
  Variable own : Z -> Z.
  Notation alike := (alike own).

  Lemma al_get : forall st st', alike st st' -> forall k, mget k (st_users st') = mget k (st_users st).
  Proof. intros st st' H k. apply perm_mget; [apply (al_wf _ _ _ H)|apply (al_users _ _ _ H)]. Qed.
  Lemma al_name : forall st st', alike st st' -> forall p, player_name_of (st_users st') p = player_name_of (st_users st) p.
  Proof.
    intros st st' H p. symmetry. apply names_order; [apply (al_wf _ _ _ H)| |apply (al_users _ _ _ H)].
    intros u v us vs Hu Hv Eu Ev. rewrite <- (al_own _ _ _ H _ _ _ Hu Eu). apply (al_own _ _ _ H _ _ _ Hv Ev).
  Qed.
  Lemma al_with_units : forall st st' u, alike st st' -> alike (with_units st u) (with_units st' u).
  Proof. intros st st' u [A B C D E]. constructor; cbn; auto. Qed.
  Lemma al_active : forall st st' uid, alike st st' -> active_units st' uid = active_units st uid.
  Proof. intros st st' uid H. unfold active_units. rewrite (al_get _ _ H). reflexivity. Qed.
  (** One user replaced. *)
  Lemma al_set : forall st st' uid us, alike st st' -> length (us_groups us) = 11%nat ->
    (forall p, ld_setup_player (us_lobby us) = Some p -> own p = uid) ->
    alike (with_users st (mset uid us (st_users st))) (with_users st' (mset uid us (st_users st'))).
  Proof.
    intros st st' uid us [A B C [D1 D2] E] Hl Ho. constructor; cbn [with_users st_units st_users st_balance]; auto.
    - apply perm_mset; assumption.
    - unfold wf. cbn [with_users st_users]. apply wf_mset; [split; assumption|exact Hl].
    - intros u us' p Hi Ep. apply mset_In in Hi as [Hi|Hi]; [injection Hi as -> ->; apply Ho, Ep|eapply E; eauto].
  Qed.
  Lemma al_kept : forall st st' uid us us', alike st st' -> mget uid (st_users st) = Some us -> us_lobby us' = us_lobby us ->
    length (us_groups us') = 11%nat -> alike (with_users st (mset uid us' (st_users st))) (with_users st' (mset uid us' (st_users st'))).
  Proof.
    intros st st' uid us us' H Hg El Hl. apply al_set; [exact H|exact Hl|]. intros p Ep. rewrite El in Ep.
    apply (al_own _ _ _ H uid us p); [apply mget_In, Hg|exact Ep].
  Qed.
  Lemma al_camera : forall st st' uid p, alike st st' -> alike (move_camera st uid p) (move_camera st' uid p).
  Proof.
    intros st st' uid p H. unfold move_camera. rewrite (al_get _ _ H). destruct (mget uid (st_users st)) as [us|] eqn:E; [|exact H].
    eapply al_kept; [exact H|exact E|reflexivity|]. exact (wf_get st uid us (al_wf _ _ _ H) E).
  Qed.
  Definition agree0 (x y : outcome state) : Prop :=
    match x, y with Ok s, Ok s' => alike s s' | Err e, Err e' => e' = e | Panic, Panic => True | _, _ => False end.
  Lemma agree0_bind : forall B (R' : state -> state -> Prop) (x y : outcome state) (f g : state -> outcome (state * B)),
    agree0 x y -> (forall s s', alike s s' -> agree R' (f s) (g s')) -> agree R' (obind x f) (obind y g).
  Proof.
    intros B R' [s|e|] [s'|e'|] f g Ha Hf; cbn in Ha; try contradiction; cbn [obind]; try exact Ha. apply Hf, Ha.
  Qed.
  Lemma al_groups : forall st st' uid f, alike st st' -> (forall gs gs', f gs = Ok gs' -> length gs' = length gs) ->
    agree0 (change_groups st uid f) (change_groups st' uid f).
  Proof.
    intros st st' uid f H Hf. unfold change_groups. rewrite (al_get _ _ H). destruct (mget uid (st_users st)) as [us|] eqn:E; [|exact H].
    destruct (f (us_groups us)) as [gs|e|] eqn:Ef; cbn [obind agree0]; [|reflexivity|exact Logic.I].
    eapply al_kept; [exact H|exact E|reflexivity|]. cbn [set_groups us_groups]. rewrite (Hf _ _ Ef). exact (wf_get st uid us (al_wf _ _ _ H) E).
  Qed.
  Lemma al_unmark : forall st st' gl uid, alike st st' -> agree alike (unmark_previously_selected_units st gl uid) (unmark_previously_selected_units st' gl uid).
  Proof.
    intros st st' gl uid H. unfold unmark_previously_selected_units. rewrite (al_active _ _ _ H), (al_units _ _ _ H).
    destruct (active_units st uid) as [tags|e|]; cbn [obind agree]; [|reflexivity|exact Logic.I].
    destruct (select_loop _ _ _ _ _) as [units ids]. cbn [agree]. split; [apply al_with_units, H|reflexivity].
  Qed.
  Lemma al_mark : forall st st' gl tags, alike st st' -> alike (fst (mark_selected_units st gl tags)) (fst (mark_selected_units st' gl tags)) /\
    snd (mark_selected_units st' gl tags) = snd (mark_selected_units st gl tags).
  Proof.
    intros st st' gl tags H. unfold mark_selected_units. rewrite (al_units _ _ _ H). destruct (select_loop _ _ _ _ _) as [units ids].
    cbn [fst snd]. split; [apply al_with_units, H|reflexivity].
  Qed.

  (** ** Game events *)
  Lemma al_game : forall mc st st' gl uid e, alike st st' -> agree alike (handle_game_event mc st gl uid e) (handle_game_event mc st' gl uid e).
  Proof.
    intros mc st st' gl uid e H. destruct e; cbn [handle_game_event]; try (split; [exact H|reflexivity]).
    - split; [apply al_camera, H|reflexivity].
    - unfold handle_cmd. rewrite (al_active _ _ _ H), (al_units _ _ _ H), (al_balance _ _ _ H).
      destruct (active_units st uid) as [tags|x|]; cbn [obind agree]; [|reflexivity|exact Logic.I].
      destruct (cmd_loop _ _ _ _ _ _) as [units [c l]]. split; [apply al_with_units, H|reflexivity].
    - unfold handle_selection_delta.
      apply (agree_bind _ _ _ _ alike).
      + destruct (sd_group e =? active_group); [|split; [exact H|reflexivity]].
        apply (agree_bind _ _ _ _ alike); [apply al_unmark, H|]. intros s s' b Hs.
        destruct (al_mark s s' gl (sd_tags e) Hs) as [M1 M2].
        destruct (mark_selected_units s gl (sd_tags e)) as [s1 l1], (mark_selected_units s' gl (sd_tags e)) as [s2 l2]. cbn [fst snd] in *. subst l2. split; [exact M1|reflexivity].
      + intros s s' b Hs. apply agree0_bind; [apply al_groups; [exact Hs|intros gs gs'; apply group_set_length]|]. intros s1 s1' Hs1. split; [exact Hs1|reflexivity].
    - rewrite !update_control_group_eq. apply (agree_bind _ _ _ _ alike); [apply al_unmark, H|]. intros s s' b Hs.
      apply agree0_bind; [apply al_groups; [exact Hs|apply update_groups_length]|]. intros s1 s1' Hs1.
      destruct (cg_update e); try (split; [exact Hs1|reflexivity]).
      rewrite (al_active _ _ _ Hs1). destruct (active_units s1 uid) as [tags|x|]; cbn [obind agree]; [|reflexivity|exact Logic.I].
      destruct (al_mark s1 s1' gl tags Hs1) as [M1 M2].
      destruct (mark_selected_units s1 gl tags) as [s2 l2], (mark_selected_units s1' gl tags) as [s3 l3]. cbn [fst snd] in *. subst l3. split; [exact M1|reflexivity].
    - split; [destruct (cu_target e); [apply al_camera, H|exact H]|reflexivity].
    - unfold handle_update_target_point. rewrite (al_active _ _ _ H), (al_units _ _ _ H).
      destruct (active_units st uid) as [tags|x|]; cbn [obind agree]; [|reflexivity|exact Logic.I].
      destruct (target_loop _ _ _) as [units l]. split; [apply al_with_units, H|reflexivity].
    - unfold handle_update_target_unit. rewrite (al_units _ _ _ H). destruct (match mget _ _ with Some _ => _ | None => _ end); [|split; [exact H|reflexivity]].
      rewrite (al_active _ _ _ H). destruct (active_units st uid) as [tags|x|]; cbn [obind agree]; [|reflexivity|exact Logic.I].
      destruct (target_loop _ _ _) as [units l]. split; [apply al_with_units, H|reflexivity].
  Qed.

  (** ** Tracker events *)
  Definition retained (z : Z) (x : Z * user_state) : Z * user_state :=
    (fst x, set_groups (snd x) (match groups_loop (remove_z z) (z_seq 11) (us_groups (snd x)) with Ok gs => gs | _ => [] end)).
  Lemma retain_map : forall z users, Forall (fun x : Z * user_state => length (us_groups (snd x)) = 11%nat) users ->
    map_out (retain_user z) users = Ok (map (retained z) users) /\
    Forall (fun x : Z * user_state => length (us_groups (snd x)) = 11%nat) (map (retained z) users).
  Proof.
    intros z. induction users as [|x users IH]; intros Hf; [split; [reflexivity|constructor]|]. inversion Hf as [|a b Hx Hy]; subst.
    destruct (IH Hy) as [E F]. destruct (died_groups_ok z _ Hx) as (gs & Eg & Lg & _). cbn [map_out map].
    assert (Er : retain_user z x = Ok (retained z x)) by (unfold retain_user, retained; rewrite Eg; reflexivity).
    rewrite Er. cbn [obind]. rewrite E. cbn [obind]. split; [reflexivity|]. constructor; [|exact F]. unfold retained. rewrite Eg. exact Lg.
  Qed.
  Lemma al_retain : forall st st' z, alike st st' -> exists users users', map_out (retain_user z) (st_users st) = Ok users /\ map_out (retain_user z) (st_users st') = Ok users' /\
    alike (with_users st users) (with_users st' users').
  Proof.
    intros st st' z [A B C [D1 D2] E].
    assert (D2' : Forall (fun x : Z * user_state => length (us_groups (snd x)) = 11%nat) (st_users st')) by (eapply Permutation_Forall; [exact C|exact D2]).
    destruct (retain_map z _ D2) as [R1 F1]. destruct (retain_map z _ D2') as [R2 _].
    exists (map (retained z) (st_users st)), (map (retained z) (st_users st')). split; [exact R1|]. split; [exact R2|].
    constructor; cbn [with_users st_units st_users st_balance]; auto.
    - apply Permutation_map, C.
    - split; cbn [with_users st_users]; [|exact F1]. rewrite map_map. cbn [retained fst]. exact D1.
    - intros u us p Hi Ep. apply in_map_iff in Hi as ([u0 us0] & Ei & Hi). unfold retained in Ei. cbn [fst snd] in Ei. injection Ei as <- <-.
      cbn [set_groups us_lobby] in Ep. eapply E; eauto.
  Qed.
  Lemma al_tracker : forall mc st st' gl e, alike st st' -> (forall x, e = TPlayerSetup x -> owned own x) ->
    agree alike (handle_tracker_event mc st gl e) (handle_tracker_event mc st' gl e).
  Proof.
    intros mc st st' gl e H Ho. pose proof (al_name _ _ H) as Hn. pose proof (al_units _ _ _ H) as Hu. pose proof (al_balance _ _ _ H) as Hb.
    destruct e; cbn [handle_tracker_event]; try (split; [exact H|reflexivity]).
    - unfold handle_unit_born. rewrite Hu, Hb, Hn.
      match goal with |- context [let '(_, _) := ?x in _] => destruct x as [units cr] end.
      destruct (mget (ub_index e) units); split; try reflexivity; apply al_with_units, H.
    - unfold handle_unit_died. destruct (al_retain st st' (ud_index e) H) as (us & us' & -> & -> & Ha). cbn [obind]. rewrite Hu.
      destruct (mget (ud_index e) (st_units st)); split; try reflexivity; [|exact Ha]. apply al_with_units, Ha.
    - unfold handle_unit_type_change. rewrite Hu, Hb. destruct (mget _ _); split; try reflexivity; apply al_with_units, H.
    - rewrite Hn. split; [exact H|reflexivity].
    - unfold handle_unit_init. rewrite Hu, Hb, Hn. split; [apply al_with_units, H|reflexivity].
    - unfold handle_unit_done. rewrite Hu, Hb. destruct (mget _ _); split; try reflexivity; [apply al_with_units, H|exact H].
    - unfold handle_unit_position. destruct (to_unit_positions_vec _ _ _) as [l|x|]; cbn [obind agree]; [|reflexivity|exact Logic.I]. rewrite Hu.
      destruct (position_loop _ _ _) as [units ids]. split; [apply al_with_units, H|reflexivity].
    - split; [|reflexivity]. specialize (Ho _ eq_refl). unfold handle_player_setup. destruct (se_user_id e) as [u|] eqn:Eu; [|exact H].
      rewrite (al_get _ _ H). destruct (mget u (st_users st)) as [us|] eqn:E; [|exact H].
      apply al_set; [exact H|exact (wf_get st u us (al_wf _ _ _ H) E)|]. cbn [us_lobby set_setup ld_setup_player]. intros p Ep. injection Ep as <-. apply Ho, Eu.
  Qed.
  Definition owned_event (e : sc2_event) : Prop := match e with ETracker _ (TPlayerSetup x) => owned own x | _ => True end.
  Lemma al_step : forall mc st st' e, alike st st' -> owned_event e -> agree alike (handle_transition mc st e) (handle_transition mc st' e).
  Proof.
    intros mc st st' [gl e|gl uid n e] H Ho; cbn [handle_transition].
    - apply (agree_bind _ _ _ _ alike); [apply al_tracker; [exact H|intros x ->; exact Ho]|]. intros s s' [x h] Hs. split; [exact Hs|reflexivity].
    - apply (agree_bind _ _ _ _ alike); [apply al_game, H|]. intros s s' [x h] Hs. split; [exact Hs|reflexivity].
  Qed.
  Lemma al_run : forall mc evs st st', alike st st' -> Forall owned_event evs -> agree alike (run mc st evs) (run mc st' evs).
  Proof.
    intros mc. induction evs as [|e evs IH]; intros st st' H Ho; cbn [run]; [split; [exact H|reflexivity]|]. inversion Ho as [|a b Oe Os]; subst.
    apply (agree_bind _ _ _ _ alike); [apply al_step; assumption|]. intros s s' i Hs.
    apply (agree_bind _ _ _ _ alike); [apply IH; assumption|]. intros s1 s1' l Hs1. split; [exact Hs1|reflexivity].
  Qed.
End Alike.

Lemma starts_alike : forall own init d b st st', starts init d b st -> starts init d b st' -> alike own st st'.
Proof.
  intros own init d b st st' H H'. pose proof (starts_wf _ _ _ _ H) as (W & U & B). pose proof (starts_wf _ _ _ _ H') as (_ & U' & B').
  constructor; [congruence|congruence| |exact W|].
  - destruct H as (s1 & E1 & _ & _ & P1), H' as (s2 & E2 & _ & _ & P2). assert (s2 = s1) by congruence. subst s2.
    eapply perm_trans; [exact P1|apply Permutation_sym, P2].
  - intros u us p Hi Ep. exfalso. apply In_mget in Hi; [|apply W]. destruct (start_user _ _ _ _ _ _ H Hi) as (l & ps & -> & _ & Hl & Hx).
    destruct (lobby_setup_none _ _ _ _ Hl Hx) as [N1 _]. cbn [us_lobby new_user] in Ep. congruence.
Qed.
Lemma setups_owned : forall evs, one_user_each (setups_of evs) -> Forall (owned_event (owner_of (setups_of evs))) evs.
Proof.
  intros evs Hs. apply owner_owned in Hs. rewrite Forall_forall in Hs |- *. intros [gl []|] He; cbn; try exact Logic.I.
  apply Hs. unfold setups_of. apply in_flat_map. eexists. split; [exact He|left; reflexivity].
Qed.
(** What a caller sees of a state: the units, and the users by id. *)
Definition same_view (st st' : state) : Prop :=
  (forall i, unit_of st' i = unit_of st i) /\ (forall uid, user_of st' uid = user_of st uid) /\ Permutation (st_users st) (st_users st').
Lemma alike_view : forall own st st', alike own st st' -> same_view st st'.
Proof.
  intros own st st' H. split; [|split].
  - intros i. unfold unit_of. rewrite (al_units _ _ _ H). reflexivity.
  - intros uid. apply (al_get own _ _ H).
  - apply (al_users _ _ _ H).
Qed.
Lemma run_order : forall mc init d b st st' evs, starts init d b st -> starts init d b st' -> one_user_each (setups_of evs) ->
  match run mc st evs, run mc st' evs with
  | Ok (s, its), Ok (s', its') => its' = its /\ same_view s s'
  | Err e, Err e' => e' = e
  | Panic, Panic => True
  | _, _ => False
  end.
Proof.
  intros mc init d b st st' evs H H' Hs.
  pose proof (al_run _ mc evs st st' (starts_alike (owner_of (setups_of evs)) _ _ _ _ _ H H') (setups_owned evs Hs)) as A.
  destruct (run mc st evs) as [[s its]|e|], (run mc st' evs) as [[s' its']|e'|]; cbn [agree] in A; try contradiction; auto.
  destruct A as [A ->]. split; [reflexivity|]. eapply alike_view, A.
Qed.
