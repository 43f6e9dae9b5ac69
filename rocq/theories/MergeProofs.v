(** * The statements about the merged iterator *)
From Verif Require Import Base F32 F32Facts Tags Events Maps Lobby Balance BitSpec BitPacked BitProofs BitFormat BitTypes Convert ConvertSpec ConvertFacts ConvertTracker Stream StreamFacts Iterators Dispatch Types VersionedSpec ByteTypes StreamSpec IteratorFacts IteratorStreams State StateFacts StateSpec StateSteps StateProofs StateMore Merge MergeSpec MergeFacts MergeStreams.
#[local] Open Scope Z_scope.
#[local] Open Scope list_scope.

Lemma start_good : forall st t g f, bytes_ok t -> bytes_ok g -> good (merge_start st t g f).
Proof. intros st t g f Ht Hg. split; [exact Ht|]. apply start_aligned, Hg. Qed.

Section Proofs.
  Variable mc : machine.
  Variable p : proto.
  Notation build := (mc_build mc).

  (** ** Filters *)
  Lemma advance_filters : forall f it, advance mc p (with_filters f it) = do (r, it') <- advance mc p it; Ok (r, with_filters f it').
  Proof.
    intros f [st t g nt ng f0]. unfold advance, fill_tracker, with_filters. cbn [mg_next_tracker mg_tracker mg_state mg_game mg_next_game mg_filters].
    assert (Hgame : forall t' nt', (do it <- fill_game mc p (mk_merged st t' g nt' ng f); Ok (pick it))
       = do (r, it') <- (do it <- fill_game mc p (mk_merged st t' g nt' ng f0); Ok (pick it)); Ok (r, mk_merged (mg_state it') (mg_tracker it') (mg_game it') (mg_next_tracker it') (mg_next_game it') f)).
    { intros t' nt'. unfold fill_game. cbn [mg_next_tracker mg_tracker mg_state mg_game mg_next_game mg_filters].
      assert (Hp : forall g' ng', Ok (pick (mk_merged st t' g' nt' ng' f)) = do (r, it') <- Ok (pick (mk_merged st t' g' nt' ng' f0));
         Ok (r, mk_merged (mg_state it') (mg_tracker it') (mg_game it') (mg_next_tracker it') (mg_next_game it') f)).
      { intros g' ng'. unfold pick. cbn. destruct nt' as [x|]; destruct ng' as [y|]; cbn; try reflexivity. destruct (tracker_first _ _); reflexivity. }
      destruct ng as [y|]; [apply Hp|]. destruct (game_next build p (player_names st) g) as [[x s]| |]; cbn [obind]; try reflexivity. apply Hp. }
    destruct nt as [x|]; cbn [obind]; [apply Hgame|]. destruct (tracker_next build p t) as [[x s]| |]; cbn [obind]; try reflexivity. apply Hgame.
  Qed.
  (** A call with a filter, from the call without. *)
  Lemma filtered_next : forall f it r it', good it -> mg_filters it = None -> merge_next mc p it = Ok (r, it') ->
    merge_next mc p (with_filters (Some f) it) =
    match r with
    | None => Ok (None, with_filters (Some f) it')
    | Some i =>
        if skip_event f (it_event i) then merge_next mc p (with_filters (Some f) it')
        else Ok (if max_reached (decrease_allowed f) then None else Some i, with_filters (Some (decrease_allowed f)) it')
    end.
  Proof.
    intros f it r it' Hg Hf E. rewrite (merge_unfold mc p it Hg) in E. rewrite (merge_unfold mc p _ (good_filters it (Some f) Hg)). unfold round in *.
    rewrite advance_filters. apply obind_ok in E as ([o it1] & Ea & E). rewrite Ea. cbn [obind]. destruct (advance_facts mc p _ _ _ Hg Ea) as (_ & _ & _ & F1).
    rewrite Hf in F1. destruct o as [e|]; [|injection E as <- <-; reflexivity].
    apply obind_ok in E as ([st i] & Eh & E). cbv zeta in *. change (mg_filters (with_state st it1)) with (mg_filters it1) in E. rewrite F1 in E. injection E as <- <-.
    change (mg_state (with_filters (Some f) it1)) with (mg_state it1). rewrite Eh. cbn [obind]. cbn [with_state with_filters mg_filters mg_state].
    destruct (skip_event f (it_event i)); [reflexivity|]. cbn. destruct (max_reached (decrease_allowed f)); reflexivity.
  Qed.
  Lemma next_unfiltered : forall it r it', good it -> mg_filters it = None -> merge_next mc p it = Ok (r, it') -> mg_filters it' = None.
  Proof.
    intros it r it' Hg Hf E. revert it r it' Hg E Hf.
    apply (merge_next_ind mc p (fun it r it' => mg_filters it = None -> mg_filters it' = None)); try congruence.
    - intros it it1 Hg Ea Hf. destruct (advance_facts mc p _ _ _ Hg Ea) as (_ & _ & _ & F1). congruence.
    - intros it e it1 st i Hg Ea _ Hf _. destruct (advance_facts mc p _ _ _ Hg Ea) as (_ & _ & _ & F1). cbn. congruence.
  Qed.

  Lemma skip_decrease : forall f e, skip_event (decrease_allowed f) e = skip_event f e.
  Proof. intros f e. unfold decrease_allowed. destruct (fi_events f) as [n|]; [|reflexivity]. destruct (0 <? n); reflexivity. Qed.
  Lemma last_cons_ne : forall A (a : A) l d, l <> [] -> last (a :: l) d = last l d.
  Proof. intros A a [|b l] d Hn; [congruence|reflexivity]. Qed.
  (** All the answers with a filter, from those without. *)
  Definition budget (f : filters) (l : list (option item)) : list (option item) :=
    match fi_events f with Some n => first_items (Z.to_nat n - 1) l | None => l end.
  Lemma filtered_calls : forall n it answers it' f, good it -> mg_filters it = None -> merge_calls mc p n it = Ok (answers, it') -> last answers None = None ->
    (forall k, fi_events f = Some k -> 0 <= k) ->
    let shown := filter (let_through f) answers in
    exists f', (fi_events f = None -> f' = f) /\ merge_calls mc p (length shown) (with_filters (Some f) it) = Ok (budget f shown, with_filters (Some f') it').
  Proof.
    induction n as [|n IH]; intros it answers it' f Hg Hf E Hlast Hk; cbn [merge_calls] in E.
    - injection E as <- <-. exists f. split; [auto|]. unfold budget. cbn. destruct (fi_events f); reflexivity.
    - apply obind_ok in E as ([r it1] & E1 & E). apply obind_ok in E as ([rs it2] & E2 & E). injection E as <- <-.
      assert (Hg1 := next_good mc p _ _ _ Hg E1). assert (Hf1 := next_unfiltered _ _ _ Hg Hf E1).
      assert (Hlr : rs = [] /\ r = None \/ rs <> [] /\ last rs None = None).
      { destruct rs as [|a rs]; [left; auto|]. right. split; [discriminate|]. exact Hlast. }
      assert (Hl' : last rs None = None) by (destruct Hlr as [[-> _]|[_ H]]; [reflexivity|exact H]).
      pose proof (filtered_next f it r it1 Hg Hf E1) as En. cbv zeta. cbn [filter].
      destruct r as [i|]; cbn [let_through].
      + destruct (skip_event f (it_event i)) eqn:Es; cbn [negb].
        * destruct Hlr as [[_ Hr]|[Hne _]]; [discriminate|].
          destruct (IH it1 rs it2 f Hg1 Hf1 E2 Hl' Hk) as (f' & Hff & Ec). exists f'. split; [exact Hff|]. revert Ec.
          destruct (filter (let_through f) rs) as [|a l] eqn:Ef.
          { exfalso. assert (In (last rs None) rs) by (destruct (exists_last Hne) as (l' & x & ->); rewrite last_last; apply in_or_app; right; left; reflexivity).
            rewrite Hl' in H. assert (In None (filter (let_through f) rs)) by (apply filter_In; auto). rewrite Ef in *. contradiction. }
          cbn [length merge_calls]. rewrite En. intros Ec. exact Ec.
        * assert (Hk' : forall k, fi_events (decrease_allowed f) = Some k -> 0 <= k).
          { intros k. unfold decrease_allowed. destruct (fi_events f) as [m|] eqn:Em; [|rewrite Em; discriminate]. destruct (Z.ltb_spec 0 m); cbn; [intros [= <-]; lia|rewrite Em; intros [= <-]; apply Hk; reflexivity]. }
          destruct (IH it1 rs it2 (decrease_allowed f) Hg1 Hf1 E2 Hl' Hk') as (f' & Hff & Ec). exists f'. split.
          { intros Hnone. assert (Hd : decrease_allowed f = f) by (unfold decrease_allowed; rewrite Hnone; reflexivity). rewrite Hff; [exact Hd|now rewrite Hd]. }
          assert (Ext : filter (let_through (decrease_allowed f)) rs = filter (let_through f) rs).
          { apply filter_ext. intros [j|]; cbn [let_through]; [rewrite skip_decrease|]; reflexivity. }
          cbv zeta in Ec. rewrite Ext in Ec. cbn [length merge_calls]. rewrite En. cbn [obind]. rewrite Ec. cbn [obind]. f_equal. f_equal.
          unfold budget, max_reached, decrease_allowed. destruct (fi_events f) as [m|] eqn:Em; [|rewrite Em; reflexivity]. specialize (Hk m eq_refl).
          destruct (Z.ltb_spec 0 m) as [Hm|Hm]; cbn [set_events fi_events].
          -- destruct (Z.eqb_spec (m - 1) 0) as [H0|H0].
             ++ assert (m = 1) by lia. subst m. reflexivity.
             ++ replace (Z.to_nat m - 1)%nat with (S (Z.to_nat (m - 1) - 1)) by lia. reflexivity.
          -- rewrite Em. destruct (Z.eqb_spec m 0); [|lia]. subst m. reflexivity.
      + destruct (IH it1 rs it2 f Hg1 Hf1 E2 Hl' Hk) as (f' & Hff & Ec). exists f'. split; [exact Hff|]. cbn [length merge_calls]. rewrite En. cbn [obind]. cbv zeta in Ec. rewrite Ec. cbn [obind].
        unfold budget. destruct (fi_events f); reflexivity.
  Qed.
  (** Whatever is shown is accepted. *)
  Lemma shown_accepted : forall it i it' f, good it -> mg_filters it = Some f -> merge_next mc p it = Ok (Some i, it') -> skip_event f (it_event i) = false.
  Proof.
    intros it i it' f Hg Hf E. enough (H : forall it r it', good it -> merge_next mc p it = Ok (r, it') ->
      forall f, mg_filters it = Some f -> match r with Some i => skip_event f (it_event i) = false | None => True end) by exact (H it (Some i) it' Hg E f Hf).
    clear. apply (merge_next_ind mc p (fun it r it' => forall f, mg_filters it = Some f -> match r with Some i => skip_event f (it_event i) = false | None => True end)).
    - auto.
    - congruence.
    - intros it e it1 st i f Hg Ea Eh Hf Hs f0 Hf0. rewrite Hf in Hf0. injection Hf0 as <-. destruct (max_reached _); auto.
    - intros it e it1 st i f r it2 Hg Ea Eh Hf Hs IH f0 Hf0. rewrite Hf in Hf0. injection Hf0 as <-. destruct (advance_facts mc p _ _ _ Hg Ea) as (_ & _ & _ & F1).
      apply IH. cbn. congruence.
  Qed.

  (** ** User ids *)
  Lemma game_next_user : forall names n c l x s', (cursor_size c <= n)%nat -> aligned c -> game_next build p names (c, l) = Ok (Some x, s') -> 0 <= gi_user (snd x) < 32.
  Proof.
    intros names. pose proof (triplet_good build _ (game_wf p) (game_no p) (game_min p)) as Hg. unfold game_next.
    induction n as [|n IH]; intros c l x s' Hn Ha E; rewrite (next_unfold cursor_end cursor_size _ (game_convert names) aligned Hg (triplet_nu build _)) in E by exact Ha;
    destruct (cursor_end c); try discriminate; destruct (parse_event_triplet build (game_type p) c) as [[c' [d [u v]]]|e|] eqn:Ep; try discriminate;
    destruct (Hg _ _ _ _ Ha Ep) as [Ha' Hs]; [lia|].
    destruct (triplet_step build (game_type p) c c' d u v (game_wf p) (game_no p) (game_min p) Ha Ep) as (_ & _ & _ & _ & U & _).
    unfold game_convert at 1 in E. cbn [fst snd] in E. destruct (game_from v) as [e|e|]; cbn [obind] in E; [injection E as <- _; exact U| |discriminate].
    destruct e; try discriminate. eapply IH; [|exact Ha'|exact E]. lia.
  Qed.
  Definition user_ok (it : merged) : Prop := match mg_next_game it with Some g => 0 <= gi_user (snd g) < 32 | None => True end.
  Lemma advance_user : forall it r it', good it -> user_ok it -> advance mc p it = Ok (r, it') ->
    user_ok it' /\ match r with Some (EGame _ u _ _) => 0 <= u < 32 | _ => True end.
  Proof.
    intros it r it' [Ht Hg] Hu E. unfold advance in E. apply obind_ok in E as (it1 & E1 & E). apply obind_ok in E as (it2 & E2 & E). injection E as E.
    assert (F1 : user_ok it1 /\ aligned (fst (mg_game it1))).
    { unfold fill_tracker in E1. destruct (mg_next_tracker it); [injection E1 as <-; auto|]. apply obind_ok in E1 as ([x s] & _ & E1). injection E1 as <-. split; [exact Hu|exact Hg]. }
    destruct F1 as [U1 G1]. assert (U2 : user_ok it2).
    { unfold fill_game in E2. destruct (mg_next_game it1) eqn:En; [injection E2 as <-; exact U1|]. apply obind_ok in E2 as ([x s] & Ex & E2). injection E2 as <-. unfold user_ok. cbn.
      destruct x as [x|]; [|exact I]. destruct (mg_game it1) as [c l]. eapply game_next_user; [|exact G1|exact Ex]. apply Nat.le_refl. }
    unfold pick in E. unfold user_ok in U2. destruct (mg_next_tracker it2) as [t|] eqn:T; destruct (mg_next_game it2) as [g|] eqn:G; [destruct (tracker_first _ _)| | |];
      injection E as <- <-; unfold user_ok, take_tracker, take_game; cbn; rewrite ?G; auto.
  Qed.
  Lemma handle_user : forall st e st' i, handle_transition mc st e = Ok (st', i) ->
    match e, it_event i with EGame l u n _, EGame l' u' n' _ => l' = l /\ u' = u /\ n' = n | ETracker l _, ETracker l' _ => l' = l | _, _ => False end.
  Proof.
    intros st [l e|l u n e] st' i Eh.
    - apply transition_tracker in Eh as (e' & h & _ & ->). reflexivity.
    - apply transition_game in Eh as (e' & h & _ & ->). cbn. auto.
  Qed.
  Lemma next_user : forall it r it', good it -> merge_next mc p it = Ok (r, it') -> user_ok it -> user_ok it' /\ match r with Some i => match it_event i with EGame _ u _ _ => 0 <= u < 32 | _ => True end | None => True end.
  Proof.
    apply (merge_next_ind mc p (fun it r it' => user_ok it -> user_ok it' /\ match r with Some i => match it_event i with EGame _ u _ _ => 0 <= u < 32 | _ => True end | None => True end)).
    - intros it it1 Hg Ea Hu. destruct (advance_user _ _ _ Hg Hu Ea). auto.
    - intros it e it1 st i Hg Ea Eh Hf Hu. destruct (advance_user _ _ _ Hg Hu Ea) as [A B]. split; [exact A|]. apply handle_user in Eh. destruct e, (it_event i); try contradiction; auto. destruct Eh as (_ & -> & _). exact B.
    - intros it e it1 st i f Hg Ea Eh Hf Hs Hu. destruct (advance_user _ _ _ Hg Hu Ea) as [A B]. split; [exact A|]. destruct (max_reached _); [exact I|].
      apply handle_user in Eh. destruct e, (it_event i); try contradiction; auto. destruct Eh as (_ & -> & _). exact B.
    - intros it e it1 st i f r it2 Hg Ea Eh Hf Hs IH Hu. destruct (advance_user _ _ _ Hg Hu Ea) as [A B]. apply IH. exact A.
  Qed.
  Lemma calls_user : forall n it rs it', good it -> user_ok it -> merge_calls mc p n it = Ok (rs, it') -> user_ok it'.
  Proof.
    induction n as [|n IH]; intros it rs it' Hg Hu E; cbn [merge_calls] in E; [injection E as <- <-; exact Hu|].
    apply obind_ok in E as ([r it1] & E1 & E). apply obind_ok in E as ([rs1 it2] & E2 & E). injection E as <- <-. eapply IH; [|apply (next_user _ _ _ Hg E1 Hu)|exact E2]. eapply next_good; eauto.
  Qed.
  Lemma reached_user : forall it, reached mc p it -> user_ok it.
  Proof.
    intros it (init & d & b & st & t & g & f & k & ans & _ & Ht & Hg & E). eapply calls_user; [| |exact E]; [apply start_good; assumption|exact I].
  Qed.

  (** C29 and C30. *)
  Lemma loops_bounded : forall it i it' f l e, reached mc p it -> mg_filters it = Some f -> merge_next mc p it = Ok (Some i, it') -> it_event i = ETracker l e ->
    (forall a, fi_min f = Some a -> a <= l) /\ (forall b, fi_max f = Some b -> l <= b).
  Proof.
    intros it i it' f l e Hr Hf E Ei. pose proof (shown_accepted it i it' f (reached_good _ _ _ Hr) Hf E) as Hs. rewrite Ei in Hs. unfold skip_event in Hs.
    destruct (fi_min f) as [a|]; destruct (fi_max f) as [b|]; cbn in Hs;
      repeat match type of Hs with context [?x <? ?y] => destruct (Z.ltb_spec x y) end; cbn in Hs; try discriminate; split; intros ? [= <-]; lia.
  Qed.
  Lemma players_kept : forall it i it' f q, reached mc p it -> mg_filters it = Some f -> fi_player f = Some q -> merge_next mc p it = Ok (Some i, it') ->
    match it_event i with
    | EGame _ uid _ _ => uid = q
    | ETracker _ e => match controlling_player e with Some c => c = q | None => True end
    end.
  Proof.
    intros it i it' f q Hr Hf Hq E. pose proof (shown_accepted it i it' f (reached_good _ _ _ Hr) Hf E) as Hs. unfold skip_event in Hs.
    pose proof (next_user _ _ _ (reached_good _ _ _ Hr) E (reached_user _ Hr)) as [_ Hu].
    destruct (it_event i) as [l e|l u n e].
    - match type of Hs with (if ?c then _ else _) = _ => destruct c; [discriminate|] end. cbn [event_skip] in Hs. unfold tracker_skip, differs in Hs. rewrite Hq in Hs.
      destruct e; cbn [controlling_player]; auto; repeat match type of Hs with context [?x =? q] => destruct (Z.eqb_spec x q); [assumption|discriminate] end.
    - cbn in Hs. rewrite Hq in Hs. cbn in Hs. unfold as_u8 in Hs. rewrite Z.mod_small in Hs by lia. destruct (Z.eqb_spec u q); [assumption|discriminate].
  Qed.

  (** ** Which comes first *)
  Lemma next_kind : forall it t g i it', reached mc p it -> mg_filters it = None -> next_tracker mc p it (Some t) -> next_game mc p it (Some g) -> merge_next mc p it = Ok (Some i, it') ->
    handle_transition mc (mg_state it) (if tracker_first (fst t) (fst g) then tracker_item t else game_item_event g) = Ok (mg_state it', i).
  Proof.
    intros it t g i it' Hr Hf Ht Hg E. pose proof (reached_good _ _ _ Hr) as Hgood. rewrite (merge_unfold mc p it Hgood) in E. unfold round in E. apply obind_ok in E as ([o it1] & Ea & E).
    destruct (advance_facts mc p _ _ _ Hgood Ea) as (_ & _ & S1 & F1). destruct o as [e|]; [|discriminate]. apply obind_ok in E as ([st i'] & Eh & E). cbv zeta in E.
    change (mg_filters (with_state st it1)) with (mg_filters it1) in E. rewrite F1, Hf in E. injection E as -> <-. cbn [with_state mg_state]. rewrite <- Eh, S1. f_equal.
    unfold advance in Ea. apply obind_ok in Ea as (it2 & E2 & Ea). apply obind_ok in Ea as (it3 & E3 & Ea). injection Ea as Ea.
    assert (T2 : mg_next_tracker it2 = Some t /\ mg_next_game it2 = mg_next_game it /\ mg_state it2 = mg_state it /\ mg_game it2 = mg_game it).
    { unfold next_tracker, fill_tracker in *. destruct (mg_next_tracker it) eqn:En; [injection E2 as <-; rewrite En, Ht; auto|]. destruct Ht as [s Ht]. rewrite Ht in E2. cbn [obind] in E2. injection E2 as <-. cbn. auto. }
    destruct T2 as (T2 & G2 & S2 & GG2).
    assert (T3 : mg_next_tracker it3 = Some t /\ mg_next_game it3 = Some g).
    { unfold next_game, fill_game in *. rewrite G2, S2, GG2 in E3. destruct (mg_next_game it) eqn:En.
      - injection E3 as <-. rewrite T2, G2. split; [reflexivity|]. now rewrite Hg.
      - destruct Hg as [s Hg]. rewrite Hg in E3. cbn [obind] in E3. injection E3 as <-. cbn. auto. }
    destruct T3 as [T3 G3]. unfold pick in Ea. rewrite T3, G3 in Ea. destruct (tracker_first (fst t) (fst g)); injection Ea as <- _; reflexivity.
  Qed.
  (** C26: [None] means that neither stream has an event. *)
  Lemma none_pending : forall it it', reached mc p it -> mg_filters it = None -> merge_next mc p it = Ok (None, it') -> next_tracker mc p it None /\ next_game mc p it None.
  Proof.
    intros it it' Hr Hf E. pose proof (reached_good _ _ _ Hr) as Hgood. rewrite (merge_unfold mc p it Hgood) in E. unfold round in E. apply obind_ok in E as ([o it1] & Ea & E).
    destruct (advance_facts mc p _ _ _ Hgood Ea) as (_ & _ & S1 & F1). destruct o as [e|].
    { apply obind_ok in E as ([st i'] & Eh & E). cbv zeta in E. change (mg_filters (with_state st it1)) with (mg_filters it1) in E. rewrite F1, Hf in E. discriminate. }
    clear E. unfold advance in Ea. apply obind_ok in Ea as (it2 & E2 & Ea). apply obind_ok in Ea as (it3 & E3 & Ea). injection Ea as Ea.
    assert (T3 : mg_next_tracker it3 = None /\ mg_next_game it3 = None).
    { unfold pick in Ea. destruct (mg_next_tracker it3); destruct (mg_next_game it3); try destruct (tracker_first _ _); try discriminate. auto. }
    destruct T3 as [T3 G3]. unfold next_tracker, next_game, fill_tracker, fill_game in *.
    destruct (mg_next_tracker it) eqn:T.
    { injection E2 as <-. destruct (mg_next_game it); [injection E3 as <-; congruence|]. apply obind_ok in E3 as ([x s] & _ & E3). injection E3 as <-. cbn in T3. congruence. }
    apply obind_ok in E2 as ([x s] & Ex & E2). injection E2 as <-. cbn in E3. destruct (mg_next_game it) eqn:G.
    { injection E3 as <-. cbn in G3. congruence. }
    apply obind_ok in E3 as ([y s'] & Ey & E3). injection E3 as <-. cbn in T3, G3. subst x y. eauto.
  Qed.

  (** ** Order, with or without filters *)
  Lemma next_suffix : forall names, forall it r it', good it -> merge_next mc p it = Ok (r, it') -> wf (mg_state it) -> forall evs, scheduled mc p names it (map Some evs) ->
    wf (mg_state it') /\ exists evs1 evs2, evs = evs1 ++ evs2 /\ scheduled mc p names it' (map Some evs2) /\
      match r with Some i => exists l0 e, evs1 = l0 ++ [e] /\ event_loop (it_event i) = event_loop e | None => True end.
  Proof.
    intros names. assert (Step : forall it e it1 st i evs, good it -> wf (mg_state it) -> advance mc p it = Ok (Some e, it1) -> handle_transition mc (mg_state it) e = Ok (st, i) -> scheduled mc p names it (map Some evs) ->
      exists evs2, evs = e :: evs2 /\ scheduled mc p names (with_state st it1) (map Some evs2) /\ wf st /\ event_loop (it_event i) = event_loop e).
    { intros it e it1 st i evs Hg Hw Ea Eh Hs. destruct (advance_scheduled mc p names it _ Hs) as (it2 & Ea2 & Hs2). rewrite Ea in Ea2. injection Ea2 as He ->.
      destruct evs as [|e' evs2]; [discriminate|]. cbn in He, Hs2. injection He as ->. exists evs2. split; [reflexivity|].
      destruct (advance_facts mc p _ _ _ Hg Ea) as (_ & _ & S1 & _). split; [|split; [eapply step_wf; eauto|]].
      - destruct Hs2 as (Hn & Hs2). split; [|exact Hs2]. cbn. intros u. rewrite (step_names mc _ _ _ _ Hw Eh u), <- S1. apply Hn.
      - apply handle_user in Eh. destruct e', (it_event i); try contradiction; cbn; [exact Eh|apply Eh]. }
    apply (merge_next_ind mc p (fun it r it' => wf (mg_state it) -> forall evs, scheduled mc p names it (map Some evs) ->
      wf (mg_state it') /\ exists evs1 evs2, evs = evs1 ++ evs2 /\ scheduled mc p names it' (map Some evs2) /\
      match r with Some i => exists l0 e, evs1 = l0 ++ [e] /\ event_loop (it_event i) = event_loop e | None => True end)).
    - intros it it1 Hg Ea Hw evs Hs. destruct (advance_facts mc p _ _ _ Hg Ea) as (_ & _ & S1 & _). split; [rewrite S1; exact Hw|].
      destruct (advance_scheduled mc p names it _ Hs) as (it2 & Ea2 & Hs2). rewrite Ea in Ea2. injection Ea2 as He ->. exists [], evs.
      destruct evs; [|discriminate]. auto.
    - intros it e it1 st i Hg Ea Eh Hf Hw evs Hs. destruct (Step _ _ _ _ _ _ Hg Hw Ea Eh Hs) as (evs2 & -> & Hs2 & Hw2 & Hl). split; [exact Hw2|]. exists [e], evs2. split; [reflexivity|]. split; [exact Hs2|]. exists [], e. auto.
    - intros it e it1 st i f Hg Ea Eh Hf Hsk Hw evs Hs. destruct (Step _ _ _ _ _ _ Hg Hw Ea Eh Hs) as (evs2 & -> & Hs2 & Hw2 & Hl). split; [exact Hw2|]. exists [e], evs2. split; [reflexivity|]. split; [exact Hs2|].
      destruct (max_reached _); [exact I|]. exists [], e. auto.
    - intros it e it1 st i f r it2 Hg Ea Eh Hf Hsk IH Hw evs Hs. destruct (Step _ _ _ _ _ _ Hg Hw Ea Eh Hs) as (evs2 & -> & Hs2 & Hw2 & Hl).
      destruct (IH Hw2 _ Hs2) as (W & evs1 & evs3 & -> & S & R). split; [exact W|]. exists (e :: evs1), evs3. split; [reflexivity|]. split; [exact S|].
      destruct r as [j|]; [|exact I]. destruct R as (l0 & e' & -> & R). exists (e :: l0), e'. auto.
  Qed.
  Lemma calls_in_order : forall names n it rs it' evs, good it -> wf (mg_state it) -> scheduled mc p names it (map Some evs) -> in_order (map event_loop evs) ->
    merge_calls mc p n it = Ok (rs, it') -> in_order (map (fun i => event_loop (it_event i)) (present rs)) /\
      forall b, Forall (fun e => b <= event_loop e) evs -> Forall (fun i => b <= event_loop (it_event i)) (present rs).
  Proof.
    intros names. unfold in_order. induction n as [|n IH]; intros it rs it' evs Hg Hw Hs Ho E; cbn [merge_calls] in E; [injection E as <- <-; split; [constructor|intros; constructor]|].
    apply obind_ok in E as ([r it1] & E1 & E). apply obind_ok in E as ([rs1 it2] & E2 & E). injection E as <- <-.
    destruct (next_suffix names _ _ _ Hg E1 Hw evs Hs) as (W1 & evs1 & evs2 & -> & Hs1 & Hr).
    assert (Ho2 : Sorted.StronglySorted Z.le (map event_loop evs2)). { clear -Ho. rewrite map_app in Ho. induction (map event_loop evs1) as [|x l IHl]; [exact Ho|]. inversion Ho; subst. auto. }
    destruct (IH it1 rs1 it2 evs2 (next_good mc p _ _ _ Hg E1) W1 Hs1 Ho2 E2) as [A B]. destruct r as [i|].
    - destruct Hr as (l0 & e & -> & Hl). change (present (Some i :: rs1)) with (i :: present rs1). cbn [map]. split.
      + constructor; [exact A|]. apply Forall_map. apply B. rewrite Hl. clear -Ho. induction l0 as [|x l0 IHl].
        * cbn in Ho. inversion Ho; subst. apply (proj1 (Forall_map _ _ _)) in H2. exact H2.
        * apply IHl. cbn in Ho. inversion Ho; subst. assumption.
      + intros b Hb. apply Forall_app in Hb as [Hb1 Hb2]. apply Forall_app in Hb1 as [_ Hb1]. inversion Hb1; subst. constructor; [cbn in *; lia|]. apply B, Hb2.
    - change (present (None :: rs1)) with (present rs1). split; [exact A|]. intros b Hb. apply Forall_app in Hb as [_ Hb]. apply B, Hb.
  Qed.
End Proofs.

(** ** From the bytes of two sectors *)
Lemma loops_in_order : forall X (evs : list (Z * X)) l, Forall (fun ev => 0 <= fst ev) evs -> in_order (map fst (at_loops l evs)) /\ Forall (fun ev => l <= fst ev) (at_loops l evs).
Proof.
  unfold in_order. induction evs as [|[d x] evs IH]; intros l Hf; cbn [at_loops map]; [split; constructor|]. inversion Hf as [|? ? H1 H2]; subst. cbn [fst] in H1.
  destruct (IH (l + d) H2) as [A B]. split.
  - constructor; [exact A|]. apply Forall_map. exact B.
  - constructor; [cbn; lia|]. eapply Forall_impl; [|exact B]. cbn. intros. lia.
Qed.
Lemma filter_in_order : forall X (f : X -> bool) (k : X -> Z) l, in_order (map k l) -> in_order (map k (filter f l)).
Proof.
  unfold in_order. intros X f k l. induction l as [|x l IH]; intros Hs; [constructor|]. cbn [map] in Hs. inversion Hs as [|? ? H1 H2]; subst. cbn [filter].
  destruct (f x); [|auto]. cbn [map]. constructor; [auto|]. apply Forall_map. apply (proj1 (Forall_map _ _ _)) in H2. rewrite Forall_forall in *. intros y Hy. apply filter_In in Hy as [Hy _]. apply H2, Hy.
Qed.

Section Sectors.
  Variable mc : machine.
  Variable p : proto.
  Notation build := (mc_build mc).
  Lemma start_scheduled : forall st t g f ta ga, tracker_will mc p (tracker_start t) ta -> game_will mc p (player_names st) (game_start g) ga ->
    scheduled mc p (player_names st) (merge_start st t g f) (schedule ta ga).
  Proof. intros st t g f ta ga Ht Hg. split; [reflexivity|]. exists ta, ga. auto. Qed.
  Lemma sectors_scheduled : forall tevs t gevs g st f, sectors_of mc p tevs t gevs g -> exists ts gs evs,
    Forall2 (fun ev e => fst ev = fst e /\ tracker_from (snd ev) = Ok (snd e)) (at_loops 0 tevs) ts /\
    Forall2 (delivered_as (player_names st)) (filter supported_game (at_loops 0 gevs)) gs /\
    interleaving (map tracker_item ts) (map game_item_event gs) evs /\
    (Forall (fun ev => fst ev <= 2 ^ 24) (at_loops 0 gevs) -> in_order (map event_loop evs)) /\
    scheduled mc p (player_names st) (merge_start st t g f) (map Some evs).
  Proof.
    intros tevs t gevs g st f (Ht & Hg & St & Wt & Sg). destruct (tracker_delivers build p tevs t Ht St Wt) as (ts & Ft & Dt). destruct (game_delivers build p (player_names st) gevs g Hg Sg) as (gs & Fg & Dg).
    exists ts, gs, (present (schedule (map Some ts) gs)). split; [exact Ft|]. split; [exact Fg|]. split.
    { rewrite <- (present_map _ ts) at 1. apply schedule_interleaving. }
    split; [|rewrite <- schedule_some; apply start_scheduled; assumption].
    intros Hl. apply schedule_sorted.
    - destruct (holds_typed _ _ _ _ _ (sector_holds build p _ _ St) Ht) as [T _].
      destruct (loops_in_order _ tevs 0) as [A _]. { eapply Forall_impl; [|exact T]. intros ev [D _]. lia. }
      replace (map fst ts) with (map fst (at_loops 0 tevs)); [exact A|]. eapply Forall2_maps; [|exact Ft]. intros a b [H _]. exact H.
    - destruct (sector_holds_bits build (game_type p) gevs _ (game_wf p) Sg _ (start_aligned g Hg) eq_refl) as (r & Hh & _).
      destruct (holds_typed_bits build _ (game_wf p) (game_no p) (game_min p) _ _ _ Hh (start_aligned g Hg)) as [T _].
      destruct (loops_in_order _ gevs 0) as [A _]. { eapply Forall_impl; [|exact T]. intros ev [D _]. lia. }
      replace (map fst gs) with (map fst (filter supported_game (at_loops 0 gevs))); [now apply filter_in_order|]. eapply Forall2_maps; [|exact Fg]. intros a b [H _]. symmetry. exact H.
    - destruct (sector_holds_bits build (game_type p) gevs _ (game_wf p) Sg _ (start_aligned g Hg) eq_refl) as (r & Hh & _).
      destruct (holds_typed_bits build _ (game_wf p) (game_no p) (game_min p) _ _ _ Hh (start_aligned g Hg)) as [T _].
      destruct (loops_in_order _ gevs 0) as [_ A]. { eapply Forall_impl; [|exact T]. intros ev [D _]. lia. }
      assert (Hx : Forall (fun ev => exact_loop (fst ev)) (filter supported_game (at_loops 0 gevs))).
      { apply Forall_forall. intros ev Hin. apply filter_In in Hin as [Hin _]. rewrite Forall_forall in A, Hl. apply exact_loop_24. split; [apply A|apply Hl]; exact Hin. }
      clear -Fg Hx. induction Fg as [|a b la lb [R _] _ IH]; [constructor|]. inversion Hx; subst. constructor; [rewrite R; assumption|auto].
  Qed.
  Lemma sectors_merged : forall init d b st tevs t gevs g, starts init d b st -> sectors_of mc p tevs t gevs g -> exists ts gs evs,
    Forall2 (fun ev e => fst ev = fst e /\ tracker_from (snd ev) = Ok (snd e)) (at_loops 0 tevs) ts /\
    Forall2 (delivered_as (player_names st)) (filter supported_game (at_loops 0 gevs)) gs /\
    interleaving (map tracker_item ts) (map game_item_event gs) evs /\
    forall n, answers_of (merge_calls mc p n (merge_start st t g None)) = do its <- items_of (run mc st (firstn n evs)); Ok (map Some its ++ repeat None (n - length evs)).
  Proof.
    intros init d b st tevs t gevs g Hst Hp. destruct (sectors_scheduled tevs t gevs g st None Hp) as (ts & gs & evs & F1 & F2 & I & _ & S). exists ts, gs, evs. split; [exact F1|]. split; [exact F2|]. split; [exact I|].
    intros n. destruct Hp as (Ht & Hg & _). rewrite (calls_scheduled mc p (player_names st) n _ (map Some evs)); [|now apply start_good|apply (starts_wf _ _ _ _ Hst)|reflexivity|exact S].
    cbn [mg_state merge_start]. rewrite firstn_map, play_run, map_length. unfold items_of. destruct (run mc st (firstn n evs)) as [[st' is]| |]; reflexivity.
  Qed.
  Lemma sectors_in_order : forall init d b st tevs t gevs g f, starts init d b st -> sectors_of mc p tevs t gevs g -> Forall (fun ev => fst ev <= 2 ^ 24) (at_loops 0 gevs) ->
    forall n answers, answers_of (merge_calls mc p n (merge_start st t g f)) = Ok answers -> in_order (map (fun i => event_loop (it_event i)) (present answers)).
  Proof.
    intros init d b st tevs t gevs g f Hst Hp Hl n answers E. destruct (sectors_scheduled tevs t gevs g st f Hp) as (ts & gs & evs & _ & _ & _ & O & S). specialize (O Hl).
    unfold answers_of in E. apply obind_ok in E as ([rs it'] & E & Er). injection Er as <-. destruct Hp as (Ht & Hg & _).
    refine (proj1 (calls_in_order mc p (player_names st) n (merge_start st t g f) rs it' evs _ _ S O E)); [now apply start_good|apply (starts_wf _ _ _ _ Hst)].
  Qed.
  Lemma bytes_merged : forall init d b st t g, starts init d b st -> bytes_ok t -> bytes_ok g -> build = Wrapping \/ no_run 9 t -> exists ta gs l,
    (forall n, tracker_calls build p n (tracker_start t) = Ok (firstn n (ta ++ repeat None n))) /\
    (forall n, game_calls build p (player_names st) n (game_start g) = Ok (firstn n (map Some gs ++ repeat None n))) /\
    interleaving (map tracker_item (present ta)) (map game_item_event gs) (present l) /\
    forall n, answers_of (merge_calls mc p n (merge_start st t g None)) = do x <- play mc st (firstn n l); Ok (snd x ++ repeat None (n - length l)).
  Proof.
    intros init d b st t g Hst Ht Hg Hb. destruct (tracker_answers build p t Ht Hb) as (evs & rest & _ & _ & ta & _ & Dt).
    destruct (game_describe build p (player_names st) g Hg) as (gevs & r & gs & _ & _ & _ & Dg). exists ta, gs, (schedule ta gs). split; [exact Dt|]. split; [exact Dg|].
    split; [apply schedule_interleaving|]. intros n. rewrite (calls_scheduled mc p (player_names st) n _ (schedule ta gs)); [reflexivity|now apply start_good|apply (starts_wf _ _ _ _ Hst)|reflexivity|].
    now apply start_scheduled.
  Qed.
End Sectors.
(** ** Statements used in PropsMerge.v *)
Lemma interleaving_length : forall A (a b l : list A), interleaving a b l -> length l = (length a + length b)%nat.
Proof. intros A a b l I. induction I; cbn [length]; lia. Qed.
Lemma run_length : forall mc evs st st' its, run mc st evs = Ok (st', its) -> length its = length evs.
Proof.
  intros mc. induction evs as [|e evs IH]; intros st st' its E; cbn [run] in E; [injection E as <- <-; reflexivity|].
  apply obind_ok in E as ([s1 i] & _ & E). apply obind_ok in E as ([s2 is] & E2 & E). injection E as <- <-. cbn [length]. f_equal. eapply IH, E2.
Qed.
Lemma Forall2_len : forall A B (R : A -> B -> Prop) l l', Forall2 R l l' -> length l = length l'.
Proof. intros A B R l l' F. induction F; cbn; congruence. Qed.
Lemma at_loops_length : forall X (evs : list (Z * X)) l, length (at_loops l evs) = length evs.
Proof. intros X evs. induction evs as [|[d x] evs IH]; intros l; cbn; [reflexivity|]. now rewrite IH. Qed.
Lemma sectors_end : forall mc p init d b st tevs t gevs g, starts init d b st -> sectors_of mc p tevs t gevs g -> exists evs : list sc2_event,
  length evs = (length tevs + length (filter supported_game (at_loops 0%Z gevs)))%nat /\
  forall n answers, answers_of (merge_calls mc p n (merge_start st t g None)) = Ok answers -> exists items,
    answers = map Some items ++ repeat None (n - length evs) /\ length items = Nat.min n (length evs).
Proof.
  intros mc p init d b st tevs t gevs g Hs Hp. destruct (sectors_merged mc p init d b st tevs t gevs g Hs Hp) as (ts & gs & evs & F1 & F2 & I & E). exists evs.
  apply interleaving_length in I. apply Forall2_len in F1, F2. rewrite !map_length in I. rewrite at_loops_length in F1. split; [congruence|].
  intros n answers Ea. rewrite E in Ea. unfold items_of in Ea. apply obind_ok in Ea as (its & Ei & Ea). injection Ea as <-. apply obind_ok in Ei as ([st' its'] & Er & Ei). injection Ei as <-.
  exists its'. split; [reflexivity|]. apply run_length in Er. rewrite Er. apply firstn_length.
Qed.
Lemma filters_hide : forall mc p st t g n answers it', bytes_ok t -> bytes_ok g ->
  merge_calls mc p n (merge_start st t g None) = Ok (answers, it') -> last answers None = None ->
  forall f, fi_events f = None ->
  merge_calls mc p (length (filter (let_through f) answers)) (merge_start st t g (Some f)) = Ok (filter (let_through f) answers, with_filters (Some f) it').
Proof.
  intros mc p st t g n answers it' Ht Hg E Hl f Hf. destruct (filtered_calls mc p n _ answers it' f (start_good st t g None Ht Hg) eq_refl E Hl) as (f' & Hff & Ec); [congruence|].
  rewrite (Hff Hf) in Ec. unfold budget in Ec. rewrite Hf in Ec. exact Ec.
Qed.
Lemma filters_count : forall mc p st t g n answers it', bytes_ok t -> bytes_ok g ->
  merge_calls mc p n (merge_start st t g None) = Ok (answers, it') -> last answers None = None ->
  forall f N, fi_events f = Some N -> 0 <= N -> exists f',
  merge_calls mc p (length (filter (let_through f) answers)) (merge_start st t g (Some f)) =
    Ok (first_items (Z.to_nat N - 1) (filter (let_through f) answers), with_filters (Some f') it').
Proof.
  intros mc p st t g n answers it' Ht Hg E Hl f N Hf HN. destruct (filtered_calls mc p n _ answers it' f (start_good st t g None Ht Hg) eq_refl E Hl) as (f' & Hff & Ec); [intros k Hk; congruence|].
  exists f'. unfold budget in Ec. rewrite Hf in Ec. exact Ec.
Qed.
Lemma differs_spec : forall A (eqb : A -> A -> bool) (Heq : forall a b, eqb a b = true <-> a = b) o x, differs eqb o x = true <-> exists q, o = Some q /\ x <> q.
Proof.
  intros A eqb Heq [q|] x; cbn [differs].
  - rewrite negb_true_iff. split; [intros Hx; exists q; split; [reflexivity|]; intros ->; rewrite (proj2 (Heq q q) eq_refl) in Hx; discriminate|].
    intros (q' & [= <-] & Hn). destruct (eqb x q) eqn:E; [apply Heq in E; contradiction|reflexivity].
  - split; [discriminate|]. intros (q & H & _). discriminate.
Qed.
Lemma should_skip_spec : forall f e, (forall l uid n x, e = EGame l uid n x -> 0 <= uid <= 255) ->
  event_skip f e = true <->
  match e with
  | EGame _ uid _ _ => exists q, fi_player f = Some q /\ uid <> q
  | ETracker _ (TUnitDied x) => exists q, fi_player f = Some q /\ ud_killer_player x <> Some q
  | ETracker _ x =>
      (exists q c, fi_player f = Some q /\ controlling_player x = Some c /\ c <> q) \/
      (exists s c, fi_unit f = Some s /\ named_unit x = Some c /\ c <> s) \/
      (exists y, x = TPlayerStats y) /\ fi_stats f = false
  end.
Proof.
  intros f e Hu. destruct e as [l x|l uid n x]; cbn [event_skip].
  2: { rewrite (differs_spec _ Z.eqb Z.eqb_eq). unfold as_u8. rewrite Z.mod_small by (specialize (Hu _ _ _ _ eq_refl); lia). reflexivity. }
  assert (P : forall c, differs Z.eqb (fi_player f) c = true <-> exists q, fi_player f = Some q /\ c <> q) by (intros; apply differs_spec, Z.eqb_eq).
  assert (U : forall c, differs String.eqb (fi_unit f) c = true <-> exists q, fi_unit f = Some q /\ c <> q) by (intros; apply differs_spec, String.eqb_eq).
  assert (Two : forall a b : bool, (if a then true else b) = true <-> a = true \/ b = true) by (intros [] []; intuition congruence).
  assert (P1 : forall c, (exists q, fi_player f = Some q /\ c <> q) <-> (exists q c', fi_player f = Some q /\ Some c = Some c' /\ c' <> q)) by (intros c; split; [intros (q & A & B); exists q, c; auto|intros (q & c' & A & [= <-] & B); eauto]).
  assert (U1 : forall c, (exists q, fi_unit f = Some q /\ c <> q) <-> (exists q c', fi_unit f = Some q /\ Some c = Some c' /\ c' <> q)) by (intros c; split; [intros (q & A & B); exists q, c; auto|intros (q & c' & A & [= <-] & B); eauto]).
  assert (N1 : ~ (exists (q c' : Z), fi_player f = Some q /\ None = Some c' /\ c' <> q)) by (intros (q & c' & _ & A & _); discriminate).
  assert (N2 : ~ (exists (q c' : string), fi_unit f = Some q /\ None = Some c' /\ c' <> q)) by (intros (q & c' & _ & A & _); discriminate).
  destruct x; cbn [tracker_skip controlling_player named_unit].
  3: { destruct (fi_player f) as [q|]; [|split; [discriminate|intros (q & A & _); discriminate]]. rewrite negb_true_iff. split.
    - intros Hq. exists q. split; [reflexivity|]. intros E. rewrite E, Z.eqb_refl in Hq. discriminate.
    - intros (q' & [= <-] & Hn). destruct (ud_killer_player e) as [k|]; [|reflexivity]. apply Z.eqb_neq. congruence. }
  1: { rewrite Two, P, P1, negb_true_iff. split; [intros [A|A]; [left; exact A|right; right; split; [eauto|exact A]]|intros [A|[A|[_ A]]]; [left; exact A|contradiction|right; exact A]]. }
  all: assert (N3 : ~ (exists y, TUnitDone (mk_unit_done 0 0) = TPlayerStats y)) by (intros (y & A); discriminate).
  all: try rewrite Two; try rewrite P; try rewrite U; try rewrite P1; try rewrite U1.
  all: split; [|intros [A|[A|[[y A] _]]]; try discriminate; try contradiction; try (left; assumption); try (right; assumption); assumption].
  all: try discriminate; try (intros [A|A]; [left; exact A|right; left; exact A]); try (intros A; left; exact A); try (intros A; right; left; exact A).
Qed.

(** What a filter lets through. *)
Lemma let_through_iff : forall f i, let_through f (Some i) = true <->
  (forall l e, it_event i = ETracker l e -> (forall a, fi_min f = Some a -> a <= l) /\ (forall b, fi_max f = Some b -> l <= b)) /\
  event_skip f (it_event i) = false.
Proof.
  intros f i. unfold let_through, skip_event. destruct (it_event i) as [l e|l u n e].
  - destruct (fi_min f) as [a|], (fi_max f) as [b|]; cbn [orb];
      repeat match goal with |- context [?x <? ?y] => destruct (Z.ltb_spec x y) end; cbn [orb negb];
      rewrite ?Bool.negb_true_iff;
      (split; [intros H1; try discriminate; (split; [intros l' e' [= <- <-]; split; intros z [= <-]; lia|exact H1])
              |intros [H1 H2]; try exact H2; exfalso; destruct (H1 l e eq_refl) as [A B]; try specialize (A _ eq_refl); try specialize (B _ eq_refl); lia]).
  - rewrite Bool.negb_true_iff. split; [intros H1; split; [intros l' e' [=]|exact H1]|intros [_ H1]; exact H1].
Qed.
