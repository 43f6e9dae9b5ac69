(** * The merged iterator over two streams of answers *)
From Verif Require Import Base F32 F32Facts Tags Events Maps Lobby Balance BitSpec BitPacked BitProofs Convert Stream StreamFacts Iterators Dispatch IteratorFacts IteratorStreams State StateFacts StateSpec StateSteps StateProofs StateMore Merge MergeSpec MergeFacts.
#[local] Open Scope Z_scope.
#[local] Open Scope list_scope.

Section Answers.
  Context {C X E : Type}.
  Variable at_end : C -> bool.
  Variable size : C -> nat.
  Variable parse : C -> outcome (C * (Z * X)).
  Variable convert : X -> outcome E.
  Definition will_answer (s : sstate) (l : list (option (Z * E))) : Prop :=
    forall n, calls at_end size parse convert n s = Ok (firstn n (l ++ repeat None n)).
  Lemma will_answer_step : forall s l, will_answer s l -> exists s', get_next_event at_end size parse convert s = Ok (hd None l, s') /\ will_answer s' (tl l).
  Proof.
    intros s l Hl. pose proof (Hl 1%nat) as H1. cbn [calls] in H1. apply obind_ok in H1 as ([r s'] & E1 & H1). cbn [obind] in H1.
    assert (Er : r = hd None l) by (destruct l; cbn in H1; injection H1 as H1; exact H1). subst r. exists s'. split; [exact E1|]. intros n.
    specialize (Hl (S n)). cbn [calls] in Hl. rewrite E1 in Hl. cbn [obind] in Hl. destruct (calls at_end size parse convert n s') as [rs| |]; cbn [obind] in Hl; try discriminate.
    injection Hl as Hl. f_equal. destruct l as [|a l]; cbn in Hl; injection Hl as Hl; rewrite Hl; cbn [tl app]; [reflexivity|].
    change (None :: repeat None n) with (@repeat (option (Z * E)) None (S n)). rewrite (firstn_app_repeat _ None l n (S n)) by lia. reflexivity.
  Qed.
End Answers.
Lemma game_convert_ext : forall n1 n2 x, (forall u, n1 u = n2 u) -> game_convert n1 x = game_convert n2 x.
Proof. intros n1 n2 x Hn. unfold game_convert. rewrite Hn. reflexivity. Qed.
Lemma next_fuel_ext : forall (C X E : Type) at_end (parse : C -> outcome (C * (Z * X))) (c1 c2 : X -> outcome E), (forall x, c1 x = c2 x) ->
  forall f s, next_fuel at_end parse c1 f s = next_fuel at_end parse c2 f s.
Proof.
  intros C X E at_end parse c1 c2 Hc. induction f as [|f IH]; intros s; cbn [next_fuel]; [reflexivity|]. destruct (at_end (fst s)); [reflexivity|].
  unfold read_versioned. destruct (parse (fst s)) as [[c' [d x]]|e|]; [rewrite Hc; destruct (c2 x) as [e|[]|]; try reflexivity; apply IH| |reflexivity].
  destruct e; try reflexivity. apply IH.
Qed.
Lemma game_next_ext : forall m p n1 n2 s, (forall u, n1 u = n2 u) -> game_next m p n1 s = game_next m p n2 s.
Proof. intros m p n1 n2 s Hn. unfold game_next, get_next_event. apply next_fuel_ext. intros x. apply game_convert_ext, Hn. Qed.

(** ** The order in which two streams of answers are merged *)
Fixpoint schedule (ta : list (option (Z * tracker_event))) : list (Z * game_item) -> list (option sc2_event) :=
  fix go (ga : list (Z * game_item)) : list (option sc2_event) :=
    match ta, ga with
    | Some t :: ta', g :: ga' =>
        if tracker_first (fst t) (fst g) then Some (tracker_item t) :: schedule ta' ga
        else Some (game_item_event g) :: go ga'
    | None :: ta', g :: ga' => Some (game_item_event g) :: schedule ta' ga'
    | Some t :: ta', [] => Some (tracker_item t) :: schedule ta' []
    | None :: ta', [] => None :: schedule ta' []
    | [], g :: ga' => Some (game_item_event g) :: go ga'
    | [], [] => []
    end.

Section Merged.
  Variable mc : machine.
  Variable p : proto.
  Notation build := (mc_build mc).
  Definition tracker_will (s : tracker_state) (l : list (option (Z * tracker_event))) : Prop := forall n, tracker_calls build p n s = Ok (firstn n (l ++ repeat None n)).
  Definition game_will (names : Z -> option string) (s : game_state) (l : list (Z * game_item)) : Prop := forall n, game_calls build p names n s = Ok (firstn n (map Some l ++ repeat None n)).
  Definition holds_tracker (it : merged) (ta : list (option (Z * tracker_event))) : Prop :=
    match mg_next_tracker it with Some t => exists ta', ta = Some t :: ta' /\ tracker_will (mg_tracker it) ta' | None => tracker_will (mg_tracker it) ta end.
  Definition holds_game (names : Z -> option string) (it : merged) (ga : list (Z * game_item)) : Prop :=
    match mg_next_game it with Some g => exists ga', ga = g :: ga' /\ game_will names (mg_game it) ga' | None => game_will names (mg_game it) ga end.
  (** The iterator holds the events [l], in this order. *)
  Definition scheduled (names : Z -> option string) (it : merged) (l : list (option sc2_event)) : Prop :=
    (forall u, player_names (mg_state it) u = names u) /\
    exists ta ga, holds_tracker it ta /\ holds_game names it ga /\ schedule ta ga = l.

  Lemma fill_tracker_will : forall it ta, holds_tracker it ta -> exists it', fill_tracker mc p it = Ok it' /\ mg_next_tracker it' = hd None ta /\
    (mg_state it' = mg_state it /\ mg_game it' = mg_game it /\ mg_next_game it' = mg_next_game it /\ mg_filters it' = mg_filters it) /\ tracker_will (mg_tracker it') (tl ta).
  Proof.
    intros it ta Ht. unfold holds_tracker, fill_tracker in *. destruct (mg_next_tracker it) as [t|] eqn:E.
    - destruct Ht as (ta' & -> & Ht). exists it. split; [reflexivity|]. cbn [hd tl]. split; [exact E|]. split; [auto|]. exact Ht.
    - destruct (will_answer_step _ _ _ _ _ _ Ht) as (s' & E1 & H2). unfold tracker_next. rewrite E1. cbn [obind]. eexists. split; [reflexivity|]. cbn. split; [reflexivity|]. split; [auto|]. exact H2.
  Qed.
  Lemma fill_game_will : forall names it ga, (forall u, player_names (mg_state it) u = names u) -> holds_game names it ga -> exists it', fill_game mc p it = Ok it' /\ mg_next_game it' = hd None (map Some ga) /\
    (mg_state it' = mg_state it /\ mg_tracker it' = mg_tracker it /\ mg_next_tracker it' = mg_next_tracker it /\ mg_filters it' = mg_filters it) /\ game_will names (mg_game it') (tl ga).
  Proof.
    intros names it ga Hn Ht. unfold holds_game, fill_game in *. destruct (mg_next_game it) as [t|] eqn:E.
    - destruct Ht as (ga' & -> & Ht). exists it. split; [reflexivity|]. cbn [map hd tl]. split; [exact E|]. split; [auto|]. exact Ht.
    - destruct (will_answer_step _ _ _ _ _ _ Ht) as (s' & E1 & H2). rewrite (game_next_ext _ _ _ names) by exact Hn. unfold game_next. rewrite E1. cbn [obind]. eexists. split; [reflexivity|]. cbn.
      split; [reflexivity|]. split; [auto|]. destruct ga; exact H2.
  Qed.
  (** One [advance] takes the head. *)
  Lemma advance_scheduled : forall names it l, scheduled names it l -> exists it', advance mc p it = Ok (hd None l, it') /\ scheduled names it' (tl l).
  Proof.
    intros names it l (Hn & ta & ga & Ht & Hg & <-).
    destruct (fill_tracker_will _ _ Ht) as (it1 & E1 & T1 & (S1 & G1 & N1 & F1) & W1).
    assert (Hg1 : holds_game names it1 ga) by (unfold holds_game in *; rewrite N1, G1; exact Hg).
    assert (Hn1 : forall u, player_names (mg_state it1) u = names u) by (rewrite S1; exact Hn).
    destruct (fill_game_will _ _ _ Hn1 Hg1) as (it2 & E2 & G2 & (S2 & T2 & N2 & F2) & W2).
    unfold advance. rewrite E1. cbn [obind]. rewrite E2. cbn [obind]. rewrite T1 in N2. rewrite <- T2 in W1. clear T1 G1 N1 Ht Hg E1 E2 Hg1.
    assert (Hn2 : forall u, player_names (mg_state it2) u = names u) by (rewrite S2; exact Hn1).
    unfold pick. rewrite N2, G2. destruct ta as [|[t|] ta]; destruct ga as [|g ga]; cbn [hd map tl schedule] in *.
    - eexists. split; [reflexivity|]. split; [exact Hn2|]. exists [], []. unfold holds_tracker, holds_game. rewrite N2, G2. auto.
    - eexists. split; [reflexivity|]. split; [exact Hn2|]. exists [], ga. unfold holds_tracker, holds_game. cbn. rewrite N2. auto.
    - eexists. split; [reflexivity|]. split; [exact Hn2|]. exists ta, []. unfold holds_tracker, holds_game. cbn. rewrite G2. auto.
    - destruct (tracker_first (fst t) (fst g)).
      + eexists. split; [reflexivity|]. split; [exact Hn2|]. exists ta, (g :: ga). unfold holds_tracker, holds_game. cbn [mg_next_tracker take_tracker mg_next_game]. rewrite G2. split; [exact W1|]. split; [eauto|reflexivity].
      + eexists. split; [reflexivity|]. split; [exact Hn2|]. exists (Some t :: ta), ga. unfold holds_tracker, holds_game. cbn [mg_next_tracker take_game mg_next_game]. rewrite N2. split; [eauto|]. split; [exact W2|reflexivity].
    - eexists. split; [reflexivity|]. split; [exact Hn2|]. exists ta, []. unfold holds_tracker, holds_game. rewrite N2, G2. auto.
    - eexists. split; [reflexivity|]. split; [exact Hn2|]. exists ta, ga. unfold holds_tracker, holds_game. cbn. rewrite N2. auto.
  Qed.

  (** ** Without filters *)
  Notation play := (play mc).
  Lemma play_run : forall evs st, play st (map Some evs) = (do (st, is) <- run mc st evs; Ok (st, map Some is)).
  Proof.
    induction evs as [|e evs IH]; intros st; [reflexivity|]. cbn [map play run]. destruct (handle_transition mc st e) as [[st1 i]| |]; cbn [obind]; try reflexivity.
    rewrite IH. destruct (run mc st1 evs) as [[st2 is]| |]; reflexivity.
  Qed.
  Lemma calls_scheduled : forall names n it l, good it -> wf (mg_state it) -> mg_filters it = None -> scheduled names it l ->
    answers_of (merge_calls mc p n it) = do x <- play (mg_state it) (firstn n l); Ok (snd x ++ repeat None (n - length l)).
  Proof.
    intros names. induction n as [|n IH]; intros it l Hg Hw Hf Hs; [reflexivity|]. cbn [merge_calls]. rewrite (merge_unfold mc p it Hg). unfold round.
    destruct (advance_scheduled _ _ _ Hs) as (it1 & Ea & Hs1). rewrite Ea. cbn [obind]. destruct (advance_facts mc p _ _ _ Hg Ea) as (Hg1 & _ & S1 & F1).
    rewrite Hf in F1. destruct l as [|[e|] l]; cbn [hd tl firstn play length Nat.sub] in *.
    - cbn [obind]. unfold answers_of. assert (IH' := IH it1 [] Hg1 ltac:(rewrite S1; exact Hw) F1 Hs1). unfold answers_of in IH'. rewrite firstn_nil in IH'. cbn [play obind snd app length] in IH'.
      rewrite Nat.sub_0_r in IH'. destruct (merge_calls mc p n it1) as [[rs it2]| |]; cbn [obind fst] in *; try discriminate. injection IH' as ->. reflexivity.
    - rewrite S1. destruct (handle_transition mc (mg_state it) e) as [[st i]| |] eqn:Eh; cbn [obind]; try reflexivity. cbv zeta. change (mg_filters (with_state st it1)) with (mg_filters it1). rewrite F1. cbn [obind].
      assert (Hs2 : scheduled names (with_state st it1) l). { destruct Hs1 as (Hn & Hs1). split; [|exact Hs1]. cbn. intros u. rewrite (step_names mc _ _ _ _ Hw Eh u), <- S1. apply Hn. }
      assert (IH' := IH (with_state st it1) l Hg1 (step_wf _ _ _ _ _ Hw Eh) F1 Hs2). cbn [with_state mg_state] in IH'. unfold answers_of in *.
      destruct (merge_calls mc p n (with_state st it1)) as [[rs it2]| |]; destruct (play st (firstn n l)) as [[st2 is]| |]; cbn [obind fst snd] in *; try discriminate; try (injection IH' as ->); try reflexivity; try (injection IH' as <-); reflexivity.
    - cbn [obind]. unfold answers_of. assert (IH' := IH it1 l Hg1 ltac:(rewrite S1; exact Hw) F1 Hs1). unfold answers_of in IH'. rewrite S1 in IH'.
      destruct (merge_calls mc p n it1) as [[rs it2]| |]; destruct (play (mg_state it) (firstn n l)) as [[st2 is]| |]; cbn [obind fst snd] in *; try discriminate; try (injection IH' as ->); try reflexivity; try (injection IH' as <-); reflexivity.
  Qed.

  (** ** Interleaving *)
  Lemma schedule_interleaving : forall ta ga, interleaving (map tracker_item (present ta)) (map game_item_event ga) (present (schedule ta ga)).
  Proof.
    induction ta as [|t ta IHt]; induction ga as [|g ga IHg].
    - constructor.
    - cbn. constructor. exact IHg.
    - destruct t as [t|]; cbn; [constructor; apply (IHt [])|apply (IHt [])].
    - destruct t as [t|]; cbn [schedule].
      + destruct (tracker_first (fst t) (fst g)); cbn; [apply il_left; apply (IHt (g :: ga))|]. apply il_right. exact IHg.
      + cbn. apply il_right. apply IHt.
  Qed.
  Lemma present_map : forall A (l : list A), present (map Some l) = l.
  Proof. intros A l. unfold present. induction l as [|a l IH]; cbn; [reflexivity|]. rewrite IH. reflexivity. Qed.
  Lemma schedule_some : forall ts ga, schedule (map Some ts) ga = map Some (present (schedule (map Some ts) ga)).
  Proof.
    induction ts as [|t ts IHt]; induction ga as [|g ga IHg]; cbn [map schedule]; try reflexivity.
    - cbn. f_equal. exact IHg.
    - cbn. f_equal. apply (IHt []).
    - destruct (tracker_first (fst t) (fst g)); cbn; f_equal; [apply IHt|]. exact IHg.
  Qed.
  (** ** Order *)
  Definition exact_loop (l : Z) : Prop := f32_to_i64 (f32_mul (f32_of_int l) f32_one) = l.
  Lemma exact_loop_24 : forall l, 0 <= l <= 2 ^ 24 -> exact_loop l.
  Proof. intros l Hl. unfold exact_loop. rewrite f32_mul_one by (apply f32_of_int_valid24; lia). apply f32_int_round_trip. lia. Qed.
  Lemma schedule_Forall : forall (P : Z -> Prop) ta ga, Forall (fun t => P (fst t)) (present ta) -> Forall (fun g => P (fst g)) ga ->
    Forall (fun e => P (event_loop e)) (present (schedule ta ga)).
  Proof.
    intros P ta ga Ht Hg. assert (I := schedule_interleaving ta ga). remember (map tracker_item (present ta)) as a eqn:Ea. remember (map game_item_event ga) as b eqn:Eb.
    assert (Fa : Forall (fun e => P (event_loop e)) a) by (subst a; apply Forall_map; exact Ht).
    assert (Fb : Forall (fun e => P (event_loop e)) b) by (subst b; apply Forall_map; exact Hg).
    clear Ea Eb Ht Hg. induction I; [constructor| |]; [inversion Fa|inversion Fb]; subst; constructor; auto.
  Qed.
  Lemma schedule_sorted : forall ts ga, in_order (map fst ts) -> in_order (map fst ga) -> Forall (fun g => exact_loop (fst g)) ga ->
    in_order (map event_loop (present (schedule (map Some ts) ga))).
  Proof.
    unfold in_order. induction ts as [|t ts IHt]; induction ga as [|g ga IHg]; intros St Sg Hx.
    - constructor.
    - cbn. inversion Sg as [|? ? Sg' Fg]; inversion Hx; subst. constructor; [apply IHg; assumption|].
      apply Forall_map. apply (schedule_Forall (fun l => fst g <= l) []); [constructor|]. rewrite Forall_map in Fg. exact Fg.
    - cbn. inversion St as [|? ? St' Ft]; subst. constructor; [apply (IHt []); auto|]. apply Forall_map. apply (schedule_Forall (fun l => fst t <= l)); [|constructor].
      rewrite present_map. rewrite Forall_map in Ft. exact Ft.
    - cbn [map schedule]. inversion St as [|? ? St' Ft]; inversion Sg as [|? ? Sg' Fg]; inversion Hx as [|? ? Hx1 Hx2]; subst. rewrite Forall_map in Ft, Fg.
      unfold tracker_first. rewrite Hx1. destruct (Z.ltb_spec (fst t) (fst g)) as [Hl|Hl].
      + change (present (Some (tracker_item t) :: schedule (map Some ts) (g :: ga))) with (tracker_item t :: present (schedule (map Some ts) (g :: ga))). cbn [map]. constructor; [apply IHt; assumption|].
        apply Forall_map. apply (schedule_Forall (fun l => fst t <= l)); [rewrite present_map; exact Ft|]. constructor; [lia|]. eapply Forall_impl; [|exact Fg]. cbn. intros. lia.
      + change (present (Some (game_item_event g) :: schedule (map Some (t :: ts)) ga)) with (game_item_event g :: present (schedule (map Some (t :: ts)) ga)). cbn [map]. constructor; [apply IHg; assumption|].
        apply Forall_map. change (Forall (fun e => fst g <= event_loop e) (present (schedule (map Some (t :: ts)) ga))). apply (schedule_Forall (fun l => fst g <= l)); [|exact Fg]. rewrite (present_map _ (t :: ts)). constructor; [lia|]. eapply Forall_impl; [|exact Ft]. cbn. intros. lia.
  Qed.
End Merged.
