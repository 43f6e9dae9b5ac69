(** * Facts about the merged iterator *)
From Verif Require Import Base F32 F32Facts Tags Events Maps Lobby Balance BitSpec BitPacked BitProofs Convert Stream StreamFacts Iterators Dispatch IteratorFacts IteratorStreams State StateFacts StateSpec StateSteps StateProofs StateMore Merge MergeSpec.
#[local] Open Scope Z_scope.
#[local] Open Scope list_scope.

(** ** Positions in the two sectors *)
Definition good (it : merged) : Prop := bytes_ok (fst (mg_tracker it)) /\ aligned (fst (mg_game it)).

Section Facts.
  Variable mc : machine.
  Variable p : proto.
  Notation build := (mc_build mc).

  Lemma tracker_step : forall s r s', bytes_ok (fst s) -> tracker_next build p s = Ok (r, s') ->
    bytes_ok (fst s') /\ (length (fst s') + pending r <= length (fst s))%nat.
  Proof.
    intros [l loop] r s' Hl E. destruct (next_progress bytes_end (@length Z) _ tracker_from bytes_ok (fun c c' d x => pair_good build p c c' d x) (pair_nu build p) _ _ _ _ Hl E) as (A & B & C).
    split; [exact A|]. cbn [fst] in *. destruct r as [x|]; cbn [pending]; [|now rewrite Nat.add_0_r]. rewrite Nat.add_1_r. apply C. discriminate.
  Qed.
  Lemma game_step : forall names s r s', aligned (fst s) -> game_next build p names s = Ok (r, s') ->
    aligned (fst s') /\ (cursor_size (fst s') + pending r <= cursor_size (fst s))%nat.
  Proof.
    intros names [c loop] r s' Hl E. pose proof (triplet_good build _ (game_wf p) (game_no p) (game_min p)) as Hg.
    destruct (next_progress cursor_end cursor_size _ (game_convert names) aligned Hg (triplet_nu build _) _ _ _ _ Hl E) as (A & B & C).
    split; [exact A|]. cbn [fst] in *. destruct r as [x|]; cbn [pending]; [|now rewrite Nat.add_0_r]. rewrite Nat.add_1_r. apply C. discriminate.
  Qed.
  Lemma game_never_fails : forall names s, aligned (fst s) -> exists r s', game_next build p names s = Ok (r, s').
  Proof. intros names [c l] Hc. destruct (game_next_returns build p names c l Hc) as (r & s & E & _). eauto. Qed.

  (** One [advance]. *)
  Lemma advance_facts : forall it r it', good it -> advance mc p it = Ok (r, it') ->
    good it' /\ (left_over it' + pending r <= left_over it)%nat /\ mg_state it' = mg_state it /\ mg_filters it' = mg_filters it.
  Proof.
    intros it r it' [Ht Hg] E. unfold advance in E. apply obind_ok in E as (it1 & E1 & E). apply obind_ok in E as (it2 & E2 & E).
    assert (F1 : good it1 /\ (left_over it1 <= left_over it)%nat /\ mg_state it1 = mg_state it /\ mg_filters it1 = mg_filters it).
    { unfold fill_tracker in E1. destruct (mg_next_tracker it) eqn:En; [injection E1 as <-; split; [split; assumption|auto]|].
      apply obind_ok in E1 as ([x s] & Ex & E1). injection E1 as <-. destruct (tracker_step _ _ _ Ht Ex) as [A B].
      unfold good, left_over. cbn. rewrite En. cbn [pending]. repeat split; try assumption; try apply Hg. lia. }
    destruct F1 as ([Ht1 Hg1] & L1 & S1 & G1).
    assert (F2 : good it2 /\ (left_over it2 <= left_over it1)%nat /\ mg_state it2 = mg_state it1 /\ mg_filters it2 = mg_filters it1).
    { unfold fill_game in E2. destruct (mg_next_game it1) eqn:En; [injection E2 as <-; split; [split; assumption|auto]|].
      apply obind_ok in E2 as ([x s] & Ex & E2). injection E2 as <-. destruct (game_step _ _ _ _ Hg1 Ex) as [A B].
      unfold good, left_over. cbn. rewrite En. cbn [pending]. repeat split; try assumption; try apply A. lia. }
    destruct F2 as (Hg2 & L2 & S2 & G2). injection E as E. unfold pick in E.
    assert (F3 : good it' /\ (left_over it' + pending r <= left_over it2)%nat /\ mg_state it' = mg_state it2 /\ mg_filters it' = mg_filters it2).
    { unfold left_over. destruct (mg_next_tracker it2) as [t|] eqn:T; destruct (mg_next_game it2) as [g|] eqn:G; [destruct (tracker_first _ _)| | |];
      injection E as <- <-; unfold take_tracker, take_game, good; cbn; rewrite ?T, ?G; cbn [pending]; (split; [exact Hg2|]); repeat split; lia. }
    destruct F3 as (Hg3 & L3 & S3 & G3). split; [exact Hg3|]. split; [lia|]. split; congruence.
  Qed.
  Lemma good_state : forall it st, good it -> good (with_state st it). Proof. auto. Qed.
  Lemma good_filters : forall it f, good it -> good (with_filters f it). Proof. auto. Qed.

  Lemma merge_fuel_enough : forall f f' it, good it -> (left_over it < f)%nat -> (left_over it < f')%nat -> merge_fuel mc p f it = merge_fuel mc p f' it.
  Proof.
    induction f as [|f IH]; intros f' it Hg Hf Hf'; [lia|]. destruct f' as [|f']; [lia|]. cbn [merge_fuel]. unfold round.
    destruct (advance mc p it) as [[r it1]| |] eqn:E; cbn [obind]; try reflexivity. destruct (advance_facts _ _ _ Hg E) as (Hg1 & Hl & _).
    destruct r as [e|]; [|reflexivity]. cbn [pending] in Hl. destruct (handle_transition mc (mg_state it1) e) as [[st i]| |]; cbn [obind]; try reflexivity.
    cbv zeta. destruct (mg_filters (with_state st it1)) as [fi|]; [|reflexivity]. destruct (skip_event fi (it_event i)); [|reflexivity].
    apply IH; [exact Hg1|unfold left_over in *; cbn; lia|unfold left_over in *; cbn; lia].
  Qed.
  (** The fuel is enough: [next] is its own loop. *)
  Lemma merge_unfold : forall it, good it -> merge_next mc p it = round mc p (merge_next mc p) it.
  Proof.
    intros it Hg. unfold merge_next at 1. cbn [merge_fuel]. unfold round.
    destruct (advance mc p it) as [[r it1]| |] eqn:E; cbn [obind]; try reflexivity. destruct (advance_facts _ _ _ Hg E) as (Hg1 & Hl & _).
    destruct r as [e|]; [|reflexivity]. cbn [pending] in Hl. destruct (handle_transition mc (mg_state it1) e) as [[st i]| |]; cbn [obind]; try reflexivity.
    cbv zeta. destruct (mg_filters (with_state st it1)) as [fi|]; [|reflexivity]. destruct (skip_event fi (it_event i)); [|reflexivity].
    unfold merge_next. apply merge_fuel_enough; [exact Hg1|unfold left_over in *; cbn; lia|unfold left_over in *; cbn; lia].
  Qed.
  (** Induction over the rounds of one call. *)
  Lemma merge_next_ind : forall (P : merged -> option item -> merged -> Prop),
    (forall it it1, good it -> advance mc p it = Ok (None, it1) -> P it None it1) ->
    (forall it e it1 st i, good it -> advance mc p it = Ok (Some e, it1) -> handle_transition mc (mg_state it) e = Ok (st, i) -> mg_filters it = None ->
       P it (Some i) (with_state st it1)) ->
    (forall it e it1 st i f, good it -> advance mc p it = Ok (Some e, it1) -> handle_transition mc (mg_state it) e = Ok (st, i) -> mg_filters it = Some f ->
       skip_event f (it_event i) = false ->
       P it (if max_reached (decrease_allowed f) then None else Some i) (with_filters (Some (decrease_allowed f)) (with_state st it1))) ->
    (forall it e it1 st i f r it2, good it -> advance mc p it = Ok (Some e, it1) -> handle_transition mc (mg_state it) e = Ok (st, i) -> mg_filters it = Some f ->
       skip_event f (it_event i) = true -> P (with_state st it1) r it2 -> P it r it2) ->
    forall it r it', good it -> merge_next mc p it = Ok (r, it') -> P it r it'.
  Proof.
    intros P H1 H2 H3 H4. enough (Hn : forall n it r it', (left_over it <= n)%nat -> good it -> merge_next mc p it = Ok (r, it') -> P it r it') by (intros it r it'; apply (Hn (left_over it)); lia).
    induction n as [|n IH]; intros it r it' Hn Hg E; rewrite (merge_unfold _ Hg) in E; unfold round in E; apply obind_ok in E as ([o it1] & Ea & E);
    destruct (advance_facts _ _ _ Hg Ea) as (Hg1 & Hl & Hs & Hf); (destruct o as [e|]; [|injection E as <- <-; eauto]); cbn [pending] in Hl; [lia|].
    apply obind_ok in E as ([st i] & Eh & E). rewrite Hs in Eh. cbv zeta in E. change (mg_filters (with_state st it1)) with (mg_filters it1) in E. rewrite Hf in E.
    destruct (mg_filters it) as [f|] eqn:Ef; [|injection E as <- <-; eauto].
    destruct (skip_event f (it_event i)) eqn:Es.
    - eapply H4; eauto. apply IH; [unfold left_over in *; cbn; lia|exact Hg1|exact E].
    - specialize (H3 it e it1 st i f Hg Ea Eh Ef Es). destruct (max_reached (decrease_allowed f)); injection E as <- <-; exact H3.
  Qed.
  Lemma next_good : forall it r it', good it -> merge_next mc p it = Ok (r, it') -> good it'.
  Proof.
    apply (merge_next_ind (fun _ _ it' => good it')); try (intros; edestruct advance_facts as (G & _); eauto; fail). auto.
  Qed.
  Lemma calls_good : forall n it rs it', good it -> merge_calls mc p n it = Ok (rs, it') -> good it'.
  Proof.
    induction n as [|n IH]; intros it rs it' Hg E; cbn [merge_calls] in E; [injection E as <- <-; exact Hg|].
    apply obind_ok in E as ([r it1] & E1 & E). apply obind_ok in E as ([rs1 it2] & E2 & E). injection E as <- <-. eapply IH; [|exact E2]. eapply next_good; eauto.
  Qed.
  Lemma reached_good : forall it, reached mc p it -> good it.
  Proof.
    intros it (init & d & b & st & t & g & f & k & ans & _ & Ht & Hg & E). eapply calls_good; [|exact E]. split; [exact Ht|]. apply start_aligned, Hg.
  Qed.

  (** ** Names never change *)
  Lemma step_names : forall st e st' i, wf st -> handle_transition mc st e = Ok (st', i) -> forall u, player_names st' u = player_names st u.
  Proof.
    intros st e st' i Hw Hh u. unfold player_names. change (mget u (st_users st')) with (user_of st' u). change (mget u (st_users st)) with (user_of st u).
    destruct e as [gl e|gl uid n e].
    - apply transition_tracker in Hh as (e' & h & Hh & _). apply tracker_users in Hh; [|exact Hw].
      destruct e; try (unfold user_of; rewrite Hh; reflexivity).
      + destruct Hh as [[K G] _]. specialize (G u). destruct (user_of st u) as [us|] eqn:E1.
        * destruct (user_of st' u) as [us'|] eqn:E2; [|contradiction]. destruct G as (G & _). rewrite G. reflexivity.
        * destruct (user_of st' u); [contradiction|reflexivity].
      + subst st'. rewrite setup_user. destruct (se_user_id e) as [v|]; [|reflexivity]. destruct (v =? u); [|reflexivity].
        destruct (user_of st u); reflexivity.
    - destruct (Z.eq_dec u uid) as [->|Hu]; [|erewrite game_isolation by eauto; reflexivity].
      apply transition_game in Hh as (e' & h & Hh & _). apply game_frame in Hh as (_ & _ & _ & _ & Hh).
      destruct (user_of st uid) as [us|] eqn:E.
      + destruct Hh as (us2 & E2 & El & _). rewrite E2, El. reflexivity.
      + unfold user_of in *. rewrite Hh, E. reflexivity.
  Qed.
End Facts.
