From Coq Require Import Sorted.
From Verif Require Import Base Vlq VlqProofs VlqExact Types BitSpec BitPacked BitProofs BitInterp BitFormat BitExact BitTotal BitFacts Versioned VersionedSpec VersionedProofs ByteTypes ByteFacts VersionedExact BitTypes Dispatch DispatchFacts Utf8 Tags TagFacts Events Convert ConvertSpec Typed ConvertFacts ConvertTracker Stream StreamFacts Iterators IteratorFacts StreamSpec IteratorStreams.
#[local] Open Scope string_scope.
#[local] Open Scope Z_scope.
#[local] Open Scope list_scope.
Section Loops.
  Context {C X E : Type}.
  Variable at_end : C -> bool.
  Variable size : C -> nat.
  Variable parse : C -> outcome (C * (Z * X)).
  Variable convert : X -> outcome E.
  Variable good : C -> Prop.
  Hypothesis step : forall c c' d x, good c -> parse c = Ok (c', (d, x)) -> good c' /\ (size c' + 2 <= size c)%nat /\ 0 <= d < two32.
  Lemma next_loops : forall f c l r c' l', good c -> next_fuel at_end parse convert f (c, l) = Ok (r, (c', l')) ->
    good c' /\ l <= l' /\ 2 * l' + two32 * Z.of_nat (size c') <= 2 * l + two32 * Z.of_nat (size c) /\ (forall z e, r = Some (z, e) -> z = l').
  Proof.
    induction f as [|f IH]; intros c l r c' l' Hg E0; cbn [next_fuel fst] in E0; destruct (at_end c).
    - injection E0 as <- <- <-. repeat split; try assumption; try lia. discriminate.
    - discriminate.
    - injection E0 as <- <- <-. repeat split; try assumption; try lia. discriminate.
    - unfold read_versioned in E0. cbn [fst snd] in E0. destruct (parse c) as [[c1 [d x]]|e|] eqn:Ep.
      + destruct (step _ _ _ _ Hg Ep) as (G1 & S1 & D1). assert (B : two32 * Z.of_nat (size c1) + 2 * two32 <= two32 * Z.of_nat (size c)) by (unfold two32; lia).
        destruct (convert x) as [e|e|]; [|destruct e|discriminate]; try (injection E0 as <- <- <-; repeat split; [exact G1|lia|lia|intros z e' Hz; congruence]).
        destruct (IH _ _ _ _ _ G1 E0) as (I1 & I2 & I3 & I4). repeat split; [exact I1|lia|lia|exact I4].
      + destruct e; try (injection E0 as <- <- <-; repeat split; [exact Hg|lia|lia|intros z e' Hz; congruence]). 
        destruct (IH _ _ _ _ _ Hg E0) as (I1 & I2 & I3 & I4). repeat split; [exact I1|lia|lia|exact I4].
      + discriminate.
  Qed.
  Lemma calls_loops : forall n c l outs, good c -> calls at_end size parse convert n (c, l) = Ok outs ->
    Sorted Z.le (l :: shown_loops outs) /\ Forall (fun z => 2 * z <= 2 * l + two32 * Z.of_nat (size c)) (shown_loops outs).
  Proof.
    induction n as [|n IH]; intros c l outs Hg E0; cbn [calls] in E0; [injection E0 as <-; split; repeat constructor|].
    apply obind_ok in E0 as ([r [c' l']] & E1 & E0). apply obind_ok in E0 as (rs & E2 & E0). injection E0 as <-.
    unfold get_next_event in E1. destruct (next_loops _ _ _ _ _ _ Hg E1) as (G1 & L1 & B1 & R1). destruct (IH _ _ _ G1 E2) as [I1 I2].
    assert (I3 : Forall (fun z => 2 * z <= 2 * l + two32 * Z.of_nat (size c)) (shown_loops rs)) by (eapply Forall_impl; [|exact I2]; cbn beta; intros; lia).
    unfold shown_loops. destruct r as [[z e]|]; cbn [flat_map app]; fold (shown_loops rs).
    - rewrite (R1 _ _ eq_refl). split; [constructor; [exact I1|constructor; exact L1]|constructor; [|exact I3]]. assert (0 <= two32 * Z.of_nat (size c')) by (unfold two32; lia). lia.
    - split; [|exact I3]. apply Sorted_inv in I1 as [I1 I4]. constructor; [exact I1|]. destruct (shown_loops rs); constructor. inversion I4; subst. lia.
  Qed.
  Lemma loops_shown : forall n c outs, good c -> Z.of_nat (size c) < two32 -> calls at_end size parse convert n (c, 0) = Ok outs ->
    Sorted Z.le (shown_loops outs) /\ Forall (fun z => 0 <= z < two63) (shown_loops outs).
  Proof.
    intros n c outs Hg Hs E0. destruct (calls_loops _ _ _ _ Hg E0) as [S1 B1]. split; [exact (proj1 (Sorted_inv S1))|].
    apply Sorted_StronglySorted in S1; [|exact Z.le_trans]. apply StronglySorted_inv in S1 as [_ S1].
    rewrite Forall_forall in *. intros z Hz. specialize (S1 z Hz). specialize (B1 z Hz). cbn beta in B1. unfold two32, two63 in *. lia.
  Qed.
End Loops.
Lemma tracker_loops_shown : forall m p sector n outs, bytes_ok sector -> Z.of_nat (length sector) < two32 ->
  tracker_calls m p n (tracker_start sector) = Ok outs -> Sorted Z.le (shown_loops outs) /\ Forall (fun z => 0 <= z < two63) (shown_loops outs).
Proof.
  intros m p sector n outs Hb Hs E. unfold tracker_calls, tracker_start in E. revert E. apply (loops_shown bytes_end (@length Z) _ _ bytes_ok); [|exact Hb|exact Hs].
  intros c c' d x Hc E. destruct (pair_step _ _ _ _ _ _ Hc E) as (A & _ & B & D & _). auto.
Qed.
Lemma game_loops_shown : forall m p names sector n outs, bytes_ok sector -> Z.of_nat (length sector) < two32 ->
  game_calls m p names n (game_start sector) = Ok outs -> Sorted Z.le (shown_loops outs) /\ Forall (fun z => 0 <= z < two63) (shown_loops outs).
Proof.
  intros m p names sector n outs Hb Hs E. unfold game_calls, game_start in E. revert E. apply (loops_shown cursor_end cursor_size _ _ aligned); [|exact (start_aligned _ Hb)|exact Hs].
  intros c c' d [u v] Hc E. destruct (triplet_step _ _ _ _ _ _ _ (game_wf p) (game_no p) (game_min p) Hc E) as (A & _ & B & D & _). auto.
Qed.
