(** * The order of the users in memory and the merged iterator *)
From Verif Require Import Base F32 Tags Events Maps Balance Lobby Convert Stream Iterators Dispatch State StateFacts StateSpec StateSteps StateProofs StateMore Merge MergeSpec MergeFacts MergeStreams HashOrder.
From Coq Require Import Permutation.
#[local] Open Scope Z_scope.
#[local] Open Scope list_scope.

(** The setups a tracker sector announces follow [own]: each player id is given
    to one user. *)
Definition one_user_sector (mc : machine) (p : proto) (sector : list Z) (own : Z -> Z) : Prop :=
  forall n rs gl x u, tracker_calls (mc_build mc) p n (tracker_start sector) = Ok rs -> In (Some (gl, TPlayerSetup x)) rs ->
    se_user_id x = Some u -> own (se_player_id x) = u.

Section Lift.
  Variable mc : machine.
  Variable p : proto.
  Variable own : Z -> Z.
  Definition owned_item (x : option (Z * tracker_event)) : Prop := match x with Some (gl, TPlayerSetup y) => owned own y | _ => True end.
  Definition owned_from (s : tracker_state) : Prop := forall n rs, tracker_calls (mc_build mc) p n s = Ok rs -> Forall owned_item rs.
  Lemma owned_next : forall s x s', owned_from s -> tracker_next (mc_build mc) p s = Ok (x, s') -> owned_item x /\ owned_from s'.
  Proof.
    intros s x s' Ho E. split.
    - specialize (Ho 1%nat [x]). assert (Hf : Forall owned_item [x]); [|now inversion Hf]. apply Ho. unfold tracker_calls. cbn [calls].
      unfold tracker_next in E. rewrite E. reflexivity.
    - intros n rs En. specialize (Ho (S n) (x :: rs)). assert (Hf : Forall owned_item (x :: rs)); [|now inversion Hf]. apply Ho. unfold tracker_calls. cbn [calls].
      unfold tracker_next in E. rewrite E. cbn [obind]. unfold tracker_calls in En. rewrite En. reflexivity.
  Qed.
  (** Two iterators that differ in the order of the users only. *)
  Record twins (it it' : merged) : Prop := {
    tw_state : alike own (mg_state it) (mg_state it'); tw_tracker : mg_tracker it' = mg_tracker it; tw_game : mg_game it' = mg_game it;
    tw_next_tracker : mg_next_tracker it' = mg_next_tracker it; tw_next_game : mg_next_game it' = mg_next_game it; tw_filters : mg_filters it' = mg_filters it;
    tw_owned : owned_from (mg_tracker it); tw_item : owned_item (mg_next_tracker it) }.
  Definition agree1 (x y : outcome merged) : Prop :=
    match x, y with Ok s, Ok s' => twins s s' | Err e, Err e' => e' = e | Panic, Panic => True | _, _ => False end.
  Definition agree2 {B} (x y : outcome (B * merged)) : Prop :=
    match x, y with Ok (b, s), Ok (b', s') => b' = b /\ twins s s' | Err e, Err e' => e' = e | Panic, Panic => True | _, _ => False end.
  Lemma tw_fill_tracker : forall it it', twins it it' -> agree1 (fill_tracker mc p it) (fill_tracker mc p it').
  Proof.
    intros it it' [A B C D E F G H]. unfold fill_tracker. rewrite B, C, D, E, F. destruct (mg_next_tracker it) as [t|] eqn:En.
    - cbn [agree1]. constructor; rewrite ?En; congruence || assumption.
    - destruct (tracker_next _ _ _) as [[x s]|e|] eqn:Et; cbn [obind agree1]; [|reflexivity|exact Logic.I].
      destruct (owned_next _ _ _ G Et) as [O1 O2]. constructor; cbn; auto.
  Qed.
  Lemma tw_names : forall it it', twins it it' -> forall u, player_names (mg_state it') u = player_names (mg_state it) u.
  Proof. intros it it' H u. unfold player_names. rewrite (al_get own _ _ (tw_state _ _ H)). reflexivity. Qed.
  Lemma tw_fill_game : forall it it', twins it it' -> agree1 (fill_game mc p it) (fill_game mc p it').
  Proof.
    intros it it' T. pose proof (tw_names _ _ T) as Hn. destruct T as [A B C D E F G H]. unfold fill_game. rewrite B, C, D, E, F. destruct (mg_next_game it) as [t|] eqn:En.
    - cbn [agree1]. constructor; rewrite ?En; congruence || assumption.
    - rewrite (game_next_ext _ _ _ (player_names (mg_state it)) _ Hn).
      destruct (game_next _ _ _ _) as [[x s]|e|] eqn:Et; cbn [obind agree1]; [|reflexivity|exact Logic.I]. constructor; cbn; auto.
  Qed.
  Definition owned_some (e : option sc2_event) : Prop := match e with Some e => owned_event own e | None => True end.
  Lemma tw_pick : forall it it', twins it it' -> fst (pick it') = fst (pick it) /\ twins (snd (pick it)) (snd (pick it')) /\ owned_some (fst (pick it)).
  Proof.
    intros it it' [A B C D E F G H]. unfold pick. rewrite D, E. destruct (mg_next_tracker it) as [[gl t]|] eqn:Ht.
    - assert (Ho : owned_event own (tracker_item (gl, t))) by (cbn; destruct t; try exact Logic.I; exact H).
      destruct (mg_next_game it) as [g|] eqn:Hg; [destruct (tracker_first _ _)|]; cbn [fst snd owned_some]; (split; [reflexivity|]; split; [|exact Ho || exact Logic.I]);
        constructor; cbn; rewrite ?Ht; auto; congruence.
    - destruct (mg_next_game it) as [g|] eqn:Hg; cbn [fst snd owned_some]; (split; [reflexivity|]; split; [|exact Logic.I]); constructor; cbn; rewrite ?Ht; auto; congruence.
  Qed.
  Lemma tw_advance : forall it it', twins it it' ->
    match advance mc p it, advance mc p it' with
    | Ok (e, s), Ok (e', s') => e' = e /\ twins s s' /\ owned_some e
    | Err e, Err e' => e' = e | Panic, Panic => True | _, _ => False end.
  Proof.
    intros it it' T. unfold advance. pose proof (tw_fill_tracker _ _ T) as A.
    destruct (fill_tracker mc p it) as [i1|e|], (fill_tracker mc p it') as [i2|e'|]; cbn [agree1] in A; try contradiction; cbn [obind]; auto.
    pose proof (tw_fill_game _ _ A) as B.
    destruct (fill_game mc p i1) as [j1|e|], (fill_game mc p i2) as [j2|e'|]; cbn [agree1] in B; try contradiction; cbn [obind]; auto.
    destruct (tw_pick _ _ B) as (P1 & P2 & P3). destruct (pick j1) as [e1 k1], (pick j2) as [e2 k2]. cbn [fst snd] in *. auto.
  Qed.
  Lemma tw_fuel : forall f it it', twins it it' -> agree2 (merge_fuel mc p f it) (merge_fuel mc p f it').
  Proof.
    induction f as [|f IH]; intros it it' T; cbn [merge_fuel]; [reflexivity|]. unfold round. pose proof (tw_advance _ _ T) as A.
    destruct (advance mc p it) as [[e1 i1]|e|], (advance mc p it') as [[e2 i2]|e'|]; try contradiction; cbn [obind]; auto.
    destruct A as (-> & T1 & Ho). destruct e1 as [e1|]; [|split; [reflexivity|exact T1]]. cbn [owned_some] in Ho.
    pose proof (al_step own mc _ _ e1 (tw_state _ _ T1) Ho) as S1.
    destruct (handle_transition mc (mg_state i1) e1) as [[s1 x1]|e|], (handle_transition mc (mg_state i2) e1) as [[s2 x2]|e'|]; cbn [agree] in S1; try contradiction; cbn [obind]; auto.
    destruct S1 as [S1 ->]. assert (T2 : twins (with_state s1 i1) (with_state s2 i2)) by (destruct T1; constructor; cbn; auto).
    cbv zeta. rewrite (tw_filters _ _ T2). destruct (mg_filters (with_state s1 i1)) as [fl|]; [|split; [reflexivity|exact T2]].
    destruct (skip_event fl (it_event x1)); [apply IH, T2|].
    assert (T3 : twins (with_filters (Some (decrease_allowed fl)) (with_state s1 i1)) (with_filters (Some (decrease_allowed fl)) (with_state s2 i2))) by (destruct T2; constructor; cbn in *; auto).
    destruct (max_reached (decrease_allowed fl)); split; auto.
  Qed.
  Lemma tw_next : forall it it', twins it it' -> agree2 (merge_next mc p it) (merge_next mc p it').
  Proof.
    intros it it' T. unfold merge_next. replace (left_over it') with (left_over it); [apply tw_fuel, T|].
    unfold left_over. rewrite (tw_tracker _ _ T), (tw_game _ _ T), (tw_next_tracker _ _ T), (tw_next_game _ _ T). reflexivity.
  Qed.
  Lemma tw_calls : forall n it it', twins it it' -> agree2 (merge_calls mc p n it) (merge_calls mc p n it').
  Proof.
    induction n as [|n IH]; intros it it' T; cbn [merge_calls]; [split; [reflexivity|exact T]|].
    pose proof (tw_next _ _ T) as A.
    destruct (merge_next mc p it) as [[r1 i1]|e|], (merge_next mc p it') as [[r2 i2]|e'|]; cbn [agree2] in A; try contradiction; cbn [obind]; auto.
    destruct A as [-> T1]. pose proof (IH _ _ T1) as B.
    destruct (merge_calls mc p n i1) as [[rs1 j1]|e|], (merge_calls mc p n i2) as [[rs2 j2]|e'|]; cbn [agree2] in B; try contradiction; cbn [obind]; auto.
    destruct B as [-> T2]. split; [reflexivity|exact T2].
  Qed.
End Lift.
Lemma merged_order : forall mc p init d b st st' t g f own n, starts init d b st -> starts init d b st' -> one_user_sector mc p t own ->
  match merge_calls mc p n (merge_start st t g f), merge_calls mc p n (merge_start st' t g f) with
  | Ok (rs, it), Ok (rs', it') => rs' = rs /\ same_view (mg_state it) (mg_state it')
  | Err e, Err e' => e' = e
  | Panic, Panic => True
  | _, _ => False
  end.
Proof.
  intros mc p init d b st st' t g f own n H H' Ho.
  assert (T : twins mc p own (merge_start st t g f) (merge_start st' t g f)).
  { constructor; try reflexivity; [exact (starts_alike own _ _ _ _ _ H H')|].
    intros k rs Ek. apply Forall_forall. intros [[gl []]|] Hx; cbn; try exact Logic.I. intros u Eu. eapply Ho; eauto. }
  pose proof (tw_calls mc p own n _ _ T) as A.
  destruct (merge_calls mc p n (merge_start st t g f)) as [[rs it]|e|], (merge_calls mc p n (merge_start st' t g f)) as [[rs' it']|e'|]; cbn [agree2] in A; try contradiction; auto.
  destruct A as [-> T1]. split; [reflexivity|]. eapply alike_view, (tw_state _ _ _ _ _ T1).
Qed.
