(** * How many events a sector can hold *)
From Verif Require Import Base Types BitSpec BitPacked Stream Iterators Dispatch IteratorFacts IteratorStreams.
#[local] Open Scope nat_scope.

(** The events among the answers of an iterator. *)
Fixpoint given {A} (l : list (option A)) : nat :=
  match l with [] => 0 | Some _ :: l' => S (given l') | None :: l' => given l' end.

Section Stream.
  Context {C X E : Type} (at_end : C -> bool) (size : C -> nat) (parse : C -> outcome (C * (Z * X))) (convert : X -> outcome E) (ok : C -> Prop).
  Hypothesis Hparse : forall c c' d x, ok c -> parse c = Ok (c', (d, x)) -> ok c' /\ size c' + 2 <= size c.

  Lemma batch_count : forall f c evs, ok c -> batch_fuel at_end parse convert f c = Ok evs -> 2 * length evs <= size c.
  Proof.
    induction f as [|f IH]; intros c evs Hc Hr; cbn [batch_fuel] in Hr; [discriminate|].
    apply obind_ok in Hr. destruct Hr as ([c' [d x]] & E1 & Hr). destruct (Hparse _ _ _ _ Hc E1) as [Hc' Hs].
    apply obind_ok in Hr. destruct Hr as (here & E2 & Hr).
    assert (Hh : length here <= 1) by (destruct (convert x); try discriminate; injection E2 as <-; cbn; lia).
    destruct (at_end c'); [injection Hr as <-; lia|].
    apply obind_ok in Hr. destruct Hr as (more & E3 & Hr). injection Hr as <-. specialize (IH _ _ Hc' E3). rewrite app_length. lia.
  Qed.

  Lemma next_count : forall f s r s', ok (fst s) -> next_fuel at_end parse convert f s = Ok (r, s') ->
    ok (fst s') /\ size (fst s') + 2 * given [r] <= size (fst s).
  Proof.
    induction f as [|f IH]; intros s r s' Hs Hr; cbn [next_fuel] in Hr; destruct (at_end (fst s)); try discriminate.
    1, 2: injection Hr as <- <-; cbn [given]; split; [exact Hs|lia].
    unfold read_versioned in Hr. destruct (parse (fst s)) as [[c' [d x]]|e|] eqn:Ep.
    - destruct (Hparse _ _ _ _ Hs Ep) as [Hc' Hl]. destruct (convert x) as [y|e|]; [| |discriminate].
      + injection Hr as <- <-. cbn [fst given]. split; [exact Hc'|lia].
      + destruct e; try (injection Hr as <- <-; cbn [fst given]; split; [exact Hc'|lia]).
        destruct (IH (c', (snd s + d)%Z) r s' Hc' Hr) as [I1 I2]. cbn [fst] in I2. split; [exact I1|lia].
    - destruct e; try (injection Hr as <- <-; cbn [given]; split; [exact Hs|lia]). destruct (IH _ _ _ Hs Hr) as [I1 I2]. split; [exact I1|lia].
    - discriminate.
  Qed.

  Lemma calls_count : forall n s rs, ok (fst s) -> calls at_end size parse convert n s = Ok rs -> 2 * given rs <= size (fst s).
  Proof.
    induction n as [|n IH]; intros s rs Hs Hr; cbn [calls] in Hr; [injection Hr as <-; cbn; lia|].
    apply obind_ok in Hr. destruct Hr as ([r s'] & E1 & Hr). apply obind_ok in Hr. destruct Hr as (rs' & E2 & Hr). injection Hr as <-.
    destruct (next_count _ _ _ _ Hs E1) as [I1 I2]. specialize (IH _ _ I1 E2). destruct r; cbn [given] in *; lia.
  Qed.
End Stream.

Lemma tracker_batch_count : forall m p sector evs, bytes_ok sector -> read_tracker_events m p sector = Ok evs -> 2 * length evs <= length sector.
Proof.
  intros m p sector evs Hb Hr. refine (batch_count bytes_end (@length Z) _ _ bytes_ok _ _ _ _ Hb Hr).
  intros c c' d x Hc E. destruct (pair_step _ _ _ _ _ _ Hc E) as (H1 & _ & H2 & _). split; [exact H1|lia].
Qed.
Lemma triplet_dec : forall m p t, t = game_type p \/ t = message_type p -> forall c c' d x, (cursor_ok c /\ snd c = 0) ->
  parse_event_triplet m t c = Ok (c', (d, x)) -> (cursor_ok c' /\ snd c' = 0) /\ cursor_size c' + 2 <= cursor_size c.
Proof. intros m p t Ht c c' d [u v] [Hc Hz] Hr. destruct (user_progress m p t c c' d u v Ht Hc Hz Hr) as (H1 & H2 & _ & H3). split; [split; assumption|exact H3]. Qed.

Lemma start_ok : forall sector, bytes_ok sector -> cursor_ok (sector, 0) /\ snd (sector, 0) = 0.
Proof. intros sector Hb. split; [split; [exact Hb|split; [cbn; lia|cbn; congruence]]|reflexivity]. Qed.

Lemma game_batch_count : forall m p sector evs, bytes_ok sector -> read_game_events m p sector = Ok evs -> 2 * length evs <= length sector.
Proof.
  intros m p sector evs Hb Hr. refine (batch_count cursor_end cursor_size _ _ _ (triplet_dec m p _ (or_introl eq_refl)) _ _ _ _ Hr). apply start_ok; exact Hb.
Qed.
Lemma message_batch_count : forall m p sector evs, bytes_ok sector -> read_message_events m p sector = Ok evs -> 2 * length evs <= length sector.
Proof.
  intros m p sector evs Hb Hr. refine (batch_count cursor_end cursor_size _ _ _ (triplet_dec m p _ (or_intror eq_refl)) _ _ _ _ Hr). apply start_ok; exact Hb.
Qed.
Lemma tracker_calls_count : forall m p n sector rs, bytes_ok sector -> tracker_calls m p n (tracker_start sector) = Ok rs -> 2 * given rs <= length sector.
Proof.
  intros m p n sector rs Hb Hr. refine (calls_count bytes_end (@length Z) _ _ bytes_ok _ _ _ _ _ Hr); [|exact Hb].
  intros c c' d x Hc E. destruct (pair_step _ _ _ _ _ _ Hc E) as (H1 & _ & H2 & _). split; [exact H1|lia].
Qed.
Lemma game_calls_count : forall m p names n sector rs, bytes_ok sector -> game_calls m p names n (game_start sector) = Ok rs -> 2 * given rs <= length sector.
Proof.
  intros m p names n sector rs Hb Hr. refine (calls_count cursor_end cursor_size _ _ _ (triplet_dec m p _ (or_introl eq_refl)) _ _ _ _ Hr). apply start_ok; exact Hb.
Qed.
