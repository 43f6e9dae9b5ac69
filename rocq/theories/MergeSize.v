(** * How many items a merged iterator gives *)
From Verif Require Import Base Types BitSpec BitPacked Stream Iterators Dispatch IteratorFacts IteratorStreams SizeStreams Events State Merge.
#[local] Open Scope nat_scope.

(** What is left in a merged iterator, in bytes; an event held counts for two. *)
Definition stock (it : merged) : nat :=
  length (fst (mg_tracker it)) + cursor_size (fst (mg_game it)) + 2 * pending (mg_next_tracker it) + 2 * pending (mg_next_game it).
Definition sound (it : merged) : Prop := bytes_ok (fst (mg_tracker it)) /\ cursor_ok (fst (mg_game it)) /\ snd (fst (mg_game it)) = 0.

Lemma given_pending : forall A (r : option A), given [r] = pending r.
Proof. intros A [a|]; reflexivity. Qed.
Lemma fill_tracker_stock : forall mc p it it', sound it -> fill_tracker mc p it = Ok it' -> sound it' /\ stock it' <= stock it.
Proof.
  intros mc p it it' (Ht & Hg & Hz) Hf. unfold fill_tracker in Hf. destruct (mg_next_tracker it) as [x|] eqn:E; [injection Hf as <-; split; [split; auto|lia]|].
  apply obind_ok in Hf as ([x s] & Hn & Hf). injection Hf as <-. unfold tracker_next, get_next_event in Hn.
  assert (Hd : forall c c' d y, bytes_ok c -> parse_event_pair (mc_build mc) p c = Ok (c', (d, y)) -> bytes_ok c' /\ length c' + 2 <= length c).
  { intros c c' d y Hc Hp. destruct (pair_step _ _ _ _ _ _ Hc Hp) as (H1 & _ & H2 & _). split; [exact H1|lia]. }
  destruct (next_count bytes_end (@length Z) _ _ bytes_ok Hd _ _ _ _ Ht Hn) as [H1 H2].
  split; [split; [exact H1|split; assumption]|]. rewrite given_pending in H2. unfold stock. cbn [mg_tracker mg_game mg_next_tracker mg_next_game]. rewrite E. cbn [pending]. lia.
Qed.
Lemma fill_game_stock : forall mc p it it', sound it -> fill_game mc p it = Ok it' -> sound it' /\ stock it' <= stock it.
Proof.
  intros mc p it it' (Ht & Hg & Hz) Hf. unfold fill_game in Hf. destruct (mg_next_game it) as [x|] eqn:E; [injection Hf as <-; split; [split; auto|lia]|].
  apply obind_ok in Hf as ([x s] & Hn & Hf). injection Hf as <-. unfold game_next, get_next_event in Hn.
  destruct (next_count cursor_end cursor_size _ _ _ (triplet_dec (mc_build mc) p _ (or_introl eq_refl)) _ _ _ _ (conj Hg Hz) Hn) as [[H1 H1'] H2].
  split; [split; [exact Ht|split; assumption]|]. rewrite given_pending in H2. unfold stock. cbn [mg_tracker mg_game mg_next_tracker mg_next_game]. rewrite E. cbn [pending]. lia.
Qed.
Lemma pick_stock : forall it e it', sound it -> pick it = (e, it') -> sound it' /\ stock it' + 2 * pending e <= stock it.
Proof.
  intros it e it' Hs Hp. unfold pick in Hp. unfold stock.
  destruct (mg_next_tracker it) as [t|] eqn:Et, (mg_next_game it) as [g|] eqn:Eg; [destruct (tracker_first (fst t) (fst g))| | |];
    injection Hp as <- <-; (split; [exact Hs|]); cbn [take_tracker take_game mg_tracker mg_game mg_next_tracker mg_next_game]; rewrite ?Et, ?Eg; cbn [pending]; lia.
Qed.
Lemma fuel_stock : forall mc p f it r it', sound it -> merge_fuel mc p f it = Ok (r, it') -> sound it' /\ stock it' + 2 * pending r <= stock it.
Proof.
  intros mc p. induction f as [|f IH]; intros it r it' Hs Hr; cbn [merge_fuel] in Hr; [discriminate|]. unfold round in Hr.
  apply obind_ok in Hr as ([e it1] & Ha & Hr). unfold Merge.advance in Ha. apply obind_ok in Ha as (ita & Ha1 & Ha). apply obind_ok in Ha as (itb & Hb1 & Ha).
  injection Ha as Ha. destruct (fill_tracker_stock _ _ _ _ Hs Ha1) as [Sa La]. destruct (fill_game_stock _ _ _ _ Sa Hb1) as [Sb Lb]. destruct (pick_stock _ _ _ Sb Ha) as [S1 L1].
  destruct e as [e|]; [|injection Hr as <- <-; split; [exact S1|cbn [pending] in *; lia]]. cbn [pending] in L1. apply obind_ok in Hr as ([st i] & _ & Hr).
  cbn [with_state mg_filters] in Hr. destruct (mg_filters it1) as [fl|]; [|injection Hr as <- <-; split; [exact S1|change (stock (with_state st it1)) with (stock it1); cbn [pending]; lia]].
  destruct (skip_event fl (it_event i)).
  - destruct (IH (with_state st it1) r it' S1 Hr) as [S2 L2]. split; [exact S2|]. change (stock (with_state st it1)) with (stock it1) in L2. lia.
  - cbn [with_filters with_state] in Hr. destruct (max_reached (decrease_allowed fl)); injection Hr as <- <-; (split; [exact S1|]);
      match goal with |- stock ?x + _ <= _ => change (stock x) with (stock it1) end; cbn [pending]; lia.
Qed.
Lemma calls_stock : forall mc p n it rs it', sound it -> merge_calls mc p n it = Ok (rs, it') -> stock it' + 2 * given rs <= stock it.
Proof.
  intros mc p. induction n as [|n IH]; intros it rs it' Hs Hr; cbn [merge_calls] in Hr; [injection Hr as <- <-; cbn; lia|].
  apply obind_ok in Hr as ([r it1] & H1 & Hr). apply obind_ok in Hr as ([rs' it2] & H2 & Hr). injection Hr as <- <-.
  destruct (fuel_stock _ _ _ _ _ _ Hs H1) as [S1 L1]. specialize (IH _ _ _ S1 H2). destruct r; cbn [given pending] in *; lia.
Qed.
Lemma merged_count : forall mc p st t g f n rs it, bytes_ok t -> bytes_ok g -> merge_calls mc p n (merge_start st t g f) = Ok (rs, it) ->
  2 * given rs <= length t + length g.
Proof.
  intros mc p st t g f n rs it Ht Hg Hr. assert (Hs : sound (merge_start st t g f)).
  { split; [exact Ht|]. cbn [merge_start mg_game game_start fst]. apply start_ok, Hg. }
  apply (calls_stock mc p n _ _ _ Hs) in Hr.
  change (stock (merge_start st t g f)) with (length t + length g + 0 + 0) in Hr. lia.
Qed.
