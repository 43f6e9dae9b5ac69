(** * Sectors of which the end is cut off *)
From Verif Require Import Base Types Versioned BitSpec BitPacked BitProofs BitInterp BitFormat BitTotal BitFacts ByteTypes BitTypes Convert Stream StreamFacts Iterators Dispatch IteratorFacts IteratorStreams StreamSpec ExtendFacts.
#[local] Open Scope Z_scope.

(** The same place in a longer input. *)
Definition longer (b : list Z) (c : cursor) : cursor := (fst c ++ b, snd c).

Lemma longer_ok : forall b c, bytes_ok b -> cursor_ok c -> cursor_ok (longer b c).
Proof.
  intros b [a k] Hb (H1 & H2 & H3). cbn [longer fst snd] in *. split; [apply Forall_app; split; assumption|]. split; [exact H2|].
  cbn [fst snd longer]. intros Hk E. apply app_eq_nil in E. exact (H3 Hk (proj1 E)).
Qed.
Lemma cursor_inside : forall c, cursor_ok c -> (snd c <= 8 * length (fst c))%nat.
Proof. intros [a k] (_ & H2 & H3). cbn [fst snd] in *. destruct k; [lia|]. destruct a; [destruct (H3 ltac:(lia)); reflexivity|cbn [length]; lia]. Qed.
Lemma bits_len : forall a, length (flat_map byte_bits a) = (8 * length a)%nat.
Proof. induction a as [|z a IH]; [reflexivity|]. cbn [flat_map]. rewrite app_length, IH. cbn [length byte_bits]. rewrite (eq_refl : length (byte_bits z) = 8%nat). lia. Qed.
Lemma longer_stream : forall b c, cursor_ok c -> stream (longer b c) = stream c ++ flat_map byte_bits b.
Proof.
  intros b c Hc. pose proof (cursor_inside c Hc) as Hi. unfold stream. cbn [longer fst snd]. rewrite flat_map_app, skipn_app, bits_len.
  replace (snd c - 8 * length (fst c))%nat with 0%nat by lia. reflexivity.
Qed.
Lemma longer_advance : forall b c n, cursor_ok c -> (n <= length (stream c))%nat -> advance (longer b c) n = longer b (advance c n).
Proof.
  intros b c n Hc Hn. pose proof (cursor_inside c Hc) as Hi. unfold stream in Hn. rewrite skipn_length, bits_len in Hn. unfold advance, longer. cbn [fst snd].
  rewrite skipn_app. replace ((snd c + n) / 8 - length (fst c))%nat with 0%nat; [reflexivity|].
  assert ((snd c + n) / 8 <= length (fst c))%nat; [|lia]. apply Nat.div_le_upper_bound; lia.
Qed.

Lemma bparse_longer : forall m t b c c' v, wf_bty t = true -> bytes_ok b -> cursor_ok c -> bparse m t c = Ok (c', v) -> bparse m t (longer b c) = Ok (longer b c', v).
Proof.
  intros m t b c c' v Hwf Hb Hc Hr. apply (bparse_exact m t Hwf _ _ _ Hc) in Hr. destruct Hr as (bits & rest & Hs & -> & He).
  apply (bparse_exact m t Hwf _ _ _ (longer_ok b c Hb Hc)). exists bits, (rest ++ flat_map byte_bits b). split; [rewrite longer_stream by exact Hc; rewrite Hs, <- app_assoc; reflexivity|].
  split; [|exact He]. symmetry. apply longer_advance; [exact Hc|]. rewrite Hs, app_length. lia.
Qed.
Lemma align_longer : forall b c c', bytes_ok b -> cursor_ok c -> byte_align c = Ok c' -> byte_align (longer b c) = Ok (longer b c').
Proof.
  intros b c c' Hb Hc Hr. rewrite (byte_align_spec c Hc) in Hr. assert (E : advance c ((8 - snd c) mod 8) = c') by congruence. subst c'.
  rewrite (byte_align_spec _ (longer_ok b c Hb Hc)). cbn [longer snd]. f_equal. apply (longer_advance b c); [exact Hc|].
  unfold stream. rewrite skipn_length, bits_len. destruct Hc as (_ & H2 & H3). destruct (snd c) as [|k]; [cbn; lia|].
  rewrite Nat.mod_small by lia. destruct (fst c) eqn:E; [destruct (H3 ltac:(lia)); reflexivity|cbn [length]; lia].
Qed.
Lemma triplet_longer : forall m t b c c' y, wf_bty t = true -> bytes_ok b -> cursor_ok c -> parse_event_triplet m t c = Ok (c', y) ->
  parse_event_triplet m t (longer b c) = Ok (longer b c', y).
Proof.
  intros m t b c c' y Hwf Hb Hc E. unfold parse_event_triplet in *.
  apply obind_ok in E as ([c1 dv] & E1 & E). apply obind_ok in E as ([c2 uv] & E2 & E). apply obind_ok in E as ([c3 ev] & E3 & E).
  apply obind_ok in E as (d' & E4 & E). apply obind_ok in E as (c4 & E5 & E). apply obind_ok in E as (u' & E6 & E). injection E as <- <-.
  destruct (bparse_len _ bp_SVarUint32 _ _ _ eq_refl Hc E1) as (H1 & _ & _).
  destruct (bparse_len _ bp_ReplaySGameUserId _ _ _ eq_refl H1 E2) as (H2 & _ & _).
  destruct (bparse_len _ t _ _ _ Hwf H2 E3) as (H3 & _ & _).
  rewrite (bparse_longer m bp_SVarUint32 b _ _ _ eq_refl Hb Hc E1). cbn [obind].
  rewrite (bparse_longer m bp_ReplaySGameUserId b _ _ _ eq_refl Hb H1 E2). cbn [obind].
  rewrite (bparse_longer m t b _ _ _ Hwf Hb H2 E3). cbn [obind]. rewrite E4. cbn [obind]. rewrite (align_longer b _ _ Hb H3 E5). cbn [obind]. rewrite E6. reflexivity.
Qed.
Lemma pair_local : forall m p, local (parse_event_pair m p).
Proof.
  intros m p a b. unfold parse_event_pair. apply ext_bind; [apply vparse_local|]. intros r d _. apply ext_bind; [apply vparse_local|]. intros r' v _.
  destruct (var_value d); cbn [obind]; [reflexivity|exact Logic.I|reflexivity].
Qed.

Section Cut.
  Context {C X E : Type} (at_end : C -> bool) (size : C -> nat) (parse : C -> outcome (C * (Z * X))) (convert : X -> outcome E) (good : C -> Prop) (add : C -> C).
  Hypothesis good_step : forall c c' d x, good c -> parse c = Ok (c', (d, x)) -> good c' /\ (size c' < size c)%nat.
  Hypothesis parse_supported : forall c, parse c <> Err EUnsupported.
  Hypothesis add_good : forall c, good c -> good (add c).
  Hypothesis add_end : forall c, at_end c = false -> at_end (add c) = false.
  Hypothesis add_parse : forall c c' y, good c -> parse c = Ok (c', y) -> parse (add c) = Ok (add c', y).
  Hypothesis add_panic : forall c, good c -> parse c = Panic -> parse (add c) = Panic.
  Notation next := (get_next_event at_end size parse convert).

  Lemma next_cut_n : forall n c l, (size c <= n)%nat -> good c ->
    (exists r c' l', good c' /\ next (c, l) = Ok (r, (c', l')) /\ next (add c, l) = Ok (r, (add c', l'))) \/
    (exists c' l', good c' /\ stops at_end parse c' /\ next (c, l) = Ok (None, (c', l'))) \/ (next (c, l) = Panic /\ next (add c, l) = Panic).
  Proof.
    induction n as [|n IH]; intros c l Hn Hg; rewrite (next_unfold at_end size parse convert good good_step parse_supported c l Hg),
      (next_unfold at_end size parse convert good good_step parse_supported (add c) l (add_good _ Hg)).
    all: destruct (at_end c) eqn:Ee; [right; left; exists c, l; split; [exact Hg|split; [left; exact Ee|reflexivity]]|]; rewrite (add_end _ Ee).
    all: destruct (parse c) as [[c' [d x]]|e|] eqn:Ep;
      [rewrite (add_parse _ _ _ Hg Ep)|right; left; exists c, l; split; [exact Hg|split; [right; exists e; exact Ep|reflexivity]]|rewrite (add_panic _ Hg Ep); right; right; split; reflexivity].
    all: destruct (good_step _ _ _ _ Hg Ep) as [Hg' Hs]; [try lia].
    destruct (convert x) as [y|e|] eqn:Ec; [left; eexists _, c', _; split; [exact Hg'|split; reflexivity]| |right; right; split; reflexivity].
    destruct e; try (left; eexists _, c', _; split; [exact Hg'|split; reflexivity]).
    apply IH; [lia|exact Hg'].
  Qed.

  Lemma calls_cut : forall n c l answers, good c -> calls at_end size parse convert n (add c, l) = Ok answers ->
    exists k, (k <= n)%nat /\ calls at_end size parse convert n (c, l) = Ok (firstn k answers ++ repeat None (n - k)).
  Proof.
    induction n as [|n IH]; intros c l answers Hg Hr; [exists 0%nat; split; [lia|reflexivity]|]. cbn [calls] in Hr |- *.
    apply obind_ok in Hr. destruct Hr as ([r s'] & E1 & Hr). apply obind_ok in Hr. destruct Hr as (rs & E2 & Hr). injection Hr as <-.
    destruct (next_cut_n (size c) c l (le_n _) Hg) as [(r' & c' & l' & Hg' & N1 & N2)|[(c' & l' & Hg' & Hs & N1)|[_ N2]]].
    - rewrite E1 in N2. assert (Er : r = r') by congruence. assert (Es : s' = (add c', l')) by congruence. subst r s'. clear N2.
      destruct (IH c' l' rs Hg' E2) as (k & Hk & Ek). exists (S k). split; [lia|]. rewrite N1. cbn [obind]. rewrite Ek. cbn [obind firstn app Nat.sub]. reflexivity.
    - exists 0%nat. split; [lia|]. rewrite N1. cbn [obind]. rewrite (calls_end at_end size parse convert good good_step parse_supported n c' l' Hg' Hs). reflexivity.
    - congruence.
  Qed.

  Lemma calls_stay : forall n c l evs, good c -> calls at_end size parse convert n (c, l) = Ok (map Some evs) ->
    calls at_end size parse convert n (add c, l) = Ok (map Some evs).
  Proof.
    induction n as [|n IH]; intros c l evs Hg Hr; [exact Hr|]. cbn [calls] in Hr |- *.
    apply obind_ok in Hr. destruct Hr as ([r s'] & E1 & Hr). apply obind_ok in Hr. destruct Hr as (rs & E2 & Hr).
    destruct evs as [|e evs]; [discriminate|]. cbn [map] in Hr. assert (Hr1 : r = Some e) by congruence. assert (Hr2 : rs = map Some evs) by congruence. subst r rs. clear Hr.
    destruct (next_cut_n (size c) c l (le_n _) Hg) as [(r' & c' & l' & Hg' & N1 & N2)|[(c' & l' & Hg' & Hs & N1)|[N1 _]]]; [|congruence|congruence].
    rewrite E1 in N1. assert (Er : r' = Some e) by congruence. assert (Es : s' = (c', l')) by congruence. subst r' s'. rewrite N2. cbn [obind].
    rewrite (IH c' l' evs Hg' E2). reflexivity.
  Qed.

  Lemma batch_cut_n : forall n c evs, (size c <= n)%nat -> good c -> read_batch at_end size parse convert (add c) = Ok evs ->
    (exists e, read_batch at_end size parse convert c = Err e) \/ exists k, read_batch at_end size parse convert c = Ok (firstn k evs).
  Proof.
    induction n as [|n IH]; intros c evs Hn Hg Hr.
    all: rewrite (batch_unfold at_end size parse convert good good_step c Hg);
      rewrite (batch_unfold at_end size parse convert good good_step (add c) (add_good _ Hg)) in Hr.
    all: destruct (parse c) as [[c' [d x]]|e|] eqn:Ep;
      [rewrite (add_parse _ _ _ Hg Ep) in Hr|left; exists e; reflexivity|rewrite (add_panic _ Hg Ep) in Hr; discriminate].
    all: destruct (good_step _ _ _ _ Hg Ep) as [Hg' Hs]; [try lia].
    cbn [obind] in *. apply obind_ok in Hr. destruct Hr as (here & Eh & Hr). rewrite Eh. cbn [obind].
    destruct (at_end c') eqn:Ee.
    - right. exists (length here). destruct (at_end (add c')); [injection Hr as <-; rewrite firstn_all; reflexivity|].
      apply obind_ok in Hr. destruct Hr as (more & _ & Hr). injection Hr as <-. rewrite firstn_app, Nat.sub_diag, firstn_all, firstn_O, app_nil_r. reflexivity.
    - rewrite (add_end _ Ee) in Hr. apply obind_ok in Hr. destruct Hr as (more & Em & Hr). injection Hr as <-.
      destruct (IH c' more ltac:(lia) Hg' Em) as [[e Ie]|[k Ik]]; [left; exists e; rewrite Ie; reflexivity|].
      right. exists (length here + k)%nat. rewrite Ik. cbn [obind]. rewrite firstn_app_2. reflexivity.
  Qed.
End Cut.

Lemma bytes_longer_end : forall b c, bytes_end c = false -> bytes_end (c ++ b) = false.
Proof. intros b [|z c] H0; [discriminate|reflexivity]. Qed.
Lemma ext_parse : forall m p b c c' y, parse_event_pair m p c = Ok (c', y) -> parse_event_pair m p (c ++ b) = Ok (c' ++ b, y).
Proof. intros m p b c c' y Hr. pose proof (pair_local m p c b) as Q. rewrite Hr in Q. exact Q. Qed.
Lemma ext_panic : forall m p b c, parse_event_pair m p c = Panic -> parse_event_pair m p (c ++ b) = Panic.
Proof. intros m p b c Hr. pose proof (pair_local m p c b) as Q. rewrite Hr in Q. exact Q. Qed.
Lemma app_ok : forall b c, bytes_ok b -> bytes_ok c -> bytes_ok (c ++ b).
Proof. intros b c Hb Hc. apply Forall_app. split; assumption. Qed.

Lemma tracker_calls_cut : forall m p n a b answers, bytes_ok a -> bytes_ok b -> tracker_calls m p n (tracker_start (a ++ b)) = Ok answers ->
  exists k, (k <= n)%nat /\ tracker_calls m p n (tracker_start a) = Ok (firstn k answers ++ repeat None (n - k)).
Proof.
  intros m p n a b answers Ha Hb Hr.
  exact (calls_cut bytes_end (@length Z) (parse_event_pair m p) tracker_from bytes_ok (fun c => c ++ b) (pair_good m p) (pair_nu m p) (fun c => app_ok b c Hb)
    (bytes_longer_end b) (fun c c' y _ => ext_parse m p b c c' y) (fun c _ => ext_panic m p b c) n a 0 answers Ha Hr).
Qed.
Lemma tracker_calls_stay : forall m p n a b evs, bytes_ok a -> bytes_ok b -> tracker_calls m p n (tracker_start a) = Ok (map Some evs) ->
  tracker_calls m p n (tracker_start (a ++ b)) = Ok (map Some evs).
Proof.
  intros m p n a b evs Ha Hb Hr.
  exact (calls_stay bytes_end (@length Z) (parse_event_pair m p) tracker_from bytes_ok (fun c => c ++ b) (pair_good m p) (pair_nu m p) (fun c => app_ok b c Hb)
    (bytes_longer_end b) (fun c c' y _ => ext_parse m p b c c' y) (fun c _ => ext_panic m p b c) n a 0 evs Ha Hr).
Qed.
Lemma tracker_batch_cut : forall m p a b evs, bytes_ok a -> bytes_ok b -> read_tracker_events m p (a ++ b) = Ok evs ->
  (exists e, read_tracker_events m p a = Err e) \/ exists k, read_tracker_events m p a = Ok (firstn k evs).
Proof.
  intros m p a b evs Ha Hb Hr.
  exact (batch_cut_n bytes_end (@length Z) (parse_event_pair m p) tracker_from bytes_ok (fun c => c ++ b) (pair_good m p) (pair_nu m p) (fun c => app_ok b c Hb)
    (bytes_longer_end b) (fun c c' y _ => ext_parse m p b c c' y) (fun c _ => ext_panic m p b c) (length a) a evs (le_n _) Ha Hr).
Qed.

Lemma aligned_longer : forall b c, bytes_ok b -> aligned c -> aligned (longer b c).
Proof. intros b c Hb [Hc Ha]. split; [apply longer_ok; assumption|exact Ha]. Qed.
Lemma cursor_longer_end : forall b c, cursor_end c = false -> cursor_end (longer b c) = false.
Proof. intros b c. exact (bytes_longer_end b (fst c)). Qed.

Lemma game_calls_cut : forall m p names n a b answers, bytes_ok a -> bytes_ok b -> game_calls m p names n (game_start (a ++ b)) = Ok answers ->
  exists k, (k <= n)%nat /\ game_calls m p names n (game_start a) = Ok (firstn k answers ++ repeat None (n - k)).
Proof.
  intros m p names n a b answers Ha Hb Hr.
  exact (calls_cut cursor_end cursor_size (parse_event_triplet m (game_type p)) (game_convert names) aligned (longer b)
    (triplet_good m _ (game_wf p) (game_no p) (game_min p)) (triplet_nu m (game_type p)) (fun c => aligned_longer b c Hb)
    (cursor_longer_end b) (fun c c' y Hc => triplet_longer m _ b c c' y (game_wf p) Hb (proj1 Hc)) (fun c Hc Hp => False_ind _ (triplet_np m _ (game_wf p) (game_no p) c Hc Hp))
    n (a, 0%nat) 0 answers (start_aligned a Ha) Hr).
Qed.
Lemma game_calls_stay : forall m p names n a b evs, bytes_ok a -> bytes_ok b -> game_calls m p names n (game_start a) = Ok (map Some evs) ->
  game_calls m p names n (game_start (a ++ b)) = Ok (map Some evs).
Proof.
  intros m p names n a b evs Ha Hb Hr.
  exact (calls_stay cursor_end cursor_size (parse_event_triplet m (game_type p)) (game_convert names) aligned (longer b)
    (triplet_good m _ (game_wf p) (game_no p) (game_min p)) (triplet_nu m (game_type p)) (fun c => aligned_longer b c Hb)
    (cursor_longer_end b) (fun c c' y Hc => triplet_longer m _ b c c' y (game_wf p) Hb (proj1 Hc)) (fun c Hc Hp => False_ind _ (triplet_np m _ (game_wf p) (game_no p) c Hc Hp))
    n (a, 0%nat) 0 evs (start_aligned a Ha) Hr).
Qed.
Lemma user_batch_cut : forall (E : Type) m t (conv : Z * val -> outcome E) a b evs, wf_bty t = true -> no_overflow t = true -> (2 <= min_bits t)%nat -> bytes_ok a -> bytes_ok b ->
  read_batch cursor_end cursor_size (parse_event_triplet m t) conv (a ++ b, 0%nat) = Ok evs ->
  (exists e, read_batch cursor_end cursor_size (parse_event_triplet m t) conv (a, 0%nat) = Err e) \/
  exists k, read_batch cursor_end cursor_size (parse_event_triplet m t) conv (a, 0%nat) = Ok (firstn k evs).
Proof.
  intros E m t conv a b evs H1 H2 H3 Ha Hb Hr.
  exact (batch_cut_n cursor_end cursor_size (parse_event_triplet m t) conv aligned (longer b)
    (triplet_good m _ H1 H2 H3) (triplet_nu m t) (fun c => aligned_longer b c Hb)
    (cursor_longer_end b) (fun c c' y Hc => triplet_longer m _ b c c' y H1 Hb (proj1 Hc)) (fun c Hc Hp => False_ind _ (triplet_np m _ H1 H2 c Hc Hp))
    (length a) (a, 0%nat) evs (le_n _) (start_aligned a Ha) Hr).
Qed.
Lemma game_batch_cut : forall m p a b evs, bytes_ok a -> bytes_ok b -> read_game_events m p (a ++ b) = Ok evs ->
  (exists e, read_game_events m p a = Err e) \/ exists k, read_game_events m p a = Ok (firstn k evs).
Proof. intros m p a b evs. exact (user_batch_cut _ m _ plain_convert a b evs (game_wf p) (game_no p) (game_min p)). Qed.
Lemma message_batch_cut : forall m p a b evs, bytes_ok a -> bytes_ok b -> read_message_events m p (a ++ b) = Ok evs ->
  (exists e, read_message_events m p a = Err e) \/ exists k, read_message_events m p a = Ok (firstn k evs).
Proof. intros m p a b evs. exact (user_batch_cut _ m _ message_convert a b evs (msg_wf p) (msg_no p) (msg_min p)). Qed.
