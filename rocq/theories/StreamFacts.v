From Verif Require Import Base Stream.
#[local] Open Scope Z_scope.

Section StreamFacts.
  Context {C X E : Type}.
  Variable at_end : C -> bool.
  Variable size : C -> nat.
  Variable parse : C -> outcome (C * (Z * X)).
  Variable convert : X -> outcome E.
  Variable good : C -> Prop.
  Hypothesis good_step : forall c c' d x, good c -> parse c = Ok (c', (d, x)) -> good c' /\ (size c' < size c)%nat.
  Hypothesis parse_supported : forall c, parse c <> Err EUnsupported.

  Notation next_fuel := (next_fuel at_end parse convert).
  Notation get_next_event := (get_next_event at_end size parse convert).
  Notation batch_fuel := (batch_fuel at_end parse convert).
  Notation read_batch := (read_batch at_end size parse convert).
  Notation calls := (calls at_end size parse convert).
  Notation holds := (holds at_end parse).
  Notation outputs := (outputs convert).
  Notation converted := (converted convert).

  Lemma next_fuel_enough : forall f f' s, good (fst s) -> (size (fst s) < f)%nat -> (size (fst s) < f')%nat -> next_fuel f s = next_fuel f' s.
  Proof.
    induction f as [|f IH]; intros f' [c l] Hg Hf Hf'; [lia|]. destruct f' as [|f']; [lia|]. cbn [Stream.next_fuel fst] in *.
    destruct (at_end c); [reflexivity|]. unfold read_versioned. cbn [fst snd]. destruct (parse c) as [[c' [d x]]|e|] eqn:Ep; try reflexivity.
    - destruct (good_step _ _ _ _ Hg Ep) as [Hg' Hs]. destruct (convert x) as [e|[]|]; try reflexivity. apply IH; cbn [fst]; [exact Hg'|lia|lia].
    - destruct e; try reflexivity. destruct (parse_supported c Ep).
  Qed.
  Lemma next_unfold : forall c l, good c -> get_next_event (c, l) =
    if at_end c then Ok (None, (c, l))
    else match parse c with
         | Ok (c', (d, x)) =>
             match convert x with
             | Ok e => Ok (Some (l + d, e), (c', l + d))
             | Err EUnsupported => get_next_event (c', l + d)
             | Err _ => Ok (None, (c', l + d))
             | Panic => Panic
             end
         | Err _ => Ok (None, (c, l))
         | Panic => Panic
         end.
  Proof.
    intros c l Hg. unfold Stream.get_next_event at 1. cbn [Stream.next_fuel fst]. destruct (at_end c) eqn:Ee; [reflexivity|]. unfold read_versioned. cbn [fst snd].
    destruct (parse c) as [[c' [d x]]|e|] eqn:Ep; try reflexivity.
    - destruct (good_step _ _ _ _ Hg Ep) as [Hg' Hs]. destruct (convert x) as [e|[]|]; try reflexivity.
      unfold Stream.get_next_event. apply next_fuel_enough; cbn [fst]; [exact Hg'|lia|lia].
    - destruct e; try reflexivity. destruct (parse_supported c Ep).
  Qed.

  (** Every call returns (or panics): the inner loop ends. *)
  Lemma next_returns_n : forall n c l, (size c <= n)%nat -> good c -> forall e, get_next_event (c, l) <> Err e.
  Proof.
    induction n as [|n IH]; intros c l Hn Hg e Hr; rewrite (next_unfold _ _ Hg) in Hr; destruct (at_end c); try discriminate;
    destruct (parse c) as [[c' [d x]]|e'|] eqn:Ep; try discriminate; destruct (good_step _ _ _ _ Hg Ep) as [Hg' Hs]; [lia|].
    destruct (convert x) as [e'|[]|]; try discriminate. eapply IH; [|exact Hg'|exact Hr]. lia.
  Qed.
  Lemma next_returns : forall c l, good c -> forall e, get_next_event (c, l) <> Err e.
  Proof. intros c l. apply (next_returns_n (size c)). lia. Qed.

  (** Every event is consumed at most once: the rest shrinks whenever an event comes out. *)
  Lemma next_progress_n : forall n c l r s', (size c <= n)%nat -> good c -> get_next_event (c, l) = Ok (r, s') ->
    good (fst s') /\ (size (fst s') <= size c)%nat /\ (r <> None -> (size (fst s') < size c)%nat).
  Proof.
    induction n as [|n IH]; intros c l r s' Hn Hg Hr; rewrite (next_unfold _ _ Hg) in Hr.
    all: destruct (at_end c); [injection Hr as <- <-; cbn [fst]; split; [exact Hg|split; [lia|congruence]]|].
    all: destruct (parse c) as [[c' [d x]]|e'|] eqn:Ep; try discriminate; [|injection Hr as <- <-; cbn [fst]; split; [exact Hg|split; [lia|congruence]]].
    all: destruct (good_step _ _ _ _ Hg Ep) as [Hg' Hs].
    1: lia.
    destruct (convert x) as [e'|[]|]; try discriminate;
      try (injection Hr as <- <-; cbn [fst]; split; [exact Hg'|split; [lia|intros; lia]]).
    destruct (IH c' (l + d) r s' ltac:(lia) Hg' Hr) as (H1 & H2 & H3). split; [exact H1|]. split; [lia|]. intros; lia.
  Qed.
  Lemma next_progress : forall c l r s', good c -> get_next_event (c, l) = Ok (r, s') ->
    good (fst s') /\ (size (fst s') <= size c)%nat /\ (r <> None -> (size (fst s') < size c)%nat).
  Proof. intros c l r s'. apply (next_progress_n (size c)). lia. Qed.

  (** ** What successive calls return *)
  Definition stops (r : C) : Prop := at_end r = true \/ exists e, parse r = Err e.

  Lemma calls_end : forall n r l, good r -> stops r -> calls n (r, l) = Ok (repeat None n).
  Proof.
    induction n as [|n IH]; intros r l Hg Hs; [reflexivity|]. cbn [Stream.calls repeat].
    assert (E1 : get_next_event (r, l) = Ok (None, (r, l))).
    { rewrite (next_unfold _ _ Hg). destruct (at_end r) eqn:Ee; [reflexivity|]. destruct Hs as [Hs|[e Hs]]; [congruence|]. now rewrite Hs. }
    rewrite E1. cbn [obind]. rewrite (IH r l Hg Hs). reflexivity.
  Qed.
  Lemma firstn_repeat : forall A (a : A) n k, (n <= k)%nat -> firstn n (repeat a k) = repeat a n.
  Proof. induction n as [|n IH]; intros [|k] Hk; try lia; try reflexivity. cbn [repeat firstn]. rewrite IH by lia. reflexivity. Qed.
  Lemma firstn_app_repeat : forall A (a : A) l n k, (n <= k)%nat -> firstn n (l ++ repeat a k) = firstn n (l ++ repeat a n).
  Proof. induction l as [|b l IH]; intros n k Hk; cbn [app]; [rewrite !firstn_repeat by lia; reflexivity|]. destruct n as [|n]; [reflexivity|].
    cbn [firstn]. f_equal. rewrite (IH n k), (IH n (S n)) by lia. reflexivity. Qed.

  Lemma calls_outputs : forall c evs r, holds c evs r -> good c -> stops r -> (forall x, convert x <> Panic) ->
    forall n l, calls n (c, l) = Ok (firstn n (outputs (cumulate l evs) ++ repeat None n)).
  Proof.
    intros c evs r Hh. induction Hh as [c|c c' r d x evs He Hp Hh IH]; intros Hg Hs Hc n l.
    - cbn [cumulate Stream.outputs flat_map app]. rewrite firstn_repeat by lia. now apply calls_end.
    - destruct (good_step _ _ _ _ Hg Hp) as [Hg' _]. destruct n as [|n]; [reflexivity|].
      cbn [Stream.calls cumulate]. unfold Stream.outputs. cbn [flat_map fst snd]. fold (outputs (cumulate (l + d) evs)).
      rewrite (next_unfold _ _ Hg), He, Hp. specialize (IH Hg' Hs Hc).
      destruct (convert x) as [e|e|] eqn:Ec.
      + cbn [obind]. rewrite IH. cbn [obind app firstn]. rewrite <- (firstn_app_repeat _ None _ n (S n)) by lia. reflexivity.
      + destruct e; cbn [obind]; try (rewrite IH; cbn [obind app firstn]; rewrite <- (firstn_app_repeat _ None _ n (S n)) by lia; reflexivity).
        specialize (IH (S n) (l + d)). cbn [Stream.calls] in IH. rewrite IH. reflexivity.
      + destruct (Hc x Ec).
  Qed.

  Definition conv_or_unsupported (evs : list (Z * X)) : Prop :=
    Forall (fun ev => (exists e, convert (snd ev) = Ok e) \/ convert (snd ev) = Err EUnsupported) evs.
  Lemma cumulate_conv : forall evs l, conv_or_unsupported evs -> conv_or_unsupported (cumulate l evs).
  Proof. induction evs as [|[d x] evs IH]; intros l Hf; cbn [cumulate]; [constructor|]. inversion Hf; subst. constructor; [assumption|now apply IH]. Qed.
  Lemma outputs_converted : forall evs, conv_or_unsupported evs -> outputs evs = map Some (converted evs).
  Proof.
    induction 1 as [|[d x] evs Hx _ IH]; [reflexivity|]. unfold Stream.outputs, Stream.converted in *. cbn [flat_map fst snd] in *.
    rewrite map_app, IH. f_equal. destruct Hx as [[e ->]| ->]; reflexivity.
  Qed.

  (** ** Batch *)
  Lemma batch_fuel_enough : forall f f' c, good c -> (size c < f)%nat -> (size c < f')%nat -> batch_fuel f c = batch_fuel f' c.
  Proof.
    induction f as [|f IH]; intros f' c Hg Hf Hf'; [lia|]. destruct f' as [|f']; [lia|]. cbn [Stream.batch_fuel].
    destruct (parse c) as [[c' [d x]]|e|] eqn:Ep; try reflexivity. cbn [obind].
    destruct (good_step _ _ _ _ Hg Ep) as [Hg' Hs]. destruct (convert x); try reflexivity; cbn [obind]; (destruct (at_end c'); [reflexivity|]); rewrite (IH f' c') by (assumption || lia); reflexivity.
  Qed.
  Lemma batch_unfold : forall c, good c -> read_batch c =
    (do (c', (d, x)) <- parse c;
     do here <- match convert x with Ok e => Ok [(d, e)] | Err _ => Ok [] | Panic => Panic end;
     if at_end c' then Ok here else do more <- read_batch c'; Ok (here ++ more)).
  Proof.
    intros c Hg. unfold Stream.read_batch at 1. cbn [Stream.batch_fuel]. destruct (parse c) as [[c' [d x]]|e|] eqn:Ep; try reflexivity. cbn [obind].
    destruct (good_step _ _ _ _ Hg Ep) as [Hg' Hs]. destruct (convert x); try reflexivity; cbn [obind]; (destruct (at_end c'); [reflexivity|]);
    unfold Stream.read_batch; rewrite (batch_fuel_enough (size c) (S (size c'))) by (assumption || lia); reflexivity.
  Qed.
  Lemma batch_converted : forall c evs r, holds c evs r -> good c -> at_end r = true -> at_end c = false -> (forall x, convert x <> Panic) ->
    read_batch c = Ok (converted evs).
  Proof.
    intros c evs r Hh. induction Hh as [c|c c' r d x evs He Hp Hh IH]; intros Hg Hr Hc Hnp; [congruence|].
    destruct (good_step _ _ _ _ Hg Hp) as [Hg' _].
    rewrite (batch_unfold c Hg), Hp. cbn [obind]. unfold Stream.converted. cbn [flat_map fst snd]. fold (converted evs).
    assert (Hx : match convert x with Ok e => Ok [(d, e)] | Err _ => Ok [] | Panic => Panic end
      = Ok (match convert x with Ok e => [(d, e)] | _ => [] end)). { destruct (convert x) eqn:Ec; try reflexivity. destruct (Hnp x Ec). }
    rewrite Hx. cbn [obind]. destruct (at_end c') eqn:Ee.
    - inversion Hh as [|? ? ? ? ? ? He' ? ?]; subst; [|congruence]. cbn [Stream.converted flat_map]. rewrite app_nil_r. reflexivity.
    - rewrite (IH Hg' Hr eq_refl Hnp). reflexivity.
  Qed.
  (** A batch that succeeds has read a stream to its end. *)
  Lemma batch_holds_n : forall n c l, (size c <= n)%nat -> good c -> at_end c = false -> read_batch c = Ok l -> exists evs r, holds c evs r /\ at_end r = true /\ l = converted evs.
  Proof.
    induction n as [|n IH]; intros c l Hn Hg Hc E1; rewrite (batch_unfold c Hg) in E1; apply obind_ok in E1 as ([c' [d x]] & Ep & E1);
    destruct (good_step _ _ _ _ Hg Ep) as [Hg' Hs]; [lia|]. apply obind_ok in E1 as (here & Eh & E1).
    assert (Hh : here = match convert x with Ok e => [(d, e)] | _ => [] end) by (destruct (convert x); congruence).
    destruct (at_end c') eqn:Ee.
    - injection E1 as <-. exists [(d, x)], c'. split; [econstructor; [exact Hc|exact Ep|constructor]|]. split; [exact Ee|].
      unfold Stream.converted. cbn [flat_map fst snd]. rewrite app_nil_r. exact Hh.
    - apply obind_ok in E1 as (more & Em & E1). injection E1 as <-. destruct (IH c' more ltac:(lia) Hg' Ee Em) as (evs & r & H1 & H2 & ->).
      exists ((d, x) :: evs), r. split; [econstructor; eassumption|]. split; [exact H2|]. rewrite Hh. reflexivity.
  Qed.
  Lemma batch_holds : forall c l, good c -> at_end c = false -> read_batch c = Ok l -> exists evs r, holds c evs r /\ at_end r = true /\ l = converted evs.
  Proof. intros c l. apply (batch_holds_n (size c)). lia. Qed.

  (** A stream holds at most one list of events up to a point where it stops. *)
  Lemma holds_fun : forall c evs r, holds c evs r -> stops r -> forall evs' r', holds c evs' r' -> stops r' -> evs = evs' /\ r = r'.
  Proof.
    intros c evs r Hh. induction Hh as [c|c c' r d x evs He Hp Hh IH]; intros Hs evs' r' Hh' Hs'; inversion Hh'; subst; auto.
    - destruct Hs as [Hs|[e Hs]]; congruence.
    - destruct Hs' as [Hs'|[e Hs']]; congruence.
    - assert (En : (c', (d, x)) = (c'0, (d0, x0))) by congruence. injection En as <- <- <-.
      match goal with Hx : holds c' _ r' |- _ => destruct (IH Hs _ _ Hx Hs') as [-> ->] end. auto.
  Qed.
  (** Every stream is cut up that way, unless the parser panics. *)
  Lemma holds_total_n : forall n c, (size c <= n)%nat -> good c -> (forall c', good c' -> parse c' <> Panic) -> exists evs r, holds c evs r /\ stops r.
  Proof.
    induction n as [|n IH]; intros c Hn Hg Hp.
    all: destruct (at_end c) eqn:Ee; [exists [], c; split; [constructor|now left]|].
    all: destruct (parse c) as [[c' [d x]]|e|] eqn:Ep; [|exists [], c; split; [constructor|right; eauto]|destruct (Hp c Hg Ep)].
    all: destruct (good_step _ _ _ _ Hg Ep) as [Hg' Hs].
    1: lia.
    destruct (IH c' ltac:(lia) Hg' Hp) as (evs & r & H1 & H2). exists ((d, x) :: evs), r. split; [econstructor; eassumption|exact H2].
  Qed.
  Lemma holds_total : forall c, good c -> (forall c', good c' -> parse c' <> Panic) -> exists evs r, holds c evs r /\ stops r.
  Proof. intros c. apply (holds_total_n (size c)). lia. Qed.
End StreamFacts.
