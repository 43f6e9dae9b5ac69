(** * Panics and errors of [parse_vlq_int], exactly *)
From Verif Require Import Base VlqSpec Vlq VlqProofs VlqExact WrapSpec WrapFacts.

(** Ten continuation bytes and one more byte. *)
Definition overlong (l : list Z) : Prop :=
  exists p b q, l = p ++ b :: q /\ length p = 10%nat /\ Forall (fun x => 128 <= x) p.
(** A number of at most ten bytes with a minus sign whose magnitude is 2^63 modulo 2^64. *)
Definition minus_two63 (l : list Z) : Prop :=
  exists g q, l = g ++ q /\ vlq_terminated g /\ (length g <= 10)%nat /\ Z.odd (hd 0 g) = true /\ as_i64 (vlq_magnitude g) = - two63.
Definition unfinished (l : list Z) : Prop := Forall (fun x => 128 <= x) l.

Lemma unfinished_not_terminated : forall g r, vlq_terminated g -> ~ unfinished (g ++ r).
Proof.
  intros g r Ht U. destruct (vlq_term_prefix g Ht) as (p & b & -> & _). unfold unfinished in U.
  assert (b < 128).
  { clear U r. induction p as [|x p IH]; [exact Ht|]. apply IH. apply vlq_terminated_inv in Ht as [[E _]|(_ & _ & H)]; [destruct p; discriminate|exact H]. }
  rewrite <- app_assoc in U. apply Forall_app in U as [_ U]. inversion U; lia.
Qed.
Lemma terminated_not_overlong : forall g r, vlq_terminated g -> (length g <= 10)%nat -> ~ overlong (g ++ r).
Proof.
  intros g r Ht Hl (p & b & q & E & Hp & Hall).
  assert (Hf : firstn 10 (g ++ r) = p) by (rewrite E, <- Hp, firstn_app, Nat.sub_diag, firstn_all; apply app_nil_r).
  rewrite firstn_app, firstn_all2 in Hf by assumption. apply (unfinished_not_terminated g (firstn (10 - length g) r) Ht). rewrite Hf. exact Hall.
Qed.

Lemma ten_or_more : forall l, unfinished l -> (10 < length l)%nat -> overlong l.
Proof.
  intros l U Hl. exists (firstn 10 l). destruct (skipn 10 l) as [|b q] eqn:E.
  - apply (f_equal (@length Z)) in E. rewrite skipn_length in E. cbn [length] in E. lia.
  - exists b, q. split; [rewrite <- E; symmetry; apply firstn_skipn|]. split; [apply firstn_length_le; lia|].
    unfold unfinished in U. rewrite <- (firstn_skipn 10 l) in U. apply Forall_app in U. apply U.
Qed.
Lemma terminated_overlong : forall g r, vlq_terminated g -> (10 < length g)%nat -> overlong (g ++ r).
Proof.
  intros g r Ht Hl. destruct (vlq_term_prefix g Ht) as (p & b & -> & Hp). rewrite app_length in Hl. cbn [length] in Hl.
  exists (firstn 10 p). destruct (skipn 10 (p ++ b :: r)) as [|c q] eqn:E.
  - apply (f_equal (@length Z)) in E. rewrite skipn_length, app_length in E. cbn [length] in E. lia.
  - exists c, q. split; [rewrite <- E, <- app_assoc; cbn [app]|].
    + rewrite <- (firstn_skipn 10 (p ++ b :: r)) at 1. f_equal. rewrite firstn_app. replace (10 - length p)%nat with 0%nat by lia. apply app_nil_r.
    + split; [apply firstn_length_le; lia|]. rewrite <- (firstn_skipn 10 p) in Hp. apply Forall_app in Hp. apply Hp.
Qed.

Lemma overlong_panics : forall l, bytes_ok l -> overlong l -> parse_vlq_int Checked l = Panic.
Proof. intros l Hok (p & b & q & -> & Hp & Hall). apply parse_vlq_long_panic; [assumption|exact Hall|lia]. Qed.

Lemma ten_bytes : forall g r, bytes_ok g -> vlq_terminated g -> (length g <= 10)%nat ->
  (Z.odd (hd 0 g) = true /\ as_i64 (vlq_magnitude g) = - two63 /\ parse_vlq_int Checked (g ++ r) = Panic) \/
  (~ (Z.odd (hd 0 g) = true /\ as_i64 (vlq_magnitude g) = - two63) /\ exists z, parse_vlq_int Checked (g ++ r) = Ok (r, z)).
Proof.
  intros g r Hg Ht Hl. rewrite parse_vlq_int_mod by assumption. destruct (Z.odd (hd 0 g)) eqn:Eo.
  - unfold neg_i64, ovf_i64. destruct (in_i64 (- as_i64 (vlq_magnitude g))) eqn:Ei.
    + right. apply in_i64_true in Ei. split; [intros [_ E]; unfold two63 in *; lia|]. cbn [obind]. eauto.
    + left. split; [reflexivity|]. split; [|reflexivity]. pose proof (as_i64_range (vlq_magnitude g)).
      destruct (Z.eq_dec (as_i64 (vlq_magnitude g)) (- two63)) as [E|E]; [exact E|exfalso].
      assert (in_i64 (- as_i64 (vlq_magnitude g)) = true) by (apply in_i64_true; lia). congruence.
  - right. split; [intros [E _]; discriminate|]. eauto.
Qed.

(** The outcomes, in the cases there are. *)
Lemma checked_cases : forall l, bytes_ok l ->
  (parse_vlq_int Checked l = Panic /\ (overlong l \/ minus_two63 l)) \/
  (parse_vlq_int Checked l = Err ENom /\ unfinished l /\ (length l <= 10)%nat /\ ~ overlong l /\ ~ minus_two63 l) \/
  ((exists x, parse_vlq_int Checked l = Ok x) /\ ~ unfinished l /\ ~ overlong l /\ ~ minus_two63 l).
Proof.
  intros l Hok. destruct (vlq_run_split l) as [(g & r & -> & Ht)|Hall].
  - apply bytes_ok_app in Hok as Hok'. destruct Hok' as [Hg Hr]. destruct (le_lt_dec (length g) 10) as [Hl|Hl].
    + destruct (ten_bytes g r Hg Ht Hl) as [(Eo & Em & E)|(N & z & E)].
      * left. split; [exact E|]. right. exists g, r. auto.
      * right. right. split; [eauto|]. split; [apply unfinished_not_terminated; exact Ht|]. split; [apply terminated_not_overlong; assumption|].
        intros (g' & q & El & Ht' & Hl' & Eo & Em). apply N.
        assert (Hg' : bytes_ok g') by (rewrite El in Hok; apply bytes_ok_app in Hok; apply Hok).
        destruct (ten_bytes g' q Hg' Ht' Hl') as [(_ & _ & E')|(N' & _)]; [|exfalso; apply N'; auto].
        rewrite <- El in E'. congruence.
    + left. pose proof (terminated_overlong g r Ht Hl) as O. split; [apply overlong_panics; assumption|left; exact O].
  - destruct (le_lt_dec (length l) 10) as [Hl|Hl].
    + right. left. split; [apply parse_vlq_int_truncated; auto|]. split; [exact Hall|]. split; [exact Hl|]. split.
      * intros (p & b & q & -> & Hp & _). rewrite app_length in Hl. cbn [length] in Hl. lia.
      * intros (g & q & -> & Ht & _). apply (unfinished_not_terminated g q Ht Hall).
    + left. pose proof (ten_or_more l Hall Hl) as O. split; [apply overlong_panics; assumption|left; exact O].
Qed.

Lemma checked_panics : forall l, bytes_ok l -> (parse_vlq_int Checked l = Panic <-> overlong l \/ minus_two63 l).
Proof.
  intros l Hok. destruct (checked_cases l Hok) as [(E & H)|[(E & _ & _ & N1 & N2)|((x & E) & _ & N1 & N2)]]; rewrite E; split; intros X.
  - exact H.
  - reflexivity.
  - discriminate.
  - destruct X; contradiction.
  - discriminate.
  - destruct X; contradiction.
Qed.
Lemma checked_errors : forall l e, bytes_ok l -> (parse_vlq_int Checked l = Err e <-> e = ENom /\ unfinished l /\ (length l <= 10)%nat).
Proof.
  intros l e Hok. destruct (checked_cases l Hok) as [(E & H)|[(E & U & Hl & _)|((x & E) & U & _)]]; rewrite E; split; intros X.
  - discriminate.
  - destruct X as (_ & U & Hl). rewrite parse_vlq_int_truncated in E by auto. discriminate.
  - injection X as <-. auto.
  - destruct X as (-> & _). reflexivity.
  - discriminate.
  - destruct X as (_ & U' & _). contradiction.
Qed.
Lemma wrapping_errors : forall l e, bytes_ok l -> (parse_vlq_int Wrapping l = Err e <-> e = ENom /\ unfinished l).
Proof.
  intros l e Hok. destruct (vlq_run_split l) as [(g & r & -> & Ht)|Hall].
  - apply bytes_ok_app in Hok as [Hg Hr].
    rewrite (wrapped_read g r _ (conj Hg (conj Ht eq_refl))). split; [discriminate|].
    intros [_ U]. exfalso. exact (unfinished_not_terminated g r Ht U).
  - rewrite parse_vlq_int_truncated by auto. split; [intros X; injection X as <-; auto|intros [-> _]; reflexivity].
Qed.
