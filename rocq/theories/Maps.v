(** * Finite maps and sorting

    [HashMap] is an association list; [mset] keeps the position of a key it
    replaces.  The order of the list is the unspecified iteration order. *)
From Verif Require Import Base.
From Coq Require Import Sorted Permutation.

Section Maps.
Context {A : Type}.
(** [HashMap::get]. *)
Fixpoint mget (k : Z) (l : list (Z * A)) : option A :=
  match l with [] => None | (k', a) :: l' => if k' =? k then Some a else mget k l' end.
(** [HashMap::insert], and the assignment through [get_mut]. *)
Fixpoint mset (k : Z) (a : A) (l : list (Z * A)) : list (Z * A) :=
  match l with [] => [(k, a)] | (k', a') :: l' => if k' =? k then (k, a) :: l' else (k', a') :: mset k a l' end.
(** [HashMap::remove]. *)
Fixpoint mdel (k : Z) (l : list (Z * A)) : list (Z * A) :=
  match l with [] => [] | (k', a) :: l' => if k' =? k then mdel k l' else (k', a) :: mdel k l' end.

Lemma mget_mset : forall l k a k', mget k' (mset k a l) = if k =? k' then Some a else mget k' l.
Proof.
  induction l as [|[k0 a0] l IH]; intros k a k'; cbn [mset mget]; [reflexivity|].
  destruct (Z.eqb_spec k0 k) as [->|Hn]; cbn [mget].
  - destruct (k =? k'); reflexivity.
  - rewrite IH. destruct (Z.eqb_spec k0 k') as [->|Hn']; [|reflexivity].
    destruct (Z.eqb_spec k k'); [congruence|reflexivity].
Qed.
Lemma mget_mdel : forall l k k', mget k' (mdel k l) = if k =? k' then None else mget k' l.
Proof.
  induction l as [|[k0 a0] l IH]; intros k k'; cbn [mdel mget]; [destruct (k =? k'); reflexivity|].
  destruct (Z.eqb_spec k0 k) as [->|Hn]; cbn [mget]; rewrite IH.
  - destruct (Z.eqb_spec k k'); reflexivity.
  - destruct (Z.eqb_spec k0 k') as [->|Hn']; [|reflexivity].
    destruct (Z.eqb_spec k k'); [congruence|reflexivity].
Qed.
Lemma mset_keys : forall l k a, mget k l <> None -> map fst (mset k a l) = map fst l.
Proof.
  induction l as [|[k0 a0] l IH]; intros k a Hk; cbn [mset mget map] in *; [congruence|].
  destruct (Z.eqb_spec k0 k) as [->|Hn]; [reflexivity|]. cbn [map fst]. rewrite IH by exact Hk. reflexivity.
Qed.
Lemma mget_In : forall l k a, mget k l = Some a -> In (k, a) l.
Proof.
  induction l as [|[k0 a0] l IH]; intros k a Hk; cbn [mget] in Hk; [discriminate|].
  destruct (Z.eqb_spec k0 k) as [->|Hn]; [injection Hk as ->; left; reflexivity|right; apply IH, Hk].
Qed.
Lemma In_mget : forall l k a, NoDup (map fst l) -> In (k, a) l -> mget k l = Some a.
Proof.
  induction l as [|[k0 a0] l IH]; intros k a Hd Hi; [destruct Hi|]. cbn [map fst] in Hd. inversion Hd as [|x y Hx Hy]; subst.
  cbn [mget]. destruct Hi as [E|Hi].
  - injection E as -> ->. rewrite Z.eqb_refl. reflexivity.
  - destruct (Z.eqb_spec k0 k) as [->|Hn]; [|apply IH; auto]. exfalso. apply Hx. apply in_map_iff. exists (k, a). auto.
Qed.
Lemma mget_None : forall l k, mget k l = None <-> ~ In k (map fst l).
Proof.
  induction l as [|[k0 a0] l IH]; intros k; cbn [mget map fst In]; [tauto|].
  destruct (Z.eqb_spec k0 k) as [->|Hn].
  - split; [discriminate|tauto].
  - rewrite IH. tauto.
Qed.
End Maps.

(** ** [sort_unstable] and [dedup] on integers *)
Fixpoint insert_z (x : Z) (l : list Z) : list Z :=
  match l with [] => [x] | y :: l' => if x <=? y then x :: l else y :: insert_z x l' end.
(** [Vec<u32>::sort_unstable]: equal integers are indistinguishable, so any
    sorting algorithm gives this list. *)
Fixpoint sort_z (l : list Z) : list Z := match l with [] => [] | x :: l' => insert_z x (sort_z l') end.
(** [Vec::dedup_by_key]: of consecutive elements with the same key keep the first. *)
Fixpoint dedup_by {A} (key : A -> Z) (l : list A) : list A :=
  match l with
  | x :: l' =>
      match dedup_by key l' with
      | y :: r => if key x =? key y then x :: r else x :: y :: r
      | [] => [x]
      end
  | [] => []
  end.
Definition dedup_z : list Z -> list Z := dedup_by (fun z => z).

Lemma insert_z_In : forall x l y, In y (insert_z x l) <-> y = x \/ In y l.
Proof.
  intros x l y. induction l as [|z l IH]; cbn [insert_z In]; [intuition congruence|].
  destruct (x <=? z); cbn [In]; rewrite ?IH; intuition congruence.
Qed.
Lemma sort_z_In : forall l y, In y (sort_z l) <-> In y l.
Proof. induction l as [|x l IH]; intros y; cbn [sort_z In]; [tauto|]. rewrite insert_z_In, IH. intuition congruence. Qed.
Lemma insert_z_sorted : forall x l, StronglySorted Z.le l -> StronglySorted Z.le (insert_z x l).
Proof.
  intros x l. induction l as [|z l IH]; intros Hs; cbn [insert_z]; [constructor; constructor|].
  inversion Hs as [|a b Hs' Hf]; subst. destruct (Z.leb_spec x z) as [Hle|Hlt].
  - constructor; [exact Hs|]. constructor; [exact Hle|]. eapply Forall_impl; [|exact Hf]. intros a Ha. lia.
  - constructor; [apply IH, Hs'|]. apply Forall_forall. intros a Ha. apply insert_z_In in Ha as [->|Ha]; [lia|].
    rewrite Forall_forall in Hf. apply Hf, Ha.
Qed.
Lemma sort_z_sorted : forall l, StronglySorted Z.le (sort_z l).
Proof. induction l as [|x l IH]; cbn [sort_z]; [constructor|]. apply insert_z_sorted, IH. Qed.

(** [dedup] of a sorted list: strictly sorted, same keys, and a sub-list. *)
Lemma dedup_head : forall A (key : A -> Z) x l, exists r, dedup_by key (x :: l) = x :: r.
Proof. intros A key x l. cbn [dedup_by]. destruct (dedup_by key l) as [|y r]; [eauto|]. destruct (key x =? key y); eauto. Qed.
Lemma dedup_incl : forall A (key : A -> Z) l a, In a (dedup_by key l) -> In a l.
Proof.
  intros A key. induction l as [|x l IH]; intros a Ha; [exact Ha|]. cbn [dedup_by] in Ha.
  destruct (dedup_by key l) as [|y r].
  - destruct Ha as [->|[]]. left. reflexivity.
  - destruct (key x =? key y).
    + destruct Ha as [->|Ha]; [left; reflexivity|right; apply IH; right; exact Ha].
    + destruct Ha as [->|Ha]; [left; reflexivity|right; apply IH; exact Ha].
Qed.
Lemma dedup_keys : forall A (key : A -> Z) l a, In a l -> exists b, In b (dedup_by key l) /\ key b = key a.
Proof.
  intros A key. induction l as [|x l IH]; intros a Ha; [destruct Ha|]. cbn [dedup_by].
  destruct (dedup_by key l) as [|y r] eqn:E.
  - destruct Ha as [->|Ha]; [exists a; split; [left|]; reflexivity|].
    destruct (IH _ Ha) as (b & [] & _).
  - destruct (Z.eqb_spec (key x) (key y)) as [Hk|Hk].
    + destruct Ha as [->|Ha]; [exists a; split; [left|]; reflexivity|].
      destruct (IH _ Ha) as (b & [->|Hb] & Eb); [exists x; split; [left; reflexivity|congruence]|exists b; split; [right; exact Hb|exact Eb]].
    + destruct Ha as [->|Ha]; [exists a; split; [left|]; reflexivity|].
      destruct (IH _ Ha) as (b & Hb & Eb). exists b. split; [right; exact Hb|exact Eb].
Qed.
Lemma dedup_sorted : forall A (key : A -> Z) l, StronglySorted (fun a b => key a <= key b) l ->
  StronglySorted (fun a b => key a < key b) (dedup_by key l).
Proof.
  intros A key. induction l as [|x l IH]; intros Hs; [constructor|]. inversion Hs as [|a b Hs' Hf]; subst.
  specialize (IH Hs'). pose proof (dedup_incl A key l) as Hi. cbn [dedup_by].
  destruct (dedup_by key l) as [|y r]; [constructor; constructor|].
  inversion IH as [|a b IH' Hy]; subst. rewrite Forall_forall in Hf, Hy.
  destruct (Z.eqb_spec (key x) (key y)) as [Hk|Hk]; constructor; auto.
  - apply Forall_forall. intros a Ha. specialize (Hy a Ha). lia.
  - apply Forall_forall. intros a Ha. assert (H1 := Hf a (Hi a Ha)). assert (H2 := Hf y (Hi y (or_introl eq_refl))).
    destruct Ha as [<-|Ha]; [lia|]. specialize (Hy a Ha). lia.
Qed.
