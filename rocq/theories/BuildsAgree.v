(** * Builds with and without overflow checks: the decoders

    [agree R x y]: unless [x] is a panic, [x] and [y] are the same error or
    values related by [R].  Everything below is proved for [x] of the build with
    overflow checks and [y] of the build without. *)
From Verif Require Import Base Vlq Types Versioned BitSpec BitPacked BitInterp ByteTypes BitTypes Dispatch Convert Stream Iterators Header.
#[local] Open Scope Z_scope.
#[local] Open Scope list_scope.

Definition agree {A B} (R : A -> B -> Prop) (x : outcome A) (y : outcome B) : Prop :=
  match x, y with
  | Panic, _ => True
  | Ok a, Ok b => R a b
  | Err e, Err e' => e = e'
  | _, _ => False
  end.
(** The second result is the first one, unless that is a panic. *)
Definition same {A} (x y : outcome A) : Prop := x <> Panic -> y = x.

Lemma same_agree : forall A (x y : outcome A), same x y <-> agree eq x y.
Proof.
  intros A x y. unfold same. destruct x, y; cbn; split; intros H; try congruence; try tauto; try (specialize (H ltac:(discriminate)); congruence).
Qed.
Lemma same_refl : forall A (x : outcome A), same x x.
Proof. intros A x _. reflexivity. Qed.
Lemma same_bind : forall A B (x y : outcome A) (f g : A -> outcome B), same x y -> (forall a, x = Ok a -> same (f a) (g a)) -> same (obind x f) (obind y g).
Proof.
  intros A B x y f g H K P. destruct x as [a|e|]; cbn [obind] in *; [|rewrite (H ltac:(discriminate)); reflexivity|congruence].
  rewrite (H ltac:(discriminate)). exact (K a eq_refl P).
Qed.
Lemma agree_bind : forall A B C D (R : A -> B -> Prop) (S : C -> D -> Prop) x y f g, agree R x y -> (forall a b, R a b -> agree S (f a) (g b)) -> agree S (obind x f) (obind y g).
Proof. intros A B C D R S x y f g H K. destruct x as [a|e|], y as [b|e'|]; cbn in *; auto; contradiction. Qed.
Lemma same_panic : forall A (y : outcome A), same Panic y.
Proof. intros A y H. congruence. Qed.
Ltac same_step := first
  [ apply same_refl
  | apply same_bind; [|intros [? ?] _]
  | apply same_bind; [|intros ? _]
  | match goal with |- same (if ?b then _ else _) _ => destruct b end
  | match goal with |- same (match ?b with _ => _ end) _ => destruct b end ].

(** ** Machine arithmetic *)
Lemma ovf_i64_same : forall z, same (ovf_i64 Checked z) (ovf_i64 Wrapping z).
Proof. intros z. unfold ovf_i64. destruct (in_i64 z); [apply same_refl|apply same_panic]. Qed.
Lemma shl_same : forall a k, same (shl_i64 Checked a k) (shl_i64 Wrapping a k).
Proof. intros a k. unfold shl_i64. destruct (k <? 64); [apply same_refl|apply same_panic]. Qed.

(** ** Byte-aligned decoders *)
Lemma vlq_loop_same : forall l r b, same (vlq_loop Checked l r b) (vlq_loop Wrapping l r b).
Proof.
  induction l as [|x l IH]; intros r b; cbn [vlq_loop]; [apply same_refl|]. apply same_bind; [apply shl_same|]. intros s _. cbv zeta.
  destruct (_ =? 0); [apply same_refl|apply IH].
Qed.
Lemma vlq_same : forall l, same (parse_vlq_int Checked l) (parse_vlq_int Wrapping l).
Proof.
  intros [|b l]; unfold parse_vlq_int; [apply same_refl|]. cbv zeta. apply same_bind; [destruct (_ =? 0); [apply same_refl|apply vlq_loop_same]|].
  intros r _. destruct (negb _); [|apply same_refl]. apply same_bind; [apply ovf_i64_same|]. intros n _. apply same_refl.
Qed.
Lemma bitarray_same : forall l, same (tagged_bitarray Checked l) (tagged_bitarray Wrapping l).
Proof. intros l. unfold tagged_bitarray. same_step; [apply same_refl|]. apply same_bind; [apply vlq_same|]. intros [t n] _. apply same_refl. Qed.
Lemma blob_same : forall l, same (tagged_blob Checked l) (tagged_blob Wrapping l).
Proof. intros l. unfold tagged_blob. same_step; [apply same_refl|]. apply same_bind; [apply vlq_same|]. intros [t n] _. apply same_refl. Qed.
Lemma int_same : forall l, same (tagged_vlq_int Checked l) (tagged_vlq_int Wrapping l).
Proof. intros l. unfold tagged_vlq_int. same_step; [apply same_refl|]. apply vlq_same. Qed.
Lemma parse_n_same : forall fuel (p q : parser val), (forall l, same (p l) (q l)) -> forall n l, same (parse_n fuel p n l) (parse_n fuel q n l).
Proof.
  induction fuel as [|fuel IH]; intros p q H n l; cbn [parse_n]; destruct (n =? 0); try apply same_refl.
  apply same_bind; [apply H|]. intros [t v] _. apply same_bind; [apply IH, H|]. intros [t' vs] _. apply same_refl.
Qed.
Definition slots_agree : list slot -> list slot -> Prop := Forall2 (fun s s' => fst (fst s) = fst (fst s') /\ snd s = snd s' /\ forall l, same (snd (fst s) l) (snd (fst s') l)).
Definition steps_agree (x y : step_res) : Prop :=
  match x, y with
  | SUnknown, SUnknown => True
  | SDuplicate n t, SDuplicate n' t' => n = n' /\ t = t'
  | SStored r, SStored r' => agree (fun a b => fst a = fst b /\ slots_agree (snd a) (snd b)) r r'
  | _, _ => False
  end.
Lemma struct_step_agree : forall s s' tag l, slots_agree s s' -> steps_agree (struct_step s tag l) (struct_step s' tag l).
Proof.
  intros s s' tag l F. induction F as [|[[fd p] cur] [[fd' p'] cur'] s s' (E1 & E2 & E3) F IH]; cbn [struct_step]; [exact I|]. cbn [fst snd] in *. subst fd' cur'.
  destruct (f_tag fd =? tag).
  - change (slot_free (fd, p', cur)) with (slot_free (fd, p, cur)). destruct (slot_free (fd, p, cur)); [|cbn; auto]. cbn [steps_agree].
    apply agree_bind with (R := eq); [apply same_agree, E3|]. intros [t v] b <-. cbn. split; [reflexivity|]. constructor; [cbn; auto|exact F].
  - destruct (struct_step s tag l) as [|n t|r], (struct_step s' tag l) as [|n' t'|r']; cbn [steps_agree] in *; try contradiction; auto.
    eapply agree_bind; [exact IH|]. intros [t x] [t' x'] [Et Ex]. cbn in *. split; [exact Et|]. constructor; [cbn; auto|exact Ex].
Qed.
Lemma struct_loop_agree : forall fuel n s s' l, slots_agree s s' -> agree (fun a b => fst a = fst b /\ slots_agree (snd a) (snd b)) (struct_loop fuel Checked n s l) (struct_loop fuel Wrapping n s' l).
Proof.
  induction fuel as [|fuel IH]; intros n s s' l F; cbn [struct_loop]; destruct (n =? 0); [cbn; auto|reflexivity|cbn; auto|].
  apply agree_bind with (R := eq); [apply same_agree, vlq_same|]. intros [t tag] b <-. pose proof (struct_step_agree s s' tag t F) as K.
  destruct (struct_step s tag t) as [|n1 t1|r], (struct_step s' tag t) as [|n2 t2|r']; cbn [steps_agree] in K; try contradiction; [reflexivity|cbn; destruct K; congruence|].
  eapply agree_bind; [exact K|]. intros [t' x] [t'' x'] [Et Ex]. cbn [fst snd] in *. subst t''. apply IH, Ex.
Qed.
Lemma struct_finish_agree : forall s s', slots_agree s s' -> struct_finish s = struct_finish s'.
Proof.
  intros s s' F. induction F as [|[[fd p] cur] [[fd' p'] cur'] s s' (E1 & E2 & _) F IH]; [reflexivity|]. cbn [fst snd] in *. subst fd' cur'. cbn [struct_finish]. now rewrite IH.
Qed.
Lemma parse_struct_same : forall s s' l, slots_agree s s' -> same (parse_struct Checked s l) (parse_struct Wrapping s' l).
Proof.
  intros s s' l F. unfold parse_struct. same_step; [apply same_refl|]. apply same_bind; [apply vlq_same|]. intros [t n] _. apply same_agree.
  eapply agree_bind; [apply struct_loop_agree, F|]. intros [t1 x] [t2 y] [Et Ex]. cbn [fst snd] in *. subst t2. rewrite (struct_finish_agree _ _ Ex). apply same_agree, same_refl.
Qed.

#[export] Hint Resolve same_refl same_panic ovf_i64_same shl_same vlq_same bitarray_same blob_same int_same parse_n_same : same.
(** One bind after the other, leaving what is not known. *)
Ltac sames := repeat first
  [ solve [eauto with same]
  | apply same_bind; [solve [eauto with same]|first [intros [? ?] _|intros ? _]]
  | match goal with |- same (if ?b then _ else _) _ => destruct b end
  | match goal with |- same (match ?b with _ => _ end) (match ?b with _ => _ end) => destruct b end ].
Lemma variants_same : forall A (l : list (Z * string * A)) (f g : A -> parser val) tag (k : string -> parser val -> outcome (list Z * val)) d,
  Forall (fun x => forall i, same (f (snd x) i) (g (snd x) i)) l ->
  (forall n p q, (forall i, same (p i) (q i)) -> same (k n p) (k n q)) ->
  same (match find_variant (map (fun x => (fst x, f (snd x))) l) tag with Some (n, p) => k n p | None => d end)
       (match find_variant (map (fun x => (fst x, g (snd x))) l) tag with Some (n, p) => k n p | None => d end).
Proof.
  intros A l f g tag k d H K. induction H as [|[[t n] a] l H _ IH]; cbn [map find_variant fst snd] in *; [apply same_refl|].
  destruct (t =? tag); [apply K, H|exact IH].
Qed.
Lemma vparse_same : forall t l, same (vparse Checked t l) (vparse Wrapping t l).
Proof.
  induction t using vty_ind'; intros inp; cbn [vparse].
  9:{ apply parse_struct_same. unfold slots_agree. induction H as [|f fs H _ IH]; cbn [map]; constructor; [|exact IH]. cbn. split; [reflexivity|]. split; [reflexivity|exact H]. }
  all: sames.
  match goal with |- same (match find_variant _ ?z with _ => _ end) _ => apply (variants_same vty l (vparse Checked) (vparse Wrapping) z (fun s p => do (c, v) <- p _; Ok (c, VChoice s v))) end; [exact H|]. intros n0 p q K. sames.
Qed.
#[export] Hint Resolve vparse_same : same.

(** ** Bit-packed decoders *)
Lemma packed_same : forall c o n, same (parse_packed_int Checked c o n) (parse_packed_int Wrapping c o n).
Proof. intros. unfold parse_packed_int, add_i64. sames. Qed.
#[export] Hint Resolve packed_same : same.
Lemma bparse_n_same : forall n (p q : bparser val), (forall c, same (p c) (q c)) -> forall c, same (bparse_n n p c) (bparse_n n q c).
Proof. induction n as [|n IH]; intros p q H c; cbn [bparse_n]; sames. Qed.
Lemma bvariants_same : forall A (l : list (Z * string * A)) (f g : A -> bparser val) tag (k : string -> bparser val -> outcome (cursor * val)) d,
  Forall (fun x => forall i, same (f (snd x) i) (g (snd x) i)) l ->
  (forall n p q, (forall i, same (p i) (q i)) -> same (k n p) (k n q)) ->
  same (match find_variant (map (fun x => (fst x, f (snd x))) l) tag with Some (n, p) => k n p | None => d end)
       (match find_variant (map (fun x => (fst x, g (snd x))) l) tag with Some (n, p) => k n p | None => d end).
Proof.
  intros A l f g tag k d H K. induction H as [|[[t n] a] l H _ IH]; cbn [map find_variant fst snd] in *; [apply same_refl|].
  destruct (t =? tag); [apply K, H|exact IH].
Qed.
Lemma bparse_same : forall t c, same (bparse Checked t c) (bparse Wrapping t c).
Proof.
  induction t using bty_ind'; intros c0; cbn [bparse]; sames.
  all: try (apply same_bind; [apply bparse_n_same, IHt|]; intros [? ?] _; apply same_refl).
  - match goal with |- same (match find_variant _ ?z with _ => _ end) _ => apply (bvariants_same bty l (bparse Checked) (bparse Wrapping) z (fun s p => do (c, v) <- p _; Ok (c, VChoice s v))) end; [exact H|]. intros n0 p q K. sames.
  - apply same_bind; [|intros [? ?] _; apply same_refl]. revert c0. induction H as [|[n t] fs H _ IH]; intros c0; cbn [map bparse_fields fst snd] in *; [apply same_refl|].
    apply same_bind; [apply H|]. intros [? ?] _. apply same_bind; [apply IH|]. intros [? ?] _. apply same_refl.
Qed.
#[export] Hint Resolve bparse_same : same.

(** ** Readers *)
Section Stream.
  Context {C X E : Type} (at_end : C -> bool) (size : C -> nat) (p q : C -> outcome (C * (Z * X))) (convert : X -> outcome E).
  Hypothesis H : forall c, same (p c) (q c).
  Lemma next_fuel_same : forall n s, same (next_fuel at_end p convert n s) (next_fuel at_end q convert n s).
  Proof.
    induction n as [|n IH]; intros s; cbn [next_fuel]; destruct (at_end (fst s)); try apply same_refl. unfold read_versioned. pose proof (H (fst s)) as K.
    destruct (p (fst s)) as [[c' [d x]]|e|]; [rewrite (K ltac:(discriminate))|rewrite (K ltac:(discriminate))|apply same_panic].
    - destruct (convert x) as [e|[]|]; try apply same_refl; apply IH.
    - destruct e; try apply same_refl; apply IH.
  Qed.
  Lemma next_same : forall s, same (get_next_event at_end size p convert s) (get_next_event at_end size q convert s).
  Proof. intros s. apply next_fuel_same. Qed.
  Lemma batch_fuel_same : forall n c, same (batch_fuel at_end p convert n c) (batch_fuel at_end q convert n c).
  Proof.
    induction n as [|n IH]; intros c; cbn [batch_fuel]; [apply same_refl|]. apply same_bind; [apply H|]. intros [c' [d x]] _. apply same_bind; [apply same_refl|]. intros here _.
    destruct (at_end c'); [apply same_refl|]. apply same_bind; [apply IH|]. intros more _. apply same_refl.
  Qed.
  Lemma calls_same : forall n s, same (calls at_end size p convert n s) (calls at_end size q convert n s).
  Proof. induction n as [|n IH]; intros s; cbn [calls]; [apply same_refl|]. apply same_bind; [apply next_same|]. intros [r s'] _. apply same_bind; [apply IH|]. intros rs _. apply same_refl. Qed.
End Stream.
Lemma pair_same : forall p l, same (parse_event_pair Checked p l) (parse_event_pair Wrapping p l).
Proof. intros p l. unfold parse_event_pair. sames. Qed.
Lemma triplet_same : forall t c, same (parse_event_triplet Checked t c) (parse_event_triplet Wrapping t c).
Proof. intros t c. unfold parse_event_triplet. sames. Qed.
Lemma tracker_next_same : forall p s, same (tracker_next Checked p s) (tracker_next Wrapping p s).
Proof. intros p s. apply next_same, pair_same. Qed.
Lemma game_next_same : forall p names s, same (game_next Checked p names s) (game_next Wrapping p names s).
Proof. intros p names s. apply next_same, triplet_same. Qed.
Lemma tracker_calls_same : forall p n s, same (tracker_calls Checked p n s) (tracker_calls Wrapping p n s).
Proof. intros p n s. apply calls_same, pair_same. Qed.
Lemma game_calls_same : forall p names n s, same (game_calls Checked p names n s) (game_calls Wrapping p names n s).
Proof. intros p names n s. apply calls_same, triplet_same. Qed.
Lemma read_tracker_same : forall p l, same (read_tracker_events Checked p l) (read_tracker_events Wrapping p l).
Proof. intros p l. apply batch_fuel_same, pair_same. Qed.
Lemma read_game_same : forall p l, same (read_game_events Checked p l) (read_game_events Wrapping p l).
Proof. intros p l. apply batch_fuel_same, triplet_same. Qed.
Lemma read_message_same : forall p l, same (read_message_events Checked p l) (read_message_events Wrapping p l).
Proof. intros p l. apply batch_fuel_same, triplet_same. Qed.
Lemma header_same : forall l, same (header_parse Checked l) (header_parse Wrapping l).
Proof. intros l. unfold header_parse, header_signature. sames. apply same_bind; [sames|]. intros [? ?] _. sames. Qed.
#[export] Hint Resolve tracker_next_same game_next_same read_tracker_same read_game_same read_message_same header_same : same.
