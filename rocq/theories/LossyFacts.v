From Verif Require Import Base Utf8 Utf8Facts CacheFiles LossySpec.
#[local] Open Scope Z_scope.
#[local] Open Scope list_scope.

Definition shape (l : list Z) : Prop :=
  match l with
  | [b0] => 0 <= b0 <= 0x7f
  | [b0; b1] => 0xc2 <= b0 <= 0xdf /\ is_cont b1 = true
  | [b0; b1; b2] => 0xe0 <= b0 <= 0xef /\ second_ok b0 b1 = true /\ is_cont b2 = true
  | [b0; b1; b2; b3] => 0xf0 <= b0 <= 0xf4 /\ second_ok b0 b1 = true /\ is_cont b2 = true /\ is_cont b3 = true
  | _ => False
  end.
Ltac zbd := repeat match goal with
  | |- context [?a =? ?b] => destruct (Z.eqb_spec a b); try (exfalso; lia)
  end.
Lemma char_shape : forall c, scalar c -> shape (utf8_char c).
Proof.
  intros c Hc. unfold scalar in Hc. unfold utf8_char.
  destruct (Z.leb_spec c 0x7f); [cbn [shape]; lia|].
  destruct (Z.leb_spec c 0x7ff); [cbn [shape]; unfold is_cont; split; [|zbg]; dlia|].
  destruct (Z.leb_spec c 0xffff).
  { cbn [shape]. assert (0 <= c / 4096 < 16) by dlia. assert (0 <= c / 64 mod 64 < 64) by dlia. assert (0 <= c mod 64 < 64) by dlia.
    assert (c / 4096 = 0 -> 32 <= c / 64 mod 64) by dlia. assert (c / 4096 = 13 -> c / 64 mod 64 < 32) by dlia.
    split; [lia|]. unfold second_ok, is_cont. split; [zbd; zbg; lia|zbg; lia]. }
  cbn [shape]. assert (0 <= c / 262144 <= 4) by dlia. assert (0 <= c / 4096 mod 64 < 64) by dlia.
  assert (0 <= c / 64 mod 64 < 64) by dlia. assert (0 <= c mod 64 < 64) by dlia.
  assert (c / 262144 = 0 -> 16 <= c / 4096 mod 64) by dlia. assert (c / 262144 = 4 -> c / 4096 mod 64 < 16) by dlia.
  split; [lia|]. unfold second_ok, is_cont. split; [zbd; zbg; lia|split; zbg; lia].
Qed.
Ltac shapes := repeat match goal with
  | H : shape ?l |- _ => match l with
      | utf8_char _ => fail
      | [] => destruct H
      | [_] => cbn [shape] in H
      | _ :: _ => cbn [shape] in H
      | _ => destruct l as [|? l]
      end
  | H : False |- _ => destruct H
  | H : _ /\ _ |- _ => destruct H
  end.
Lemma shape_cases : forall l, shape l ->
  (exists b0, l = [b0] /\ 0 <= b0 <= 0x7f) \/
  (exists b0 b1, l = [b0; b1] /\ 0xc2 <= b0 <= 0xdf /\ is_cont b1 = true) \/
  (exists b0 b1 b2, l = [b0; b1; b2] /\ 0xe0 <= b0 <= 0xef /\ second_ok b0 b1 = true /\ is_cont b2 = true) \/
  (exists b0 b1 b2 b3, l = [b0; b1; b2; b3] /\ 0xf0 <= b0 <= 0xf4 /\ second_ok b0 b1 = true /\ is_cont b2 = true /\ is_cont b3 = true).
Proof.
  intros [|b0 [|b1 [|b2 [|b3 [|b4 l]]]]] Hs; cbn [shape] in Hs; try destruct Hs.
  - left. eexists. split; [reflexivity|lia].
  - right. left. do 2 eexists. split; [reflexivity|]. now split.
  - right. right. left. do 3 eexists. split; [reflexivity|]. now split.
  - right. right. right. do 4 eexists. split; [reflexivity|]. now split.
Qed.
Lemma shape_prefix : forall l l' r, shape l -> shape l' -> l = l' ++ r -> r = [].
Proof.
  intros l l' r Hl Hl' E. apply shape_cases in Hl, Hl'.
  destruct Hl as [(? & -> & ?)|[(? & ? & -> & ? & _)|[(? & ? & ? & -> & ? & _)|(? & ? & ? & ? & -> & ? & _)]]];
  destruct Hl' as [(? & -> & ?)|[(? & ? & -> & ? & _)|[(? & ? & ? & -> & ? & _)|(? & ? & ? & ? & -> & ? & _)]]];
  cbn [app] in E; injection E; intros; subst; try reflexivity; try discriminate; lia.
Qed.
Lemma second_range : forall b0 b1, second_ok b0 b1 = true -> 0x80 <= b1 <= 0xbf.
Proof. intros b0 b1. unfold second_ok, is_cont. repeat match goal with |- context [?a =? ?b] => destruct (a =? b) end; intros E; zb; lia. Qed.
Lemma shape_ok : forall l, shape l -> utf8_ok l = true /\ bytes_ok l /\ l <> [].
Proof.
  intros l Hl. apply shape_cases in Hl.
  destruct Hl as [(b0 & -> & H0)|[(b0 & b1 & -> & H0 & H1)|[(b0 & b1 & b2 & -> & H0 & H1 & H2)|(b0 & b1 & b2 & b3 & -> & H0 & H1 & H2 & H3)]]].
  - split; [cbn [utf8_ok]; destruct (Z.leb_spec b0 127); [reflexivity|lia]|]. split; [repeat constructor; unfold byte_ok; lia|discriminate].
  - split; [cbn [utf8_ok]|split; [unfold is_cont in H1; zb; repeat constructor; unfold byte_ok; lia|discriminate]].
    destruct (Z.leb_spec b0 127); [lia|]. destruct (Z.leb_spec 194 b0); [|lia]. destruct (Z.leb_spec b0 223); [|lia]. cbn [andb]. now rewrite H1.
  - split; [cbn [utf8_ok]|split; [pose proof (second_range _ _ H1); unfold is_cont in H2; zb; repeat constructor; unfold byte_ok; lia|discriminate]].
    destruct (Z.leb_spec b0 127); [lia|]. destruct (Z.leb_spec b0 223); [lia|]. rewrite andb_false_r. destruct (Z.leb_spec 224 b0); [|lia]. destruct (Z.leb_spec b0 239); [|lia]. cbn [andb].
    rewrite H2. unfold second_ok in H1. destruct (b0 =? 224); [now rewrite H1|]. destruct (b0 =? 237); [now rewrite H1|]. destruct (Z.eqb_spec b0 240); [lia|]. destruct (Z.eqb_spec b0 244); [lia|]. now rewrite H1.
  - split; [cbn [utf8_ok]|split; [pose proof (second_range _ _ H1); unfold is_cont in H2, H3; zb; repeat constructor; unfold byte_ok; lia|discriminate]].
    destruct (Z.leb_spec b0 127); [lia|]. destruct (Z.leb_spec b0 223); [lia|]. rewrite andb_false_r. destruct (Z.leb_spec b0 239); [lia|]. rewrite andb_false_r. destruct (Z.leb_spec 240 b0); [|lia]. destruct (Z.leb_spec b0 244); [|lia]. cbn [andb].
    rewrite H2, H3. unfold second_ok in H1. destruct (Z.eqb_spec b0 224); [lia|]. destruct (Z.eqb_spec b0 237); [lia|]. destruct (b0 =? 240); [now rewrite H1|]. destruct (b0 =? 244); [now rewrite H1|]. now rewrite H1.
Qed.
Lemma shape_char : forall l, shape l -> exists c, scalar c /\ utf8_char c = l.
Proof.
  intros l Hl. destruct (shape_ok l Hl) as (Ho & Hb & Hn). destruct (utf8_first l Hb Hn Ho) as (c & r & Hc & E & _).
  exists c. split; [exact Hc|]. rewrite (shape_prefix l (utf8_char c) r Hl (char_shape c Hc) E), app_nil_r in E. now symmetry.
Qed.

(** ** Each branch of the repair *)
Lemma begins_shape : forall p, begins_char p <-> exists r, shape (p ++ r).
Proof.
  intros p. split.
  - intros (c & Hc & r & E). exists r. rewrite <- E. now apply char_shape.
  - intros (r & Hs). apply shape_char in Hs as (c & Hc & E). exists c. split; [exact Hc|]. exists r. exact E.
Qed.
Lemma no_char : forall l, (forall q, shape q -> ~ has_prefix q l) -> forall c, scalar c -> ~ has_prefix (utf8_char c) l.
Proof. intros l Hn c Hc. apply Hn, char_shape, Hc. Qed.
Lemma utf8_fffd : utf8_char 0xfffd = fffd. Proof. reflexivity. Qed.
Lemma broken : forall p l r, p <> [] -> (forall q, shape q -> ~ has_prefix q (p ++ l)) -> (length p = 1%nat \/ exists t, shape (p ++ t)) ->
  (forall q t, has_prefix q (p ++ l) -> (length p < length q)%nat -> ~ shape (q ++ t)) -> repaired l r -> repaired (p ++ l) (fffd ++ r).
Proof.
  intros p l r Hp Hn Hb Hm Hr. rewrite <- utf8_fffd. apply repaired_broken; [exact Hp|now apply no_char| |  |exact Hr].
  - destruct Hb as [Hb|Hb]; [now left|right; now apply begins_shape].
  - intros q Hq Hl Hx. apply begins_shape in Hx as (t & Ht). exact (Hm q t Hq Hl Ht).
Qed.

Lemma longer_prefix : forall (p q l r : list Z), p ++ l = q ++ r -> (length p < length q)%nat -> exists x t l', q = p ++ x :: t /\ l = x :: l'.
Proof.
  induction p as [|a p IH]; intros q l r E Hl.
  - destruct q as [|x t]; [cbn in Hl; lia|]. exists x, t, (t ++ r). split; [reflexivity|exact E].
  - destruct q as [|b q]; [cbn in Hl; lia|]. cbn [app] in E. injection E as <- E. cbn [length] in Hl. destruct (IH q l r E ltac:(lia)) as (x & t & l' & -> & ->). exists x, t, l'. now split.
Qed.
Lemma broken_here : forall p l r, p <> [] -> (length p = 1%nat \/ exists t, shape (p ++ t)) ->
  (forall x l' t, l = x :: l' -> ~ shape (p ++ x :: t)) ->
  (forall q, shape q -> (length q <= length p)%nat -> hd 0 q = hd 0 p -> False) ->
  repaired l r -> repaired (p ++ l) (fffd ++ r).
Proof.
  intros p l r Hp Hb Hx Hq Hr. apply broken; [exact Hp| |exact Hb| |exact Hr].
  - intros q Hs [r' E]. destruct (le_lt_dec (length q) (length p)) as [Hl|Hl].
    + apply (Hq q Hs Hl). destruct q as [|a q]; [destruct Hs|]. destruct p as [|b p]; [now elim Hp|]. cbn [app] in E. injection E as E _. now symmetry.
    + destruct (longer_prefix p q l r' E Hl) as (x & t & l' & -> & ->). exact (Hx x l' t eq_refl Hs).
  - intros q t [r' E] Hl Hs. destruct (longer_prefix p q l r' E Hl) as (x & t' & l' & -> & ->). rewrite <- app_assoc in Hs. cbn [app] in Hs. exact (Hx x l' (t' ++ t) eq_refl Hs).
Qed.
Lemma long_char : forall b0 q k, 0x7f < b0 -> (0xe0 <= b0 -> (k <= 2)%nat) -> (b0 < 0xe0 -> (k <= 1)%nat) -> shape q -> (length q <= k)%nat -> hd 0 q = b0 -> False.
Proof.
  intros b0 q k H0 H1 H2 Hs Hl Hh. apply shape_cases in Hs.
  destruct Hs as [(? & -> & ?)|[(? & ? & -> & ? & _)|[(? & ? & ? & -> & ? & _)|(? & ? & ? & ? & -> & ? & _)]]]; cbn [hd length] in *; lia.
Qed.
Lemma long_char4 : forall b0 q k, 0xf0 <= b0 -> (k <= 3)%nat -> shape q -> (length q <= k)%nat -> hd 0 q = b0 -> False.
Proof.
  intros b0 q k H0 Hk Hs Hl Hh. apply shape_cases in Hs.
  destruct Hs as [(? & -> & ?)|[(? & ? & -> & ? & _)|[(? & ? & ? & -> & ? & _)|(? & ? & ? & ? & -> & ? & _)]]]; cbn [hd length] in *; lia.
Qed.
Lemma cont_80 : is_cont 0x80 = true. Proof. reflexivity. Qed.
(** No character has these bytes. *)
Ltac no_shape := let Hs := fresh in intros Hs; apply shape_cases in Hs;
  destruct Hs as [(? & Hs & ?)|[(? & ? & Hs & ? & ?)|[(? & ? & ? & Hs & ? & ? & ?)|(? & ? & ? & ? & Hs & ? & ? & ? & ?)]]]; injection Hs; intros; subst; try discriminate; try lia; try congruence.
Lemma lossy_repaired : forall n l, (length l <= n)%nat -> bytes_ok l -> repaired l (lossy l).
Proof.
  induction n as [|n IH]; intros [|b0 l1] Hn Hb; [constructor|cbn in Hn; lia|constructor|]. cbn [length] in Hn. cbn [lossy].
  apply bytes_ok_cons in Hb as [Hb0 Hb]. unfold byte_ok in Hb0.
  assert (Hchar : forall q r, shape q -> (length r <= n)%nat -> bytes_ok r -> repaired (q ++ r) (q ++ lossy r)).
  { intros q r Hq Hl Hr. apply shape_char in Hq as (c & Hc & <-). apply repaired_char; [exact Hc|now apply IH]. }
  assert (Hone : 0x7f < b0 -> (forall x l' t, l1 = x :: l' -> ~ shape (b0 :: x :: t)) -> repaired (b0 :: l1) (fffd ++ lossy l1)).
  { intros H0 Hx. apply (broken_here [b0] l1); [discriminate|now left|exact Hx| |apply IH; [lia|exact Hb]].
    intros q Hq Hl Hh. apply (long_char b0 q 1 H0); [lia|lia|exact Hq|exact Hl|exact Hh]. }
  destruct (Z.leb_spec b0 0x7f) as [Hs|Hs]; [apply (Hchar [b0] l1); [cbn [shape]; lia|lia|exact Hb]|].
  destruct (Z.leb_spec 0xc2 b0) as [H1|H1]; cbn [andb]; [destruct (Z.leb_spec b0 0xdf) as [H2|H2]; cbn [andb]|].
  { destruct l1 as [|b1 l2].
    - rewrite <- (app_nil_r fffd). apply Hone; [lia|]. intros x l' t E. discriminate.
    - apply bytes_ok_cons in Hb as [Hb1 Hb2]. cbn [length] in Hn. destruct (is_cont b1) eqn:Ec.
      + apply (Hchar [b0; b1] l2); [cbn [shape]; split; [lia|exact Ec]|lia|exact Hb2].
      + apply Hone; [lia|]. intros x l' t E. injection E as <- <-. no_shape. }
  2: { destruct (Z.leb_spec 0xe0 b0); [lia|]. destruct (Z.leb_spec 0xf0 b0); [lia|]. cbn [andb]. apply Hone; [lia|]. intros x l' t E. no_shape. }
  destruct (Z.leb_spec 0xe0 b0) as [H3|H3]; [|lia]. destruct (Z.leb_spec b0 0xef) as [H4|H4]; cbn [andb].
  { destruct l1 as [|b1 l2].
    { rewrite <- (app_nil_r fffd). apply Hone; [lia|]. intros x l' t E. discriminate. }
    apply bytes_ok_cons in Hb as [Hb1 Hb2]. cbn [length] in Hn. destruct (second_ok b0 b1) eqn:E1; [|apply Hone; [lia|]; intros x l' t E; injection E as <- <-; no_shape].
    assert (Htwo : (forall x l' t, l2 = x :: l' -> ~ shape (b0 :: b1 :: x :: t)) -> repaired (b0 :: b1 :: l2) (fffd ++ lossy l2)).
    { intros Hx. apply (broken_here [b0; b1] l2); [discriminate|right; exists [0x80]; cbn [app shape]; repeat split; (lia || assumption)|exact Hx| |apply IH; [lia|exact Hb2]].
      intros q Hq Hl Hh. apply (long_char b0 q 2); [lia|lia|lia|exact Hq|exact Hl|exact Hh]. }
    destruct l2 as [|b2 l3].
    { rewrite <- (app_nil_r fffd). apply Htwo. intros x l' t E. discriminate. }
    apply bytes_ok_cons in Hb2 as [Hb2 Hb3]. cbn [length] in Hn. destruct (is_cont b2) eqn:E2; [|apply Htwo; intros x l' t E; injection E as <- <-; no_shape].
    apply (Hchar [b0; b1; b2] l3); [cbn [shape]; repeat split; (lia || assumption)|lia|exact Hb3]. }
  destruct (Z.leb_spec 0xf0 b0) as [H5|H5]; [|lia]. destruct (Z.leb_spec b0 0xf4) as [H6|H6]; cbn [andb]; [|apply Hone; [lia|]; intros x l' t E; no_shape].
  destruct l1 as [|b1 l2].
  { rewrite <- (app_nil_r fffd). apply Hone; [lia|]. intros x l' t E. discriminate. }
  apply bytes_ok_cons in Hb as [Hb1 Hb2]. cbn [length] in Hn. destruct (second_ok b0 b1) eqn:E1; [|apply Hone; [lia|]; intros x l' t E; injection E as <- <-; no_shape].
  assert (Htwo : (forall x l' t, l2 = x :: l' -> ~ shape (b0 :: b1 :: x :: t)) -> repaired (b0 :: b1 :: l2) (fffd ++ lossy l2)).
  { intros Hx. apply (broken_here [b0; b1] l2); [discriminate|right; exists [0x80; 0x80]; cbn [app shape]; repeat split; (lia || assumption)|exact Hx| |apply IH; [lia|exact Hb2]].
    intros q Hq Hl Hh. apply (long_char4 b0 q 2); [lia|lia|exact Hq|exact Hl|exact Hh]. }
  destruct l2 as [|b2 l3].
  { rewrite <- (app_nil_r fffd). apply Htwo. intros x l' t E. discriminate. }
  apply bytes_ok_cons in Hb2 as [Hb2 Hb3]. cbn [length] in Hn. destruct (is_cont b2) eqn:E2; [|apply Htwo; intros x l' t E; injection E as <- <-; no_shape].
  assert (Hthree : (forall x l' t, l3 = x :: l' -> ~ shape (b0 :: b1 :: b2 :: x :: t)) -> repaired (b0 :: b1 :: b2 :: l3) (fffd ++ lossy l3)).
  { intros Hx. apply (broken_here [b0; b1; b2] l3); [discriminate|right; exists [0x80]; cbn [app shape]; repeat split; (lia || assumption)|exact Hx| |apply IH; [lia|exact Hb3]].
    intros q Hq Hl Hh. apply (long_char4 b0 q 3); [lia|lia|exact Hq|exact Hl|exact Hh]. }
  destruct l3 as [|b3 l4].
  { rewrite <- (app_nil_r fffd). apply Hthree. intros x l' t E. discriminate. }
  apply bytes_ok_cons in Hb3 as [Hb3 Hb4]. cbn [length] in Hn. destruct (is_cont b3) eqn:E3; [|apply Hthree; intros x l' t E; injection E as <- <-; no_shape].
  apply (Hchar [b0; b1; b2; b3] l4); [cbn [shape]; repeat split; (lia || assumption)|lia|exact Hb4].
Qed.
Lemma prefix_eq : forall (p q l r : list Z), p ++ l = q ++ r -> length p = length q -> p = q /\ l = r.
Proof.
  induction p as [|a p IH]; intros [|b q] l r E Hl; try discriminate; [now split|]. cbn [app] in E. injection E as <- E. cbn [length] in Hl. destruct (IH q l r E ltac:(lia)) as [-> ->]. now split.
Qed.
Lemma repaired_unique : forall l r, repaired l r -> forall r', repaired l r' -> r' = r.
Proof.
  assert (Hne : forall c r, utf8_char c ++ r <> []).
  { intros c r. unfold utf8_char. destruct (c <=? 127); [|destruct (c <=? 2047); [|destruct (c <=? 65535)]]; discriminate. }
  induction 1 as [|c l r Hc Hr IH|p l r Hp Hn Hb Hm Hr IH]; intros r' Hr'.
  - inversion Hr' as [|c l r Hc Hr E|p l r Hp Hn Hb Hm Hr E]; [reflexivity|now elim (Hne _ _ E)|destruct p; [now elim Hp|discriminate]].
  - inversion Hr' as [E|c' l' r'' Hc' Hr'' E|p l' r'' Hp Hn Hb Hm Hr'' E].
    + symmetry in E. now elim (Hne _ _ E).
    + apply utf8_char_inj in E as [-> ->]; [|assumption..]. f_equal. now apply IH.
    + exfalso. apply (Hn c Hc). exists l. exact E.
  - inversion Hr' as [E|c' l' r'' Hc' Hr'' E|p' l' r'' Hp' Hn' Hb' Hm' Hr'' E].
    + destruct p; [now elim Hp|discriminate].
    + exfalso. apply (Hn c' Hc'). exists l'. now symmetry.
    + assert (L : length p = length p').
      { assert (1 <= length p /\ 1 <= length p')%nat by (destruct p; [now elim Hp|]; destruct p'; [now elim Hp'|]; cbn; lia).
        destruct (Nat.lt_trichotomy (length p) (length p')) as [X|[X|X]]; [|exact X|]; exfalso.
        - destruct Hb' as [Hb'|Hb']; [lia|]. apply (Hm p'); [exists l'; now symmetry|exact X|exact Hb'].
        - destruct Hb as [Hb|Hb]; [lia|]. apply (Hm' p); [exists l; exact E|exact X|exact Hb]. }
      symmetry in E. destruct (prefix_eq p p' l l' E L) as [-> ->]. f_equal. now apply IH.
Qed.
Lemma repaired_valid : forall l r, repaired l r -> exists cs, Forall scalar cs /\ r = utf8_text cs.
Proof.
  induction 1 as [|c l r Hc Hr (cs & Hcs & ->)|p l r Hp Hn Hb Hm Hr (cs & Hcs & ->)].
  - exists []. split; [constructor|reflexivity].
  - exists (c :: cs). split; [now constructor|reflexivity].
  - exists (0xfffd :: cs). split; [constructor; [right; lia|exact Hcs]|reflexivity].
Qed.
Lemma lossy_spec : forall l, bytes_ok l -> exists r, repaired l r /\ (forall r', repaired l r' -> r' = r) /\ from_utf8_lossy l = str_of_bytes r /\ from_utf8 r = Ok (from_utf8_lossy l).
Proof.
  intros l Hb. pose proof (lossy_repaired (length l) l (le_n _) Hb) as Hr. exists (lossy l). split; [exact Hr|]. split; [now apply repaired_unique|]. split; [reflexivity|].
  destruct (repaired_valid _ _ Hr) as (cs & Hcs & E). unfold from_utf8, from_utf8_lossy. rewrite E. now rewrite utf8_complete.
Qed.
