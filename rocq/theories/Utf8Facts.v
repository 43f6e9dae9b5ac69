From Coq Require Import Ascii.
From Verif Require Import Base Utf8.
#[local] Open Scope list_scope.

Ltac zb := repeat match goal with
  | H : andb _ _ = true |- _ => apply andb_true_iff in H; destruct H
  | H : (_ <=? _) = true |- _ => apply Z.leb_le in H
  | H : (_ <=? _) = false |- _ => apply Z.leb_gt in H
  | H : (_ =? _) = true |- _ => apply Z.eqb_eq in H
  | H : (_ =? _) = false |- _ => apply Z.eqb_neq in H
  end.
Ltac zbg := repeat match goal with
  | |- andb _ _ = true => apply andb_true_iff; split
  | |- (_ <=? _) = true => apply Z.leb_le
  end.

Lemma utf8_char_ok : forall c rest, scalar c -> utf8_ok (utf8_char c ++ rest) = utf8_ok rest.
Proof.
  intros c rest Hc. unfold scalar in Hc. unfold utf8_char.
  destruct (Z.leb_spec c 0x7f).
  { cbn [app utf8_ok]. replace (c <=? 127) with true by (symmetry; apply Z.leb_le; lia). reflexivity. }
  destruct (Z.leb_spec c 0x7ff).
  { cbn [app utf8_ok].
    assert (2 <= c / 64 < 32) by dlia. assert (0 <= c mod 64 < 64) by dlia.
    replace (192 + c / 64 <=? 127) with false by (symmetry; apply Z.leb_gt; lia).
    replace ((194 <=? 192 + c / 64) && (192 + c / 64 <=? 223)) with true by (symmetry; zbg; lia).
    replace (is_cont (128 + c mod 64)) with true by (symmetry; unfold is_cont; zbg; lia). reflexivity. }
  destruct (Z.leb_spec c 0xffff).
  { cbn [app utf8_ok].
    assert (0 <= c / 4096 < 16) by dlia. assert (0 <= c / 64 mod 64 < 64) by dlia. assert (0 <= c mod 64 < 64) by dlia.
    assert (c / 4096 = 0 -> 32 <= c / 64 mod 64) by dlia.
    assert (c / 4096 = 13 -> c / 64 mod 64 < 32) by dlia.
    replace (224 + c / 4096 <=? 127) with false by (symmetry; apply Z.leb_gt; lia).
    replace ((194 <=? 224 + c / 4096) && (224 + c / 4096 <=? 223)) with false
      by (symmetry; apply andb_false_iff; right; apply Z.leb_gt; lia).
    replace ((224 <=? 224 + c / 4096) && (224 + c / 4096 <=? 239)) with true by (symmetry; zbg; lia).
    replace (is_cont (128 + c mod 64)) with true by (symmetry; unfold is_cont; zbg; lia).
    destruct (Z.eqb_spec (224 + c / 4096) 224).
    { replace ((160 <=? 128 + c / 64 mod 64) && (128 + c / 64 mod 64 <=? 191)) with true by (symmetry; zbg; lia). reflexivity. }
    destruct (Z.eqb_spec (224 + c / 4096) 237).
    { replace ((128 <=? 128 + c / 64 mod 64) && (128 + c / 64 mod 64 <=? 159)) with true by (symmetry; zbg; lia). reflexivity. }
    replace (is_cont (128 + c / 64 mod 64)) with true by (symmetry; unfold is_cont; zbg; lia). reflexivity. }
  cbn [app utf8_ok].
  assert (0 <= c / 262144 <= 4) by dlia. assert (0 <= c / 4096 mod 64 < 64) by dlia.
  assert (0 <= c / 64 mod 64 < 64) by dlia. assert (0 <= c mod 64 < 64) by dlia.
  assert (c / 262144 = 0 -> 16 <= c / 4096 mod 64) by dlia.
  assert (c / 262144 = 4 -> c / 4096 mod 64 < 16) by dlia.
  replace (240 + c / 262144 <=? 127) with false by (symmetry; apply Z.leb_gt; lia).
  replace ((194 <=? 240 + c / 262144) && (240 + c / 262144 <=? 223)) with false
    by (symmetry; apply andb_false_iff; right; apply Z.leb_gt; lia).
  replace ((224 <=? 240 + c / 262144) && (240 + c / 262144 <=? 239)) with false
    by (symmetry; apply andb_false_iff; right; apply Z.leb_gt; lia).
  replace ((240 <=? 240 + c / 262144) && (240 + c / 262144 <=? 244)) with true by (symmetry; zbg; lia).
  replace (is_cont (128 + c mod 64)) with true by (symmetry; unfold is_cont; zbg; lia).
  replace (is_cont (128 + c / 64 mod 64)) with true by (symmetry; unfold is_cont; zbg; lia).
  destruct (Z.eqb_spec (240 + c / 262144) 240).
  { replace ((144 <=? 128 + c / 4096 mod 64) && (128 + c / 4096 mod 64 <=? 191)) with true by (symmetry; zbg; lia). reflexivity. }
  destruct (Z.eqb_spec (240 + c / 262144) 244).
  { replace ((128 <=? 128 + c / 4096 mod 64) && (128 + c / 4096 mod 64 <=? 143)) with true by (symmetry; zbg; lia). reflexivity. }
  replace (is_cont (128 + c / 4096 mod 64)) with true by (symmetry; unfold is_cont; zbg; lia). reflexivity.
Qed.

Lemma utf8_complete : forall cs, Forall scalar cs -> utf8_ok (utf8_text cs) = true.
Proof.
  induction 1 as [|c cs Hc _ IH]; [reflexivity|]. unfold utf8_text. cbn [flat_map]. rewrite utf8_char_ok by exact Hc. exact IH.
Qed.

(** Splitting off one character. *)
Lemma utf8_first : forall l, bytes_ok l -> l <> [] -> utf8_ok l = true ->
  exists c rest, scalar c /\ l = utf8_char c ++ rest /\ utf8_ok rest = true.
Proof.
  intros [|b0 l1] Hb Hne Hok; [congruence|]. cbn [utf8_ok] in Hok. apply bytes_ok_cons in Hb as [Hb0 Hb1].
  unfold byte_ok in Hb0.
  destruct (b0 <=? 127) eqn:E0.
  { zb. exists b0, l1. split; [left; lia|]. split; [|exact Hok]. unfold utf8_char.
    replace (b0 <=? 127) with true by (symmetry; apply Z.leb_le; lia). reflexivity. }
  destruct ((194 <=? b0) && (b0 <=? 223)) eqn:E1.
  { destruct l1 as [|b1 l2]; [discriminate|]. unfold is_cont in Hok. zb.
    exists ((b0 - 192) * 64 + (b1 - 128)), l2. split; [left; lia|]. split; [|assumption]. unfold utf8_char.
    replace ((b0 - 192) * 64 + (b1 - 128) <=? 127) with false by (symmetry; apply Z.leb_gt; lia).
    replace ((b0 - 192) * 64 + (b1 - 128) <=? 2047) with true by (symmetry; apply Z.leb_le; lia).
    cbn [app]. f_equal; [dlia|]. f_equal. dlia. }
  destruct ((224 <=? b0) && (b0 <=? 239)) eqn:E2.
  { destruct l1 as [|b1 [|b2 l3]]; [discriminate..|].
    apply andb_true_iff in Hok as [Hok H3]. apply andb_true_iff in Hok as [H1 H2].
    assert (R : 128 <= b1 <= 191 /\ (b0 = 224 -> 160 <= b1) /\ (b0 = 237 -> b1 <= 159)).
    { destruct (Z.eqb_spec b0 224); [zb; lia|]. destruct (Z.eqb_spec b0 237); [zb; lia|]. unfold is_cont in H1. zb. lia. }
    unfold is_cont in H2. zb.
    exists ((b0 - 224) * 4096 + (b1 - 128) * 64 + (b2 - 128)), l3.
    split. { unfold scalar. lia. }
    split; [|assumption]. unfold utf8_char.
    assert (2048 <= (b0 - 224) * 4096 + (b1 - 128) * 64 + (b2 - 128)) by lia.
    replace ((b0 - 224) * 4096 + (b1 - 128) * 64 + (b2 - 128) <=? 127) with false by (symmetry; apply Z.leb_gt; lia).
    replace ((b0 - 224) * 4096 + (b1 - 128) * 64 + (b2 - 128) <=? 2047) with false by (symmetry; apply Z.leb_gt; lia).
    replace ((b0 - 224) * 4096 + (b1 - 128) * 64 + (b2 - 128) <=? 65535) with true by (symmetry; apply Z.leb_le; lia).
    cbn [app]. f_equal; [dlia|]. f_equal; [dlia|]. f_equal. dlia. }
  destruct ((240 <=? b0) && (b0 <=? 244)) eqn:E3; [|discriminate].
  destruct l1 as [|b1 [|b2 [|b3 l4]]]; [discriminate..|].
  apply andb_true_iff in Hok as [Hok H4]. apply andb_true_iff in Hok as [Hok H3]. apply andb_true_iff in Hok as [H1 H2].
  assert (R : 128 <= b1 <= 191 /\ (b0 = 240 -> 144 <= b1) /\ (b0 = 244 -> b1 <= 143)).
  { destruct (Z.eqb_spec b0 240); [zb; lia|]. destruct (Z.eqb_spec b0 244); [zb; lia|]. unfold is_cont in H1. zb. lia. }
  unfold is_cont in H2, H3. zb.
  set (c := (b0 - 240) * 262144 + (b1 - 128) * 4096 + (b2 - 128) * 64 + (b3 - 128)).
  assert (65536 <= c <= 1114111) by (unfold c; lia).
  exists c, l4. split. { unfold scalar. lia. }
  split; [|assumption]. unfold utf8_char.
  replace (c <=? 127) with false by (symmetry; apply Z.leb_gt; lia).
  replace (c <=? 2047) with false by (symmetry; apply Z.leb_gt; lia).
  replace (c <=? 65535) with false by (symmetry; apply Z.leb_gt; lia).
  cbn [app]. unfold c. f_equal; [dlia|]. f_equal; [dlia|]. f_equal; [dlia|]. f_equal. dlia.
Qed.

Lemma utf8_sound : forall n l, (length l <= n)%nat -> bytes_ok l -> utf8_ok l = true ->
  exists cs, Forall scalar cs /\ l = utf8_text cs.
Proof.
  induction n as [|n IH]; intros l Hn Hb Hok.
  { destruct l; [exists []; split; [constructor|reflexivity]|cbn in Hn; lia]. }
  destruct l as [|b l']; [exists []; split; [constructor|reflexivity]|].
  destruct (utf8_first (b :: l') Hb ltac:(discriminate) Hok) as (c & rest & Hc & El & Hr).
  assert (Hlen : (length rest <= n)%nat).
  { assert (length (b :: l') = length (utf8_char c ++ rest)) by congruence. rewrite app_length in H.
    assert (1 <= length (utf8_char c))%nat.
    { unfold utf8_char. destruct (c <=? 127); [cbn; lia|]. destruct (c <=? 2047); [cbn; lia|]. destruct (c <=? 65535); cbn; lia. }
    cbn [length] in *. lia. }
  rewrite El in Hb. apply bytes_ok_app in Hb as [_ Hb].
  destruct (IH rest Hlen Hb Hr) as (cs & Hcs & ->).
  exists (c :: cs). split; [constructor; assumption|]. exact El.
Qed.

Lemma utf8_exact : forall l, bytes_ok l -> (utf8_ok l = true <-> exists cs, Forall scalar cs /\ l = utf8_text cs).
Proof.
  intros l Hb. split.
  - intros Hok. eapply utf8_sound; eauto.
  - intros (cs & Hcs & ->). now apply utf8_complete.
Qed.

Lemma ascii_of_Z_inj : forall a b, byte_ok a -> byte_ok b -> ascii_of_Z a = ascii_of_Z b -> a = b.
Proof.
  intros a b Ha Hb E. unfold ascii_of_Z in E. apply (f_equal N_of_ascii) in E. unfold byte_ok in *.
  rewrite !N_ascii_embedding in E by lia. lia.
Qed.
Lemma str_of_bytes_inj : forall l l', bytes_ok l -> bytes_ok l' -> str_of_bytes l = str_of_bytes l' -> l = l'.
Proof.
  induction l as [|b l IH]; intros [|b' l'] Hl Hl' E; cbn in E; try discriminate; [reflexivity|].
  apply bytes_ok_cons in Hl as [Hb Hl]. apply bytes_ok_cons in Hl' as [Hb' Hl'].
  injection E as E1 E2. f_equal; [now apply ascii_of_Z_inj|]. now apply IH.
Qed.
Lemma str_of_bytes_length : forall l, String.length (str_of_bytes l) = length l.
Proof. induction l as [|b l IH]; [reflexivity|]. cbn [str_of_bytes fold_right String.length length]. f_equal. exact IH. Qed.

Lemma from_utf8_exact : forall l, bytes_ok l ->
  (forall s, from_utf8 l = Ok s <-> s = str_of_bytes l /\ exists cs, Forall scalar cs /\ l = utf8_text cs) /\
  (from_utf8 l = Err EUtf8 <-> ~ exists cs, Forall scalar cs /\ l = utf8_text cs) /\
  from_utf8 l <> Panic.
Proof.
  intros l Hb. pose proof (utf8_exact l Hb) as Hx. unfold from_utf8. destruct (utf8_ok l).
  - split; [|split; [|discriminate]].
    + intros s. split; [intros [= <-]; split; [reflexivity|tauto]|intros [-> _]; reflexivity].
    + split; [discriminate|tauto].
  - split; [|split; [|discriminate]].
    + intros s. split; [discriminate|intros [_ Hy]; apply Hx in Hy; discriminate].
    + split; [|reflexivity]. intros _ Hy. apply Hx in Hy. discriminate.
Qed.

Lemma from_utf8_inj : forall l l' s, bytes_ok l -> bytes_ok l' -> from_utf8 l = Ok s -> from_utf8 l' = Ok s -> l = l'.
Proof.
  unfold from_utf8. intros l l' s Hl Hl' E E'. destruct (utf8_ok l); [|discriminate]. destruct (utf8_ok l'); [|discriminate].
  apply str_of_bytes_inj; congruence.
Qed.

(** Prefix property: the first character can be read off. *)
Lemma split2 : forall c, c = 64 * (c / 64) + c mod 64.
Proof. intros. dlia. Qed.
Lemma split3 : forall c, c = 4096 * (c / 4096) + 64 * (c / 64 mod 64) + c mod 64.
Proof. intros c. replace (c / 4096) with (c / 64 / 64) by (rewrite Z.div_div by lia; reflexivity). dlia. Qed.
Lemma split4 : forall c, c = 262144 * (c / 262144) + 4096 * (c / 4096 mod 64) + 64 * (c / 64 mod 64) + c mod 64.
Proof.
  intros c. replace (c / 262144) with (c / 64 / 64 / 64) by (rewrite !Z.div_div by lia; reflexivity).
  replace (c / 4096) with (c / 64 / 64) by (rewrite Z.div_div by lia; reflexivity). dlia.
Qed.
Lemma cons_inj : forall (a b : Z) l l', a :: l = b :: l' -> a = b /\ l = l'.
Proof. intros a b l l' E. now injection E. Qed.
Lemma utf8_char_inj : forall c c' r r', scalar c -> scalar c' -> utf8_char c ++ r = utf8_char c' ++ r' -> c = c' /\ r = r'.
Proof.
  intros c c' r r' Hc Hc' E. unfold scalar, utf8_char in *.
  pose proof (split2 c). pose proof (split2 c'). pose proof (split3 c). pose proof (split3 c'). pose proof (split4 c). pose proof (split4 c').
  destruct (Z.leb_spec c 0x7f); [|destruct (Z.leb_spec c 0x7ff); [|destruct (Z.leb_spec c 0xffff)]];
  (destruct (Z.leb_spec c' 0x7f); [|destruct (Z.leb_spec c' 0x7ff); [|destruct (Z.leb_spec c' 0xffff)]]);
  cbn [app] in E; repeat (let Hx := fresh "Hx" in apply cons_inj in E as [Hx E]); first [split; [lia|assumption]|exfalso].
  all: clear H H0 H1 H2 H3 H4; dlia.
Qed.
Lemma utf8_text_inj : forall cs cs', Forall scalar cs -> Forall scalar cs' -> utf8_text cs = utf8_text cs' -> cs = cs'.
Proof.
  assert (Hne : forall c r, utf8_char c ++ r <> []).
  { intros c r. unfold utf8_char. destruct (c <=? 127); [|destruct (c <=? 2047); [|destruct (c <=? 65535)]]; discriminate. }
  induction cs as [|c cs IH]; intros [|c' cs'] Hs Hs' E; [reflexivity| | |].
  - exfalso. unfold utf8_text in E. cbn [flat_map] in E. symmetry in E. exact (Hne _ _ E).
  - exfalso. unfold utf8_text in E. cbn [flat_map] in E. exact (Hne _ _ E).
  - inversion Hs; inversion Hs'; subst. unfold utf8_text in E. cbn [flat_map] in E.
    apply utf8_char_inj in E as [-> E]; [|assumption..]. f_equal. apply IH; assumption.
Qed.
