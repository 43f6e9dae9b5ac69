(** * Facts about the texts of balance data *)
From Coq Require Import Ascii.
From Verif Require Import Base Utf8 Utf8Facts Convert ConvertSpec DetailsData Files BalanceFiles BalanceSpec.
#[local] Open Scope string_scope.
#[local] Open Scope Z_scope.
#[local] Open Scope list_scope.

Lemma list_app : forall a b, list_ascii_of_string (a ++ b)%string = list_ascii_of_string a ++ list_ascii_of_string b.
Proof. induction a as [|c a IH]; intros b; cbn; [reflexivity|]. now rewrite IH. Qed.
Lemma list_inj : forall a b, list_ascii_of_string a = list_ascii_of_string b -> a = b.
Proof. intros a b E. rewrite <- (string_of_list_ascii_of_string a), <- (string_of_list_ascii_of_string b). now rewrite E. Qed.
Lemma sapp_assoc : forall a b c : string, ((a ++ b) ++ c)%string = (a ++ (b ++ c))%string.
Proof. induction a as [|x a IH]; intros b c; cbn; [reflexivity|]. now rewrite IH. Qed.
Lemma sapp_nil : forall a : string, (a ++ "")%string = a.
Proof. induction a as [|x a IH]; cbn; [reflexivity|]. now rewrite IH. Qed.
Lemma slen_app : forall a b : string, String.length (a ++ b) = (String.length a + String.length b)%nat.
Proof. induction a as [|x a IH]; intros b; cbn; [reflexivity|]. now rewrite IH. Qed.
Lemma contains_app : forall c a b, contains c (a ++ b)%string <-> contains c a \/ contains c b.
Proof. intros. unfold contains. rewrite list_app, in_app_iff. reflexivity. Qed.
Lemma Z_of_ascii_of_Z : forall z, 0 <= z < 256 -> Z_of_ascii (ascii_of_Z z) = z.
Proof. intros z Hz. unfold Z_of_ascii, ascii_of_Z. rewrite N_ascii_embedding by lia. lia. Qed.

(** ** Suffixes *)
Lemma strip_some : forall suf s r, strip_suffix suf s = Some r -> s = (r ++ suf)%string.
Proof.
  intros suf s. induction s as [|c s IH]; intros r E; cbn [strip_suffix] in E.
  - destruct (String.eqb_spec "" suf) as [<-|]; [injection E as <-; reflexivity|discriminate].
  - destruct (String.eqb_spec (String c s) suf) as [<-|]; [injection E as <-; reflexivity|]. destruct (strip_suffix suf s) as [r'|] eqn:Es; [|discriminate]. injection E as <-. cbn. now rewrite <- (IH _ eq_refl).
Qed.
Lemma strip_app : forall suf r, strip_suffix suf (r ++ suf)%string = Some r.
Proof.
  intros suf r. induction r as [|c r IH]; cbn [append].
  - destruct suf; cbn [strip_suffix]; [reflexivity|now rewrite String.eqb_refl].
  - cbn [strip_suffix]. destruct (String.eqb_spec (String c (r ++ suf)) suf) as [E|]; [|now rewrite IH].
    exfalso. apply (f_equal String.length) in E. cbn in E. rewrite slen_app in E. lia.
Qed.
Lemma strip_none : forall suf s, strip_suffix suf s = None -> ~ ends_with suf s.
Proof. intros suf s E (r & ->). rewrite strip_app in E. discriminate. Qed.
Lemma times_app : forall n s, (times n s ++ s)%string = (s ++ times n s)%string.
Proof. induction n as [|n IH]; intros s; cbn [times]; [cbn; now rewrite sapp_nil|]. now rewrite sapp_assoc, IH. Qed.
Lemma trim_bare : forall n s, (String.length s <= n)%nat -> bare_name s (trim_fuel n ".json" s).
Proof.
  induction n as [|n IH]; intros s Hn; cbn [trim_fuel].
  - destruct s; [|cbn in Hn; lia]. split; [|exists O; reflexivity]. intros (p & E). apply (f_equal String.length) in E. rewrite slen_app in E. cbn in E. lia.
  - destruct (strip_suffix ".json" s) as [r|] eqn:E.
    + apply strip_some in E. subst s. rewrite slen_app in Hn. cbn [String.length] in Hn. destruct (IH r) as (H1 & j & H2); [lia|]. split; [exact H1|]. exists (Datatypes.S j).
      rewrite H2 at 1. cbn [times]. rewrite sapp_assoc. f_equal. apply times_app.
    + split; [now apply strip_none|]. exists O. cbn. now rewrite sapp_nil.
Qed.
Lemma bare_fun : forall f n n', bare_name f n -> bare_name f n' -> n = n'.
Proof.
  assert (G : forall j j' n n', ~ ends_with ".json" n -> ~ ends_with ".json" n' -> (n ++ times j ".json")%string = (n' ++ times j' ".json")%string -> n = n').
  { induction j as [|j IH]; intros j' n n' Hn Hn' E.
    - destruct j' as [|j']; [cbn in E; now rewrite !sapp_nil in E|]. exfalso. apply Hn. exists (n' ++ times j' ".json")%string. cbn [times] in E. rewrite sapp_nil in E. rewrite E, <- times_app. now rewrite sapp_assoc.
    - destruct j' as [|j']; [exfalso; apply Hn'; exists (n ++ times j ".json")%string; cbn [times] in E; rewrite sapp_nil in E; rewrite <- E, <- times_app; now rewrite sapp_assoc|].
      apply (IH j' n n' Hn Hn'). cbn [times] in E. rewrite <- !times_app, <- !sapp_assoc in E.
      pose proof (f_equal (strip_suffix ".json") E) as K. rewrite !strip_app in K. now injection K. }
  intros f n n' (H1 & j & ->) (H2 & j' & E). exact (G j j' n n' H1 H2 E).
Qed.
Lemma trim_spec : forall f n, trim_end_matches ".json" f = n <-> bare_name f n.
Proof.
  intros f n. split; [intros <-; now apply trim_bare|]. intros Hb. eapply bare_fun; [|exact Hb]. now apply trim_bare.
Qed.

(** ** Numerals *)
Lemma digits_mono : forall l acc v, digits l acc v -> 0 <= acc -> acc <= v.
Proof. induction l as [|c l IH]; intros acc v H Ha; cbn [digits] in H; [lia|]. destruct H as [H1 H2]. apply IH in H2; lia. Qed.
Lemma parse_digits_spec : forall s acc v, 0 <= acc < two32 -> parse_digits s acc = Some v <-> digits (list_ascii_of_string s) acc v /\ v < two32.
Proof.
  induction s as [|c s IH]; intros acc v Ha; cbn [parse_digits list_ascii_of_string digits].
  - split; [intros E; injection E as <-; split; [reflexivity|lia]|]. intros [-> _]. reflexivity.
  - destruct ((48 <=? Z_of_ascii c) && (Z_of_ascii c <=? 57)) eqn:Ec.
    + apply andb_true_iff in Ec as [E1 E2]. apply Z.leb_le in E1, E2. replace (10 * acc + (Z_of_ascii c - 48)) with (acc * 10 + (Z_of_ascii c - 48)) by lia.
      destruct (Z.ltb_spec (acc * 10 + (Z_of_ascii c - 48)) two32) as [Hl|Hl].
      * rewrite IH by lia. tauto.
      * split; [discriminate|]. intros [[_ H] Hv]. apply digits_mono in H; lia.
    + apply andb_false_iff in Ec. rewrite !Z.leb_gt in Ec. split; [discriminate|]. intros [[H _] _]. lia.
Qed.
Lemma parse_u32_spec : forall s v, parse_u32 s = Some v <-> numeral s v.
Proof.
  intros s v. unfold numeral. assert (T : 0 <= 0 < two32) by (unfold two32; lia). destruct s as [|c s]; cbn [parse_u32].
  - split; [discriminate|]. intros (_ & l & Hl & _ & [E|E]); cbn in E; congruence.
  - destruct (Ascii.eqb_spec c "+") as [->|Hc].
    + transitivity (s <> "" /\ parse_digits s 0 = Some v); [destruct s; split; [discriminate|intros [H _]; congruence|intros H; split; [discriminate|exact H]|tauto]|].
      rewrite parse_digits_spec by exact T. split.
      * intros [Hs [Hd Hv]]. split; [exact Hv|]. exists (list_ascii_of_string s). split; [destruct s; [congruence|discriminate]|]. split; [exact Hd|]. right. reflexivity.
      * intros (Hv & l & Hl & Hd & [E|E]); cbn [list_ascii_of_string] in E.
        -- subst l. cbn [digits] in Hd. destruct Hd as [[H _] _]. vm_compute in H. now destruct H.
        -- injection E as <-. split; [|tauto]. intros ->. now apply Hl.
    + rewrite parse_digits_spec by exact T. split.
      * intros [Hd Hv]. split; [exact Hv|]. exists (list_ascii_of_string (String c s)). split; [discriminate|]. split; [exact Hd|]. now left.
      * intros (Hv & l & Hl & Hd & [E|E]); [rewrite E; auto|]. cbn [list_ascii_of_string] in E. congruence.
Qed.
Lemma show_digits_spec : forall n v acc, 0 <= v < 10 ^ Z.of_nat n -> (0 < n)%nat ->
  exists l, list_ascii_of_string (show_digits n v acc) = l ++ list_ascii_of_string acc /\ l <> [] /\ forall a, digits l a (a * 10 ^ Z.of_nat (length l) + v).
Proof.
  induction n as [|n IH]; intros v acc Hv Hn; [lia|]. cbn [show_digits].
  assert (Hc : Z_of_ascii (ascii_of_Z (48 + v mod 10)) = 48 + v mod 10) by (apply Z_of_ascii_of_Z; dlia).
  destruct (Z.ltb_spec v 10) as [Hs|Hs].
  - exists [ascii_of_Z (48 + v mod 10)]. split; [reflexivity|]. split; [discriminate|]. intros a. cbn [digits length]. rewrite Hc. change (10 ^ Z.of_nat 1) with 10. rewrite Z.mod_small by lia. lia.
  - destruct n as [|n]; [change (10 ^ Z.of_nat 1) with 10 in Hv; lia|].
    destruct (IH (v / 10) (String (ascii_of_Z (48 + v mod 10)) acc)) as (l & El & Hl & Hd).
    { rewrite Nat2Z.inj_succ, Z.pow_succ_r in Hv by lia. dlia. }
    { lia. }
    exists (l ++ [ascii_of_Z (48 + v mod 10)]). split; [rewrite El; cbn [list_ascii_of_string]; now rewrite <- app_assoc|]. split; [destruct l; discriminate|].
    intros a. rewrite app_length. cbn [length]. replace (Z.of_nat (length l + 1)) with (Z.succ (Z.of_nat (length l))) by lia. rewrite Z.pow_succ_r by lia.
    assert (G : forall l a b z, digits l a b -> 48 <= Z_of_ascii z <= 57 -> digits (l ++ [z]) a (10 * b + (Z_of_ascii z - 48))).
    { clear. induction l as [|c l IHl]; intros a b z H Hz; cbn [app digits] in *; [subst b; auto|]. destruct H as [H1 H2]. split; [exact H1|]. now apply IHl. }
    replace (a * (10 * 10 ^ Z.of_nat (length l)) + v) with (10 * (a * 10 ^ Z.of_nat (length l) + v / 10) + (Z_of_ascii (ascii_of_Z (48 + v mod 10)) - 48)) by (rewrite Hc; dlia).
    apply G; [apply Hd|rewrite Hc; dlia].
Qed.
Lemma show_digits_list : forall v, 0 <= v < two32 -> exists l, list_ascii_of_string (show_u32 v) = l /\ l <> [] /\ digits l 0 v.
Proof.
  intros v Hv. unfold show_u32. destruct (show_digits_spec 10 v "") as (l & El & Hl & Hd); [unfold two32 in Hv; change (10 ^ Z.of_nat 10) with 10000000000; lia|lia|].
  exists l. split; [rewrite El; cbn; now rewrite app_nil_r|]. split; [exact Hl|]. specialize (Hd 0). now rewrite Z.mul_0_l in Hd.
Qed.
Lemma show_numeral : forall v, 0 <= v < two32 -> numeral (show_u32 v) v.
Proof. intros v Hv. destruct (show_digits_list v Hv) as (l & El & Hl & Hd). split; [lia|]. exists l. auto. Qed.
Lemma digits_fun : forall l a v w, digits l a v -> digits l a w -> v = w.
Proof. induction l as [|c l IH]; intros a v w H H'; cbn [digits] in *; [congruence|]. eapply IH; [apply H|apply H']. Qed.
Lemma numeral_fun : forall s v w, numeral s v -> numeral s w -> v = w.
Proof. intros s v w H H'. apply parse_u32_spec in H, H'. congruence. Qed.
Lemma show_inj : forall v w, 0 <= v < two32 -> 0 <= w < two32 -> show_u32 v = show_u32 w -> v = w.
Proof. intros v w Hv Hw E. apply (numeral_fun (show_u32 v)); [now apply show_numeral|]. rewrite E. now apply show_numeral. Qed.
Lemma digits_chars : forall l a v c, digits l a v -> In c l -> 48 <= Z_of_ascii c <= 57.
Proof. induction l as [|x l IH]; intros a v c H Hi; [destruct Hi|]. cbn [digits] in H. destruct Hi as [<-|Hi]; [apply H|]. eapply IH; [apply H|exact Hi]. Qed.
Lemma show_no_char : forall v c, 0 <= v < two32 -> ~ 48 <= Z_of_ascii c <= 57 -> ~ contains c (show_u32 v).
Proof. intros v c Hv Hc Hi. destruct (show_digits_list v Hv) as (l & El & _ & Hd). unfold contains in Hi. rewrite El in Hi. apply Hc. eapply digits_chars; eassumption. Qed.

(** ** Paths *)
Lemma split_plain : forall s, ~ contains "/" s -> split_slash s = [s].
Proof.
  induction s as [|c s IH]; intros H; cbn [split_slash]; [reflexivity|]. destruct (Ascii.eqb_spec c "/") as [->|]; [exfalso; apply H; now left|]. rewrite IH; [reflexivity|]. intros K. apply H. now right.
Qed.
Lemma split_join : forall a b, ~ contains "/" a -> split_slash (a ++ "/" ++ b)%string = a :: split_slash b.
Proof.
  induction a as [|c a IH]; intros b H; cbn [append split_slash]; [reflexivity|]. destruct (Ascii.eqb_spec c "/") as [->|]; [exfalso; apply H; now left|].
  change (a ++ String "/" b)%string with (a ++ "/" ++ b)%string. rewrite IH; [reflexivity|]. intros K. apply H. now right.
Qed.
Lemma split_concat : forall l, l <> [] -> Forall (fun n => ~ contains "/" n) l -> split_slash (String.concat "/" l) = l.
Proof.
  intros l Hl F. induction F as [|n l Hn F IH]; [congruence|]. destruct l as [|n' l]; cbn [String.concat]; [now apply split_plain|].
  rewrite (split_join n _ Hn). f_equal. apply IH. discriminate.
Qed.
Lemma has_nul_spec : forall s, has_nul s = true <-> contains "000" s.
Proof.
  induction s as [|c s IH]; cbn [has_nul]; [split; [discriminate|intros []]|]. rewrite orb_true_iff, IH. unfold contains. cbn [list_ascii_of_string In]. destruct (Ascii.eqb_spec c "000"); split; intros [K|K]; auto; discriminate.
Qed.
Lemma unit_path : forall v n, 0 <= v < two32 -> ~ contains "/" n -> components (show_u32 v ++ "/" ++ n ++ ".json")%string = [show_u32 v; (n ++ ".json")%string].
Proof.
  intros v n Hv Hn. unfold components. rewrite split_join; [|apply show_no_char; [exact Hv|vm_compute; intros [H _]; now apply H]].
  rewrite split_plain; [|rewrite contains_app; intros [K|K]; [auto|]; vm_compute in K; repeat (destruct K as [K|K]; [discriminate|]); destruct K].
  cbn [filter]. assert (Hs : forall x y, show_u32 v = String x y -> 48 <= Z_of_ascii x <= 57).
  { intros x y E. destruct (show_digits_list v Hv) as (l & El & _ & Hd). rewrite E in El. cbn in El. subst l. apply Hd. }
  assert (E1 : String.eqb (show_u32 v) "" = false). { apply String.eqb_neq. intros E. destruct (show_digits_list v Hv) as (l & El & Hl & _). rewrite E in El. now subst l. }
  assert (E2 : String.eqb (show_u32 v) "." = false). { apply String.eqb_neq. intros E. destruct (Hs _ _ E) as [H _]. vm_compute in H. now apply H. }
  rewrite E1, E2. cbn [negb andb].
  assert (L : (5 <= String.length (n ++ ".json"))%nat) by (rewrite slen_app; cbn; lia).
  assert (E3 : String.eqb (n ++ ".json") "" = false). { apply String.eqb_neq. intros E. rewrite E in L. cbn in L. lia. }
  assert (E4 : String.eqb (n ++ ".json") "." = false). { apply String.eqb_neq. intros E. rewrite E in L. cbn in L. lia. }
  now rewrite E3, E4.
Qed.
