(** * Names in [generate]: the number of the protocol, and the names of events *)
From Coq Require Import Ascii Lia DecimalString DecimalN DecimalPos.
From Verif Require Import Base BalanceJson ConvertSpec GenerateRun GenerateSpec GenerateFacts GenerateTexts.
#[local] Open Scope string_scope.
#[local] Open Scope Z_scope.
#[local] Open Scope list_scope.

(** ** Digits *)
Lemma digits_value_acc u p : digits_value (NilEmpty.string_of_uint u) (Z.pos p) = Z.pos (Pos.of_uint_acc u p).
Proof.
  revert p. induction u as [|u IH|u IH|u IH|u IH|u IH|u IH|u IH|u IH|u IH|u IH]; intros p; [reflexivity|..];
    cbn [NilEmpty.string_of_uint digits_value Pos.of_uint_acc]; rewrite <- IH; f_equal;
    unfold Ascii.nat_of_ascii; cbn -[Z.mul Z.add Pos.mul Pos.add]; lia.
Qed.
Lemma digits_value_uint u : digits_value (NilEmpty.string_of_uint u) 0 = Z.of_N (N.of_uint u).
Proof.
  unfold N.of_uint. induction u as [|u IH|u IH|u IH|u IH|u IH|u IH|u IH|u IH|u IH|u IH]; [reflexivity|exact IH|..];
    cbn [NilEmpty.string_of_uint Pos.of_uint Z.of_N]; rewrite <- digits_value_acc; reflexivity.
Qed.
Lemma decimal_value n : 0 <= n -> digits_value (decimal n) 0 = n.
Proof. intros H. unfold decimal. rewrite digits_value_uint, DecimalN.Unsigned.of_to, Z2N.id; [reflexivity | exact H]. Qed.
Lemma decimal_digits n : digits_of (decimal n) = decimal n.
Proof.
  unfold decimal. generalize (N.to_uint (Z.to_N n)). induction u as [|u IH|u IH|u IH|u IH|u IH|u IH|u IH|u IH|u IH|u IH]; [reflexivity|..];
    cbn [NilEmpty.string_of_uint digits_of]; unfold is_digit, Ascii.nat_of_ascii; cbn -[NilEmpty.string_of_uint digits_of]; now rewrite IH.
Qed.
Lemma decimal_plain n : all_plain (decimal n) = true.
Proof.
  unfold decimal. generalize (N.to_uint (Z.to_N n)). induction u as [|u IH|u IH|u IH|u IH|u IH|u IH|u IH|u IH|u IH|u IH]; [reflexivity|..];
    cbn [NilEmpty.string_of_uint all_plain]; rewrite IH; reflexivity.
Qed.
Fixpoint no_slash (s : string) : bool := match s with EmptyString => true | String a s' => (negb (Ascii.eqb a "/"%char) && no_slash s')%bool end.
Lemma decimal_no_slash n : no_slash (decimal n) = true.
Proof.
  unfold decimal. generalize (N.to_uint (Z.to_N n)). induction u as [|u IH|u IH|u IH|u IH|u IH|u IH|u IH|u IH|u IH|u IH]; [reflexivity|..];
    cbn [NilEmpty.string_of_uint no_slash]; rewrite IH; reflexivity.
Qed.
Lemma decimal_not_empty n : exists a s, decimal n = String a s /\ is_digit a = true.
Proof.
  unfold decimal. destruct (Z.to_N n) as [|p]; [exists "0"%char, ""; now split|].
  assert (H : N.to_uint (N.pos p) <> Decimal.Nil).
  { intros E. pose proof (DecimalN.Unsigned.of_to (N.pos p)) as O. rewrite E in O. discriminate O. }
  destruct (N.to_uint (N.pos p)); [contradiction|..]; eexists; eexists; (split; [reflexivity | reflexivity]).
Qed.
Lemma digits_app a b : digits_of (a ++ b) = (digits_of a ++ digits_of b)%string.
Proof. induction a as [|x a IH]; cbn [append digits_of]; [reflexivity|]. destruct (is_digit x); cbn [append]; now rewrite IH. Qed.
Lemma plain_app a b : all_plain (a ++ b) = (all_plain a && all_plain b)%bool.
Proof. induction a as [|x a IH]; cbn [append all_plain]; [reflexivity|]. now rewrite IH, andb_assoc. Qed.
Lemma no_slash_app a b : no_slash (a ++ b) = (no_slash a && no_slash b)%bool.
Proof. induction a as [|x a IH]; cbn [append no_slash]; [reflexivity|]. now rewrite IH, andb_assoc. Qed.

(** ** Paths *)
Lemma path_parts_one s cur : no_slash s = true -> path_parts s cur = [(cur ++ s)%string].
Proof.
  revert cur. induction s as [|a s IH]; intros cur N; cbn [path_parts no_slash] in *; [now rewrite sapp_nil|].
  apply andb_true_iff in N. destruct N as (N1 & N2). apply negb_true_iff in N1. rewrite N1, IH by exact N2. now rewrite sapp_assoc.
Qed.
Lemma path_parts_last d s cur : no_slash s = true -> exists l, path_parts (d ++ String "/" s) cur = l ++ [s].
Proof.
  intros N. revert cur. induction d as [|a d IH]; intros cur; cbn [append path_parts].
  - cbn. rewrite path_parts_one by exact N. now exists [cur].
  - destruct (Ascii.eqb a "/"%char); [|apply IH]. destruct (IH "") as (l & ->). now exists (cur :: l).
Qed.
Definition ordinary (n : string) : bool := (no_slash n && negb (String.eqb n "") && negb (String.eqb n ".") && negb (String.eqb n ".."))%bool.
Lemma file_name_last l n p : path_parts p "" = l ++ [n] -> ordinary n = true -> file_name p = Some n.
Proof.
  intros E O. unfold ordinary in O. rewrite !andb_true_iff, !negb_true_iff in O. destruct O as (((_ & O1) & O2) & O3).
  unfold file_name. rewrite E, filter_app. cbn [filter]. rewrite O1, O2. cbn [orb negb]. rewrite rev_app_distr. cbn [rev List.app]. now rewrite O3.
Qed.
(** The file of a path with or without directories. *)
Definition in_directory (dir name : string) : string := match dir with EmptyString => name | _ => (dir ++ String "/" name)%string end.
Lemma file_name_in dir n : ordinary n = true -> file_name (in_directory dir n) = Some n.
Proof.
  intros O. assert (N : no_slash n = true) by (unfold ordinary in O; now rewrite !andb_true_iff in O).
  destruct dir as [|a dir]; cbn [in_directory].
  - apply (file_name_last []); [|exact O]. now rewrite path_parts_one.
  - destruct (path_parts_last (String a dir) n "" N) as (l & E). now apply (file_name_last l).
Qed.

(** The number of the protocol: all the digits of a plain name. *)
Definition digit_free (s : string) : Prop := digits_of s = "".
Theorem number_of_name su dir pre n post :
  0 <= n < 2 ^ 64 -> all_plain (pre ++ post) = true -> no_slash (pre ++ post) = true -> digit_free pre -> digit_free post ->
  proto_number su (in_directory dir (pre ++ decimal n ++ post)) = Ok n.
Proof.
  intros R P S D1 D2. rewrite plain_app in P. rewrite no_slash_app in S. apply andb_true_iff in P, S. destruct P as (P1 & P2), S as (S1 & S2).
  destruct (decimal_not_empty n) as (a & r & E & A).
  assert (O : ordinary (pre ++ decimal n ++ post) = true).
  { unfold ordinary. rewrite !no_slash_app, S1, S2, decimal_no_slash. cbn [andb].
    assert (X : forall s, digits_of s = "" -> String.eqb (pre ++ decimal n ++ post) s = false).
    { intros s Hs. apply String.eqb_neq. intros X. apply (f_equal digits_of) in X. rewrite !digits_app, decimal_digits, Hs, E, D1 in X. discriminate X. }
    now rewrite !X. }
  unfold proto_number. rewrite file_name_in by exact O. cbn [or_panic obind]. unfold debug_name. rewrite !plain_app, P1, P2, decimal_plain. cbn [andb].
  assert (D : digits_of (String quote ((pre ++ decimal n ++ post) ++ String quote "")) = decimal n).
  { change (digits_of (String quote ((pre ++ decimal n ++ post) ++ String quote ""))) with (digits_of ((pre ++ decimal n ++ post) ++ String quote "")).
    rewrite !digits_app, D1, D2, decimal_digits. cbn [append]. rewrite sapp_nil. apply sapp_nil. }
  rewrite D. unfold parse_u64. rewrite E. rewrite <- E. cbv zeta. rewrite decimal_value by lia.
  replace (n <? 2 ^ 64) with true by (symmetry; apply Z.ltb_lt; lia). reflexivity.
Qed.

(** ** Names in quotes *)
Fixpoint has_no (a : ascii) (s : string) : bool := match s with EmptyString => true | String b s' => (negb (Ascii.eqb b a) && has_no a s')%bool end.

Lemma without_from_fuel p n m s : p <> "" -> (String.length s <= n)%nat -> (String.length s <= m)%nat -> without_from n p s = without_from m p s.
Proof.
  intros P. assert (Q : forall s r, drop_prefix p s = Some r -> (String.length r < String.length s)%nat).
  { destruct p as [|a p]; [contradiction|]. clear. revert a. induction p as [|b p IH]; intros a [|c s] r; cbn [drop_prefix]; try discriminate.
    - destruct (Ascii.eqb a c); [|discriminate]. intros E. injection E as <-. cbn. lia.
    - destruct (Ascii.eqb a c); [|discriminate]. intros E. apply IH in E. cbn [String.length]. lia. }
  revert m s. induction n as [|n IH]; intros m s L M.
  - destruct s; [|cbn in L; lia]. destruct m; cbn [without_from]; [reflexivity|]. destruct (drop_prefix p "") eqn:E; [|reflexivity].
    destruct p as [|? ?]; [contradiction | discriminate E].
  - destruct m as [|m].
    + destruct s; [|cbn in M; lia]. cbn [without_from]. destruct (drop_prefix p "") eqn:E; [|reflexivity]. destruct p as [|? ?]; [contradiction | discriminate E].
    + cbn [without_from]. destruct (drop_prefix p s) as [r|] eqn:E.
      * apply Q in E. apply IH; lia.
      * destruct s as [|a s]; [reflexivity|]. cbn [String.length] in *. f_equal. apply IH; lia.
Qed.
Lemma drop_prefix_last p s a : has_no a p = true ->
  drop_prefix p (s ++ String a "") = match drop_prefix p s with Some r => Some (r ++ String a "")%string | None => None end.
Proof.
  revert s. induction p as [|b p IH]; intros s H; [destruct s; reflexivity|]. cbn [has_no] in H. apply andb_true_iff in H. destruct H as (H1 & H2).
  apply negb_true_iff in H1. destruct s as [|c s]; cbn [append drop_prefix].
  - now rewrite H1.
  - destruct (Ascii.eqb b c); [now apply IH | reflexivity].
Qed.
Lemma without_last p s a : has_no a p = true -> without p (s ++ String a "") = (without p s ++ String a "")%string.
Proof.
  intros H. unfold without. destruct p as [|b p]; [reflexivity|]. set (q := String b p) in *. assert (Q : q <> "") by discriminate.
  rewrite slength_app. cbn [String.length].
  assert (G : forall n s, (String.length s <= n)%nat -> without_from (n + 1) q (s ++ String a "") = (without_from n q s ++ String a "")%string).
  { clear s. induction n as [|n IH]; intros s L.
    - destruct s; [|cbn in L; lia]. cbn [Nat.add without_from]. rewrite (drop_prefix_last q "" a H).
      destruct (drop_prefix q "") eqn:E; [destruct q; [contradiction | discriminate E]|]. reflexivity.
    - cbn [Nat.add without_from]. rewrite (drop_prefix_last q s a H). destruct (drop_prefix q s) as [r|] eqn:E.
      + apply IH. assert (R : (String.length r < String.length s)%nat).
        { clear - E Q. revert s r E. destruct q as [|x q]; [contradiction|]. clear Q. revert x. induction q as [|y q IH]; intros x [|c s] r; cbn [drop_prefix]; try discriminate.
          - destruct (Ascii.eqb x c); [|discriminate]. intros E. injection E as <-. cbn. lia.
          - destruct (Ascii.eqb x c); [|discriminate]. intros E. apply IH in E. cbn [String.length]. lia. }
        lia.
      + destruct s as [|c s]; cbn [append].
        * destruct n; cbn [Nat.add without_from]; [reflexivity|]. destruct (drop_prefix q "") eqn:E0; [rewrite E in E0; discriminate | reflexivity].
        * cbn [append]. f_equal. apply IH. cbn [String.length] in L. lia. }
  apply G. lia.
Qed.
Lemma without_first p s a : has_no a p = true -> p <> "" -> without p (String a s) = String a (without p s).
Proof.
  intros H Q. unfold without. destruct p as [|b p]; [contradiction|]. cbn [String.length without_from drop_prefix]. cbn [has_no] in H. apply andb_true_iff in H.
  destruct H as (H1 & _). apply negb_true_iff in H1. now rewrite H1.
Qed.
Definition is_quotes (s : string) : bool := match trim_left s with EmptyString => true | _ => false end.
Lemma rev_text_app s acc : rev_text s acc = (rev_text s "" ++ acc)%string.
Proof.
  revert acc. induction s as [|a s IH]; intros acc; cbn [rev_text]; [reflexivity|]. rewrite IH, (IH (String a "")). now rewrite sapp_assoc.
Qed.
Lemma trim_left_last s : trim_left (s ++ String quote "") = (if is_quotes s then "" else trim_left s ++ String quote "")%string.
Proof.
  unfold is_quotes. induction s as [|a s IH]; cbn [append trim_left]; [reflexivity|]. destruct (Ascii.eqb a quote); [exact IH | reflexivity].
Qed.
Lemma trim_quotes_quoted s : trim_quotes (String quote (s ++ String quote "")) = trim_quotes s.
Proof.
  unfold trim_quotes. cbn [trim_left]. rewrite Ascii.eqb_refl, trim_left_last. unfold is_quotes. destruct (trim_left s) as [|a r] eqn:E; [reflexivity|].
  f_equal. cbn [append rev_text]. assert (R : forall x acc, rev_text (x ++ String quote "") acc = String quote (rev_text x acc)).
  { induction x as [|b x IH]; intros acc; cbn [append rev_text]; [reflexivity | apply IH]. }
  rewrite R. cbn [trim_left]. now rewrite Ascii.eqb_refl.
Qed.
(** The name of a JSON string, with its quotes. *)
Lemma rust_name_quoted su s : rust_name su (String quote (s ++ String quote "")) = rust_name su s.
Proof.
  unfold rust_name. f_equal. rewrite without_first by (reflexivity || discriminate). rewrite without_last by reflexivity.
  rewrite without_first by (reflexivity || discriminate). rewrite without_last by reflexivity. apply trim_quotes_quoted.
Qed.
Lemma drop_prefix_self p r : drop_prefix p (p ++ r) = Some r.
Proof. induction p as [|a p IH]; cbn [append drop_prefix]; [destruct r; reflexivity|]. now rewrite Ascii.eqb_refl. Qed.
Lemma without_self p r : p <> "" -> without p (p ++ r) = without p r.
Proof.
  intros P. unfold without. destruct p as [|a p]; [contradiction|]. set (q := String a p) in *. rewrite slength_app.
  assert (L : exists n, String.length q = Datatypes.S n) by (eexists; reflexivity). destruct L as (n & ->).
  cbn [Nat.add without_from]. rewrite drop_prefix_self. apply without_from_fuel; [exact P | lia | lia].
Qed.
Lemma rust_name_dot su s : rust_name su (String "." s) = rust_name su s.
Proof.
  unfold rust_name. change (without "." (String "." s)) with (without "." ("." ++ s)%string). now rewrite without_self by discriminate.
Qed.

(** ** Rust names *)
Lemma without_char a s : without (String a "") s =
  (fix go (s : string) : string := match s with EmptyString => "" | String b s' => if Ascii.eqb a b then go s' else String b (go s') end) s.
Proof.
  unfold without. induction s as [|b s IH]; [reflexivity|]. cbn [String.length without_from drop_prefix].
  destruct (Ascii.eqb a b); [destruct s; exact IH | now f_equal].
Qed.
Lemma without_char_app a s t : without (String a "") (s ++ t) = (without (String a "") s ++ without (String a "") t)%string.
Proof.
  rewrite !without_char. induction s as [|b s IH]; [reflexivity|]. cbn [append]. destruct (Ascii.eqb a b); [exact IH|]. cbn [append]. now f_equal.
Qed.
Lemma without_char_none a s : has_no a s = true -> without (String a "") s = s.
Proof.
  rewrite without_char. induction s as [|b s IH]; intros H; [reflexivity|]. cbn [has_no] in H. apply andb_true_iff in H. destruct H as (H1 & H2).
  rewrite Ascii.eqb_sym. apply negb_true_iff in H1. rewrite H1. f_equal. now apply IH.
Qed.
Lemma dotted_parts parts : Forall (fun p => has_no "." p = true) parts -> without "." (String.concat "." parts) = String.concat "" parts.
Proof.
  induction 1 as [|p parts H F IH]; [reflexivity|]. destruct parts as [|q parts]; [now apply without_char_none|].
  change (String.concat "." (p :: q :: parts)) with (p ++ "." ++ String.concat "." (q :: parts))%string.
  rewrite (sconcat_cons p), !without_char_app, IH, (without_char_none "." p H). reflexivity.
Qed.
Lemma trim_left_none s : has_no quote s = true -> trim_left s = s.
Proof. destruct s as [|a s]; [reflexivity|]. cbn [has_no trim_left]. destruct (Ascii.eqb a quote); [discriminate | reflexivity]. Qed.
Lemma has_no_app a s t : has_no a (s ++ t) = (has_no a s && has_no a t)%bool.
Proof. induction s as [|b s IH]; cbn [append has_no]; [reflexivity|]. now rewrite IH, andb_assoc. Qed.
Lemma has_no_rev a s acc : has_no a (rev_text s acc) = (has_no a s && has_no a acc)%bool.
Proof.
  revert acc. induction s as [|b s IH]; intros acc; cbn [rev_text has_no]; [reflexivity|]. rewrite IH. cbn [has_no].
  destruct (has_no a s), (has_no a acc), (negb (Ascii.eqb b a)); reflexivity.
Qed.
Lemma rev_text_twice s acc : rev_text (rev_text s acc) "" = (rev_text acc "" ++ s)%string.
Proof.
  revert acc. induction s as [|a s IH]; intros acc; cbn [rev_text]; [now rewrite sapp_nil|]. rewrite IH. cbn [rev_text].
  rewrite (rev_text_app acc (String a "")). now rewrite sapp_assoc.
Qed.
Lemma trim_quotes_none s : has_no quote s = true -> trim_quotes s = s.
Proof.
  intros H. unfold trim_quotes. rewrite (trim_left_none s H). rewrite trim_left_none by (rewrite has_no_rev, H; reflexivity).
  rewrite rev_text_twice. reflexivity.
Qed.
(** The name of NNet.A.B.C is that of ABC. *)
Theorem rust_name_parts su parts :
  parts <> [] -> Forall (fun p => has_no "." p = true) parts -> has_no quote (String.concat "" parts) = true ->
  without "NNet" (String.concat "" parts) = String.concat "" parts ->
  rust_name su ("NNet." ++ String.concat "." parts)%string = su_pascal su (String.concat "" parts).
Proof.
  intros N D Q W. unfold rust_name. f_equal.
  rewrite without_char_app, (dotted_parts parts D). change (without "." "NNet.") with "NNet".
  rewrite without_self by discriminate. rewrite W. now apply trim_quotes_none.
Qed.
