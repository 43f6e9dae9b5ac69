(** * Facts about the search for replays *)
From Coq Require Import Ascii.
From Verif Require Import Base Files.
#[local] Open Scope Z_scope.
#[local] Open Scope list_scope.

(** ** Any tree *)
Definition good_paths (t : tree) (d : nat) (source : path) (l : list path) : Prop :=
  Forall (fun p => exists names, p = source ++ names /\ replay_below t source names /\ (length names <= d)%nat) l.
Lemma usize_sub_le : forall bd a b, b <= a -> usize_sub bd a b = Ok (a - b).
Proof. intros bd a b Hl. unfold usize_sub. apply Z.leb_le in Hl. now rewrite Hl. Qed.
Definition search_ok (t : tree) (d : nat) (search : path -> Z -> outcome (list path)) : Prop :=
  forall p n, 0 <= n -> search p n <> Panic /\ forall l, search p n = Ok l -> Z.of_nat (length l) <= n /\ good_paths t d p l.
Lemma entry_loop_ok : forall bd t d search, search_ok t d search -> forall max_files source es0, t source = NDir (Some es0) -> forall entries sources, incl entries es0 ->
  Z.of_nat (length sources) <= max_files -> good_paths t (Datatypes.S d) source sources ->
  entry_loop bd t search max_files source entries sources <> Panic /\
  forall l, entry_loop bd t search max_files source entries sources = Ok l -> Z.of_nat (length l) <= max_files /\ good_paths t (Datatypes.S d) source l.
Proof.
  intros bd t d search Hs max_files source es0 Hd. induction entries as [|[name|] rest IH]; intros sources Hin Hle Hg; cbn [entry_loop].
  - split; [discriminate|]. intros l [= <-]. auto.
  - assert (Hr : incl rest es0) by (intros x Hx; apply Hin; right; exact Hx). assert (Hname : In (Some name) es0) by (apply Hin; left; reflexivity).
    destruct (is_dir t (source ++ [name])) eqn:Edir.
    + rewrite usize_sub_le by lia. cbn [obind]. destruct (Hs (source ++ [name]) (max_files - Z.of_nat (length sources)) ltac:(lia)) as [Hp Ho].
      destruct (search _ _) as [sub| |] eqn:Es; cbn [obind]; [|split; [discriminate|intros l [=]]|contradiction]. specialize (Ho sub eq_refl) as [Hl Hgs].
      destruct sub as [|s0 sub']; [apply IH; assumption|]. cbn [obind]. remember (s0 :: sub') as sub.
      replace (max_files - Z.of_nat (length sources) <? Z.of_nat (length sub)) with false by (symmetry; apply Z.ltb_ge; lia).
      apply IH; [exact Hr|rewrite app_length; lia|]. unfold good_paths. apply Forall_app. split; [exact Hg|]. eapply Forall_impl; [|exact Hgs].
      intros p (names & -> & Hb & Hlen). exists (name :: names). split; [now rewrite <- app_assoc|]. split; [eapply below_dir; eassumption|cbn [length]; lia].
    + destruct (is_replay_name name && is_file t (source ++ [name])) eqn:Ef; [|now apply IH].
      destruct (Z.leb_spec max_files (Z.of_nat (length sources))) as [Hm|Hm]; [split; [discriminate|]; intros l [= <-]; auto|].
      apply IH; [exact Hr|rewrite app_length; cbn [length]; lia|]. unfold good_paths. apply Forall_app. split; [exact Hg|]. constructor; [|constructor].
      apply andb_true_iff in Ef as [En Ef]. unfold is_file in Ef. destruct (t (source ++ [name])) eqn:Et; try discriminate Ef.
      exists [name]. split; [reflexivity|]. split; [eapply below_file; eassumption|cbn [length]; lia].
  - split; [discriminate|]. intros l [=].
Qed.
Lemma files_ok : forall bd t d, search_ok t d (get_matching_files bd t d).
Proof.
  intros bd t. induction d as [|d IH]; intros p n Hn; cbn [get_matching_files]; [split; [discriminate|]; intros l [= <-]; split; [cbn; lia|constructor]|].
  destruct (t p) as [[es|]| |] eqn:Et; try (split; [discriminate|]; intros l [= <-]; split; [cbn; lia|constructor]); [|split; [discriminate|intros l [=]]].
  eapply entry_loop_ok; [exact IH|exact Et|apply incl_refl|cbn; lia|constructor].
Qed.

(** ** Readable trees *)
Definition entry_found (t : tree) (below : path -> list path) (source : path) (name : string) : list path :=
  let p := source ++ [name] in if is_dir t p then below p else if is_replay_name name && is_file t p then [p] else [].
Fixpoint found (t : tree) (d : nat) (source : path) : list path :=
  match d with
  | O => []
  | Datatypes.S d' =>
      match t source with
      | NDir (Some es) => flat_map (fun e => match e with Some name => entry_found t (found t d') source name | None => [] end) es
      | _ => []
      end
  end.
Lemma firstn_app_le : forall A n (a b : list A), (length a <= n)%nat -> firstn n (a ++ b) = a ++ firstn (n - length a) b.
Proof. intros A n a b Hl. rewrite firstn_app, (firstn_all2 a) by assumption. reflexivity. Qed.
Lemma entry_loop_found : forall bd t d source max_files, 0 <= max_files -> forall names sources,
  (forall n, In n names -> is_dir t (source ++ [n]) = true -> forall m, 0 <= m -> get_matching_files bd t d (source ++ [n]) m = Ok (firstn (Z.to_nat m) (found t d (source ++ [n])))) ->
  Z.of_nat (length sources) <= max_files ->
  entry_loop bd t (get_matching_files bd t d) max_files source (map Some names) sources = Ok (firstn (Z.to_nat max_files) (sources ++ flat_map (entry_found t (found t d) source) names)).
Proof.
  intros bd t d source max_files H0. induction names as [|name names IH]; intros sources Hs Hle; cbn [map entry_loop flat_map].
  - rewrite app_nil_r, firstn_all2 by lia. reflexivity.
  - unfold entry_found at 1. cbv zeta. destruct (is_dir t (source ++ [name])) eqn:Edir.
    + rewrite usize_sub_le by lia. cbn [obind]. rewrite (Hs name (or_introl eq_refl) Edir) by lia. cbn [obind].
      set (sub := firstn (Z.to_nat (max_files - Z.of_nat (length sources))) (found t d (source ++ [name]))).
      assert (Hlen : (length sub <= Z.to_nat (max_files - Z.of_nat (length sources)))%nat) by (unfold sub; rewrite firstn_length; lia).
      assert (Step : entry_loop bd t (get_matching_files bd t d) max_files source (map Some names) (sources ++ sub) =
        Ok (firstn (Z.to_nat max_files) (sources ++ found t d (source ++ [name]) ++ flat_map (entry_found t (found t d) source) names))).
      { rewrite IH; [|intros n Hn; apply Hs; right; exact Hn|rewrite app_length; lia]. f_equal. rewrite <- app_assoc. rewrite !(firstn_app_le _ _ sources) by lia. f_equal.
        replace (Z.to_nat max_files - length sources)%nat with (Z.to_nat (max_files - Z.of_nat (length sources))) by lia. unfold sub.
        set (n := Z.to_nat (max_files - Z.of_nat (length sources))). set (f := found t d (source ++ [name])).
        rewrite !firstn_app. rewrite firstn_firstn, Nat.min_id. f_equal. f_equal. rewrite firstn_length. lia. }
      destruct sub as [|s0 sub'] eqn:Esub; [rewrite app_nil_r in Step; exact Step|]. cbn [obind].
      replace (max_files - Z.of_nat (length sources) <? Z.of_nat (length (s0 :: sub'))) with false by (symmetry; apply Z.ltb_ge; lia). exact Step.
    + destruct (is_replay_name name && is_file t (source ++ [name])).
      * destruct (Z.leb_spec max_files (Z.of_nat (length sources))) as [Hm|Hm].
        -- rewrite firstn_app, (firstn_all2 sources) by lia. replace (Z.to_nat max_files - length sources)%nat with O by lia. cbn [firstn]. now rewrite app_nil_r.
        -- rewrite IH; [|intros n Hn; apply Hs; right; exact Hn|rewrite app_length; cbn [length]; lia]. rewrite <- app_assoc. reflexivity.
      * rewrite IH; [reflexivity|intros n Hn; apply Hs; right; exact Hn|exact Hle].
Qed.
Lemma files_found : forall bd t d source, readable_below t d source -> forall max_files, 0 <= max_files -> get_matching_files bd t d source max_files = Ok (firstn (Z.to_nat max_files) (found t d source)).
Proof.
  intros bd t d source Hr. induction Hr as [p|d p Hd|d p names Et Hn Hb IH]; intros max_files H0.
  - cbn. now rewrite firstn_nil.
  - destruct d; cbn [get_matching_files found]; [now rewrite firstn_nil|]. unfold is_dir in Hd. destruct (t p); [discriminate| |]; now rewrite firstn_nil.
  - cbn [get_matching_files found]. rewrite Et. rewrite entry_loop_found; [|exact H0|intros n Hin _; now apply IH|cbn; lia].
    cbn [app]. rewrite !flat_map_concat_map, map_map. reflexivity.
Qed.
Lemma found_spec : forall t d source p, In p (found t d source) <-> exists names, p = source ++ names /\ replay_below t source names /\ (length names <= d)%nat.
Proof.
  intros t. induction d as [|d IH]; intros source p; cbn [found].
  - split; [intros []|]. intros (names & _ & Hb & Hl). destruct Hb; cbn in Hl; lia.
  - destruct (t source) as [[es|]| |] eqn:Et; try (split; [intros []|]; intros (names & _ & Hb & _); destruct Hb; congruence).
    rewrite in_flat_map. split.
    + intros ([name|] & Hin & Hp); [|destruct Hp]. unfold entry_found in Hp. cbv zeta in Hp. destruct (is_dir t (source ++ [name])) eqn:Edir.
      * apply IH in Hp as (names & -> & Hb & Hl). exists (name :: names). split; [now rewrite <- app_assoc|]. split; [eapply below_dir; eassumption|cbn [length]; lia].
      * destruct (is_replay_name name && is_file t (source ++ [name])) eqn:Ef; [|destruct Hp]. destruct Hp as [<-|[]]. apply andb_true_iff in Ef as [En Ef].
        unfold is_file in Ef. destruct (t (source ++ [name])) eqn:Ek; try discriminate Ef. exists [name]. split; [reflexivity|]. split; [eapply below_file; eassumption|cbn [length]; lia].
    + intros (names & -> & Hb & Hl). inversion Hb as [s es' name E1 Hin Ek En|s es' name names' E1 Hin Hb']; subst; rewrite Et in E1; injection E1 as <-; exists (Some name); (split; [exact Hin|]); unfold entry_found; cbv zeta.
      * unfold is_dir, is_file. rewrite Ek, En. left. reflexivity.
      * assert (Hd : is_dir t (source ++ [name]) = true) by (unfold is_dir; destruct Hb' as [s es2 n2 E2|s es2 n2 ns2 E2]; now rewrite E2). rewrite Hd. apply IH. exists names'. rewrite <- app_assoc. split; [reflexivity|]. split; [exact Hb'|cbn [length] in Hl; lia].
Qed.
Lemma NoDup_flat_map : forall A B (f : A -> list B) l, NoDup l -> (forall a, In a l -> NoDup (f a)) -> (forall a a' b, In a l -> In a' l -> In b (f a) -> In b (f a') -> a = a') -> NoDup (flat_map f l).
Proof.
  intros A B f. induction l as [|a l IH]; intros Hn Hf Hd; [constructor|]. inversion Hn as [|x y Hx Hy]; subst. cbn [flat_map].
  assert (Happ : forall u v : list B, NoDup u -> NoDup v -> (forall b, In b u -> In b v -> False) -> NoDup (u ++ v)).
  { intros u. induction u as [|b u IHu]; intros v Hu Hv Hc; [exact Hv|]. inversion Hu; subst. cbn [app]. constructor.
    - intros Hi. apply in_app_or in Hi as [Hi|Hi]; [contradiction|exact (Hc b (or_introl eq_refl) Hi)].
    - apply IHu; [assumption|assumption|]. intros b' K1 K2. exact (Hc b' (or_intror K1) K2). }
  apply Happ; [apply Hf; left; reflexivity|apply IH; [exact Hy|intros; apply Hf; right; assumption|intros a1 a2 b H1 H2; apply Hd; right; assumption]|].
  intros b H1 H2. apply in_flat_map in H2 as (a' & Ha' & H2). assert (a = a') by (eapply Hd; [left; reflexivity|right; exact Ha'|exact H1|exact H2]). subst. contradiction.
Qed.
Lemma found_NoDup : forall t d source, readable_below t d source -> NoDup (found t d source).
Proof.
  intros t d source Hr. induction Hr as [p|d p Hd|d p names Et Hn Hb IH].
  - constructor.
  - destruct d; cbn [found]; [constructor|]. unfold is_dir in Hd. destruct (t p); [discriminate|constructor|constructor].
  - cbn [found]. rewrite Et. rewrite flat_map_concat_map, map_map, <- flat_map_concat_map. apply NoDup_flat_map; [exact Hn| |].
    + intros n Hin. unfold entry_found. cbv zeta. destruct (is_dir _ _); [now apply IH|]. destruct (_ && _); [repeat constructor; intros []|constructor].
    + intros n n' q Hi Hi' Hq Hq'.
      assert (Hpre : forall m, In q (entry_found t (found t d) p m) -> exists r, q = p ++ m :: r).
      { intros m Hm. unfold entry_found in Hm. cbv zeta in Hm. destruct (is_dir _ _); [apply found_spec in Hm as (r & -> & _); exists r; now rewrite <- app_assoc|].
        destruct (_ && _); [|destruct Hm]. destruct Hm as [<-|[]]. exists []. reflexivity. }
      destruct (Hpre n Hq) as (r & ->). destruct (Hpre n' Hq') as (r' & E). apply app_inv_head in E. congruence.
Qed.
(** ** Names *)
Lemma split_dot_sound : forall s a b, split_dot s = Some (a, b) -> s = (a ++ "." ++ b)%string.
Proof.
  induction s as [|c s IH]; intros a b E; cbn [split_dot] in E; [discriminate|]. destruct (split_dot s) as [[a' b']|].
  - injection E as <- <-. cbn [append]. f_equal. now apply IH.
  - destruct (Ascii.eqb_spec c "."%char) as [->|]; [|discriminate]. injection E as <- <-. reflexivity.
Qed.
Lemma split_dot_replay : forall a, split_dot (a ++ ".SC2Replay") = Some (a, "SC2Replay"%string).
Proof. induction a as [|c a IH]; [reflexivity|]. cbn [append split_dot]. now rewrite IH. Qed.
Lemma replay_name : forall name, is_replay_name name = true <-> exists a, a <> EmptyString /\ name = (a ++ ".SC2Replay")%string.
Proof.
  intros name. unfold is_replay_name, extension. split.
  - destruct (split_dot name) as [[a b]|] eqn:E; [|discriminate]. destruct a as [|c a]; [discriminate|]. intros Hb. apply String.eqb_eq in Hb. subst b. exists (String c a). split; [discriminate|]. now apply split_dot_sound in E.
  - intros (a & Ha & ->). rewrite split_dot_replay. destruct a; [contradiction|reflexivity].
Qed.
