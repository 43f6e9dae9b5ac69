(** * Facts about balance data on disk *)
From Coq Require Import Ascii Permutation.
From Verif Require Import Base Utf8 Convert ConvertSpec DetailsData Files BalanceFiles BalanceSpec BalanceText.
#[local] Open Scope string_scope.
#[local] Open Scope Z_scope.
#[local] Open Scope list_scope.

(** ** Disks *)
Lemma path_eqb_spec : forall a b, reflect (a = b) (path_eqb a b).
Proof.
  induction a as [|x a IH]; intros [|y b]; cbn [path_eqb]; try (constructor; discriminate); [now constructor|].
  destruct (String.eqb_spec x y) as [->|]; cbn [andb]; [|constructor; congruence]. destruct (IH b) as [->|]; constructor; congruence.
Qed.
Lemma dget_in : forall d p n, dget p d = Some n -> In (p, n) d.
Proof. induction d as [|[q x] d IH]; intros p n E; cbn [dget] in E; [discriminate|]. destruct (path_eqb_spec q p) as [->|]; [injection E as <-; now left|right; auto]. Qed.
Lemma in_dget : forall d p n, NoDup (map fst d) -> In (p, n) d -> dget p d = Some n.
Proof.
  induction d as [|[q x] d IH]; intros p n Hd Hi; [destruct Hi|]. cbn [map fst] in Hd. inversion Hd as [|? ? Hn Hd']; subst. cbn [dget].
  destruct Hi as [E|Hi]; [injection E as -> ->; destruct (path_eqb_spec p p); [reflexivity|congruence]|].
  destruct (path_eqb_spec q p) as [->|]; [exfalso; apply Hn; apply in_map_iff; exists (p, n); auto|auto].
Qed.
Lemma dget_dset : forall d p n q, dget q (dset p n d) = if path_eqb p q then Some n else dget q d.
Proof.
  induction d as [|[r x] d IH]; intros p n q; cbn [dset dget]; [reflexivity|]. destruct (path_eqb_spec r p) as [->|Hn]; cbn [dget].
  - destruct (path_eqb p q); reflexivity.
  - rewrite IH. destruct (path_eqb_spec r q) as [->|]; [|reflexivity]. destruct (path_eqb_spec p q); [congruence|reflexivity].
Qed.
Lemma dset_keys : forall d p n, NoDup (map fst d) -> NoDup (map fst (dset p n d)) /\ forall q, In q (map fst (dset p n d)) <-> q = p \/ In q (map fst d).
Proof.
  induction d as [|[r x] d IH]; intros p n Hd; cbn [dset map fst]; [split; [constructor; [intros []|constructor]|intros q; cbn; intuition congruence]|].
  cbn [map fst] in Hd. inversion Hd as [|? ? Hn Hd']; subst. destruct (path_eqb_spec r p) as [->|Hne]; cbn [map fst].
  - split; [exact Hd|]. intros q. cbn. intuition congruence.
  - destruct (IH p n Hd') as [I1 I2]. split; [constructor; [rewrite I2; intros [E|E]; [congruence|auto]|exact I1]|]. intros q. cbn [In]. rewrite I2. intuition congruence.
Qed.
Lemma child_some : forall p q n, child_of p q = Some n <-> q = p ++ [n].
Proof.
  intros p q n. unfold child_of. destruct (path_eqb_spec (removelast q) p) as [E|E].
  - destruct q as [|x q]; [split; [discriminate|intros H; destruct p; discriminate]|].
    assert (K : x :: q = p ++ [last (x :: q) ""]) by (rewrite <- E; apply app_removelast_last; discriminate).
    split; [intros H; injection H as <-; exact K|]. intros H. rewrite H, last_last. reflexivity.
  - split; [discriminate|]. intros ->. rewrite removelast_last in E. congruence.
Qed.
Lemma children_in : forall p d n x, In (n, x) (children p d) <-> In (p ++ [n], x) d.
Proof.
  intros p d n x. unfold children. rewrite in_flat_map. split.
  - intros ([q y] & Hi & Hc). cbn [fst snd] in Hc. destruct (child_of p q) as [n'|] eqn:E; [|destruct Hc]. destruct Hc as [Hc|[]]. injection Hc as -> ->. apply child_some in E as ->. exact Hi.
  - intros Hi. exists (p ++ [n], x). split; [exact Hi|]. cbn [fst snd]. assert (E : child_of p (p ++ [n]) = Some n) by now apply child_some. rewrite E. now left.
Qed.

Section Facts.
  Context {U : Type}.
  Variable dec : list Z -> option U.
  Lemma key_eqb_spec : forall a b : Z * string, reflect (a = b) (key_eqb a b).
  Proof. intros [v n] [w o]. unfold key_eqb. cbn [fst snd]. destruct (Z.eqb_spec v w) as [->|]; cbn [andb]; [|constructor; congruence]. destruct (String.eqb_spec n o) as [->|]; constructor; congruence. Qed.
  Lemma uget_uset : forall (m : units U) k u k', uget k' (uset k u m) = if key_eqb k k' then Some u else uget k' m.
  Proof.
    induction m as [|[k0 u0] m IH]; intros k u k'; cbn [uset uget]; [reflexivity|]. destruct (key_eqb_spec k0 k) as [->|Hn]; cbn [uget].
    - destruct (key_eqb k k'); reflexivity.
    - rewrite IH. destruct (key_eqb_spec k0 k') as [->|]; [|reflexivity]. destruct (key_eqb_spec k k'); [congruence|reflexivity].
  Qed.
  Lemma uget_in : forall (m : units U) k u, uget k m = Some u -> In (k, u) m.
  Proof. induction m as [|[k0 u0] m IH]; intros k u E; cbn [uget] in E; [discriminate|]. destruct (key_eqb_spec k0 k) as [->|]; [injection E as <-; now left|right; auto]. Qed.
  Lemma in_uget : forall (m : units U) k u, NoDup (map fst m) -> In (k, u) m -> uget k m = Some u.
  Proof.
    induction m as [|[k0 u0] m IH]; intros k u Hd Hi; [destruct Hi|]. cbn [map fst] in Hd. inversion Hd as [|? ? Hn Hd']; subst. cbn [uget].
    destruct Hi as [E|Hi]; [injection E as -> ->; destruct (key_eqb_spec k k); [reflexivity|congruence]|].
    destruct (key_eqb_spec k0 k) as [->|]; [exfalso; apply Hn; apply in_map_iff; exists (k, u); auto|auto].
  Qed.
  Lemma uset_keys : forall (m : units U) k u, NoDup (map fst m) -> NoDup (map fst (uset k u m)) /\ forall q, In q (map fst (uset k u m)) <-> q = k \/ In q (map fst m).
  Proof.
    induction m as [|[k0 u0] m IH]; intros k u Hd; cbn [uset map fst]; [split; [constructor; [intros []|constructor]|intros q; cbn; intuition congruence]|].
    cbn [map fst] in Hd. inversion Hd as [|? ? Hn Hd']; subst. destruct (key_eqb_spec k0 k) as [->|Hne]; cbn [map fst].
    - split; [exact Hd|]. intros q. cbn. intuition congruence.
    - destruct (IH k u Hd') as [I1 I2]. split; [constructor; [rewrite I2; intros [E|E]; [congruence|auto]|exact I1]|]. intros q. cbn [In]. rewrite I2. intuition congruence.
  Qed.
  (** ** Reading files one after the other *)
  Fixpoint load (l : list ((Z * string) * list Z)) (m : units U) : outcome (units U) :=
    match l with
    | [] => Ok m
    | (k, c) :: l' => match dec c with Some u => load l' (uset k u m) | None => Err (EOther "json") end
    end.
  Lemma load_app : forall a b m, load (a ++ b) m = obind (load a m) (load b).
  Proof. induction a as [|[k c] a IH]; intros b m; cbn [app load obind]; [reflexivity|]. destruct (dec c); [apply IH|reflexivity]. Qed.
  Lemma load_ok : forall l m, NoDup (map fst m) -> Forall (fun e => dec (snd e) <> None) l ->
    exists m', load l m = Ok m' /\ NoDup (map fst m') /\
      (forall k u, uget k m' = Some u -> uget k m = Some u \/ exists c, In (k, c) l /\ dec c = Some u) /\
      (forall k, In k (map fst l) \/ uget k m <> None -> uget k m' <> None) /\
      (forall k, ~ In k (map fst l) -> uget k m' = uget k m).
  Proof.
    induction l as [|[k c] l IH]; intros m Hm F; cbn [load].
    - exists m. split; [reflexivity|]. split; [exact Hm|]. split; [auto|]. split; [intros k [[]|H]; exact H|auto].
    - inversion F as [|? ? Hc F']; subst. cbn [snd] in Hc. destruct (dec c) as [u|] eqn:Ec; [|congruence].
      destruct (uset_keys m k u Hm) as [Hm' _]. destruct (IH _ Hm' F') as (m' & E & H0 & H1 & H2 & H3). exists m'. split; [exact E|]. split; [exact H0|]. split; [|split].
      + intros k' u' Hu. destruct (H1 _ _ Hu) as [K|(c' & Hi & K)]; [|right; exists c'; split; [now right|exact K]]. rewrite uget_uset in K. destruct (key_eqb_spec k k') as [->|]; [|now left].
        right. exists c. split; [now left|congruence].
      + intros k' Hk. apply H2. rewrite uget_uset. destruct (key_eqb_spec k k') as [->|Hne]; [right; discriminate|]. destruct Hk as [[Hk|Hk]|Hk]; [cbn in Hk; congruence|now left|now right].
      + intros k' Hk. cbn [map fst In] in Hk. rewrite H3 by tauto. rewrite uget_uset. destruct (key_eqb_spec k k'); [exfalso; apply Hk; now left|reflexivity].
  Qed.
  Lemma load_err : forall l m, Exists (fun e => dec (snd e) = None) l -> load l m = Err (EOther "json").
  Proof. induction l as [|[k c] l IH]; intros m H; cbn [load]; [inversion H|]. inversion H as [? ? Hc|? ? Hr]; subst; [cbn [snd] in Hc; now rewrite Hc|]. destruct (dec c); [auto|reflexivity]. Qed.
  Definition files_in (v : Z) (l : list (string * dnode)) : list ((Z * string) * list Z) :=
    flat_map (fun e => match snd e with DFile c => [((v, trim_end_matches ".json" (fst e)), c)] | DDir => [] end) l.
  Definition dirs_in (order : path -> list (string * dnode) -> list (string * dnode)) (d : disk) (l : list (string * dnode)) : list ((Z * string) * list Z) :=
    flat_map (fun e => match snd e with DFile _ => [] | DDir => match parse_u32 (fst e) with Some v => files_in v (order [fst e] (children [fst e] d)) | None => [] end end) l.
  Lemma read_files_load : forall v l m, read_files dec v l m = load (files_in v l) m.
  Proof. intros v. induction l as [|[f [|c]] l IH]; intros m; cbn [read_files files_in flat_map snd fst app load]; [reflexivity|apply IH|]. destruct (dec c); [apply IH|reflexivity]. Qed.
  Lemma read_dirs_load : forall order d l m, read_dirs dec order d l m = load (dirs_in order d l) m.
  Proof.
    intros order d. induction l as [|[s [|c]] l IH]; intros m; cbn [read_dirs dirs_in flat_map snd fst app load]; [reflexivity| |apply IH].
    destruct (parse_u32 s) as [v|]; [|apply IH]. rewrite load_app, read_files_load. destruct (load (files_in v (order [s] (children [s] d))) m) as [m'| |]; cbn [obind]; [apply IH|reflexivity|reflexivity].
  Qed.
  Definition asset_keys (l : list (string * list Z)) : list ((Z * string) * list Z) :=
    flat_map (fun e => match split_slash (fst e) with [s; n] => match parse_u32 s with Some v => [((v, trim_end_matches ".json" n), snd e)] | None => [] end | _ => [] end) l.
  Lemma read_assets_load : forall l m, read_assets dec l m = load (asset_keys l) m.
  Proof.
    induction l as [|[f c] l IH]; intros m; cbn [read_assets asset_keys flat_map fst snd load]; [reflexivity|]. destruct (split_slash f) as [|s [|n [|x y]]]; cbn [app]; try apply IH.
    destruct (parse_u32 s) as [v|]; cbn [app load]; [|apply IH]. destruct (dec c); [apply IH|reflexivity].
  Qed.
  (** What is read from a disk: its unit files. *)
  Lemma dirs_in_spec : forall order d k c, lists order -> good_disk d -> In (k, c) (dirs_in order d (order [] (children [] d))) <-> exists s f, unit_file d k s f c.
  Proof.
    intros order d [v n] c Ho (Hd & _ & Hp). unfold dirs_in. rewrite in_flat_map. split.
    - intros ([s x] & Hi & Hk). apply (Permutation_in _ (Permutation_sym (Ho _ _))) in Hi. apply children_in in Hi. cbn [fst snd app] in *. destruct x; [|destruct Hk].
      destruct (parse_u32 s) as [w|] eqn:Es; [|destruct Hk]. unfold files_in in Hk. apply in_flat_map in Hk as ([f y] & Hf & Hk). apply (Permutation_in _ (Permutation_sym (Ho _ _))) in Hf. apply children_in in Hf.
      cbn [fst snd app] in *. destruct y as [|c']; [destruct Hk|]. destruct Hk as [Hk|[]]. injection Hk as -> <- ->. exists s, f. split; [exact Hf|]. cbn [fst snd]. split; [now apply parse_u32_spec|now apply trim_spec].
    - intros (s & f & Hi & Hs & Hf). cbn [fst snd] in *. exists (s, DDir). split.
      + apply (Permutation_in _ (Ho _ _)). apply children_in. cbn [app]. destruct (Hp [s] f _ Hi) as [K|K]; [discriminate|exact K].
      + cbn [fst snd]. apply parse_u32_spec in Hs. rewrite Hs. unfold files_in. apply in_flat_map. exists (f, DFile c). split; [apply (Permutation_in _ (Ho _ _)); now apply children_in|].
        cbn [fst snd]. apply trim_spec in Hf. rewrite Hf. now left.
  Qed.
  Lemma asset_keys_spec : forall d l k c, good_disk d -> Permutation (assets_of d) l -> In (k, c) (asset_keys l) <-> exists s f, unit_file d k s f c.
  Proof.
    intros d l [v n] c (Hd & Hn & Hp) Hl. unfold asset_keys. rewrite in_flat_map. rewrite Forall_forall in Hn. split.
    - intros ([g c'] & Hi & Hk). apply (Permutation_in _ (Permutation_sym Hl)) in Hi. unfold assets_of in Hi. apply in_flat_map in Hi as ([p x] & Hi & Hg). cbn [fst snd] in *.
      destruct x as [|c'']; [destruct Hg|]. destruct Hg as [Hg|[]]. injection Hg as <- <-. destruct (Hn _ Hi) as [Hne Hf]. cbn [fst] in *.
      rewrite split_concat in Hk; [|exact Hne|eapply Forall_impl; [|exact Hf]; cbn; tauto].
      destruct p as [|s [|f [|a b]]]; try destruct Hk. { destruct (parse_u32 s) as [w|] eqn:Es; [|destruct Hk]. destruct Hk as [Hk|[]]. injection Hk as -> <- ->. exists s, f. split; [exact Hi|]. cbn [fst snd]. split; [now apply parse_u32_spec|now apply trim_spec]. }
    - intros (s & f & Hi & Hs & Hf). cbn [fst snd] in *. exists ((s ++ "/" ++ f)%string, c). split.
      + apply (Permutation_in _ Hl). unfold assets_of. apply in_flat_map. exists ([s; f], DFile c). split; [exact Hi|]. now left.
      + cbn [fst snd]. destruct (Hn _ Hi) as [_ F]. cbn [fst] in F. inversion F as [|? ? [_ F1] F2]; subst. inversion F2 as [|? ? [_ F3] _]; subst.
        rewrite (split_join s f F1), (split_plain f F3). apply parse_u32_spec in Hs. apply trim_spec in Hf. rewrite Hs, Hf. now left.
  Qed.
  Lemma load_disk : forall d l, (forall k c, In (k, c) l <-> exists s f, unit_file d k s f c) ->
    (forall k s f c, unit_file d k s f c -> dec c <> None) ->
    exists m, load l [] = Ok m /\ NoDup (map fst m) /\
      (forall k u, uget k m = Some u -> exists s f c, unit_file d k s f c /\ dec c = Some u) /\
      (forall k s f c, unit_file d k s f c -> uget k m <> None).
  Proof.
    intros d l Hl Hc. destruct (load_ok l []) as (m & E & H0 & H1 & H2 & _); [constructor|apply Forall_forall; intros [k c] Hi; apply Hl in Hi as (s & f & Hi); exact (Hc _ _ _ _ Hi)|].
    exists m. split; [exact E|]. split; [exact H0|]. split.
    - intros k u Hu. destruct (H1 _ _ Hu) as [K|(c & Hi & K)]; [discriminate|]. apply Hl in Hi as (s & f & Hi). exists s, f, c. auto.
    - intros k s f c Hf. apply H2. left. apply in_map_iff. exists (k, c). split; [reflexivity|]. apply Hl. eauto.
  Qed.
  Lemma load_disk_err : forall d l k s f c, (forall k c, In (k, c) l <-> exists s f, unit_file d k s f c) -> unit_file d k s f c -> dec c = None -> load l [] = Err (EOther "json").
  Proof. intros d l k s f c Hl Hf Hc. apply load_err. apply Exists_exists. exists (k, c). split; [apply Hl; eauto|exact Hc]. Qed.
  Lemma disk_unique : forall d (m : units U) k u, NoDup (map fst d) -> no_clash d ->
    (forall k u, uget k m = Some u -> exists s f c, unit_file d k s f c /\ dec c = Some u) -> (forall k s f c, unit_file d k s f c -> uget k m <> None) ->
    uget k m = Some u <-> exists s f c, unit_file d k s f c /\ dec c = Some u.
  Proof.
    intros d m k u Hd Hn H1 H2. split; [apply H1|]. intros (s & f & c & Hf & Hc). destruct (uget k m) as [u'|] eqn:E; [|now destruct (H2 _ _ _ _ Hf)].
    destruct (H1 _ _ E) as (s' & f' & c' & Hf' & Hc'). destruct (Hn _ _ _ _ _ _ _ Hf Hf') as [<- <-]. destruct Hf as [Hf _], Hf' as [Hf' _].
    apply (in_dget _ _ _ Hd) in Hf, Hf'. congruence.
  Qed.
End Facts.
